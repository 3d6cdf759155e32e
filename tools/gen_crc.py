#!/usr/bin/env python3
# transcribes crc32LUT of /repo/src/crc_32.h (lines 145-691) into Model/Gen/Crc32Table.v
import re
lines = open('/repo/src/crc_32.h').read().split('\n')
a = next(i for i, l in enumerate(lines) if 'uint32_t crc32LUT[16][256]' in l)
rows, cur, i = [], None, a + 2
while len(rows) < 16:
    l = lines[i].strip()
    if l == '{': cur = []; first = i + 1
    elif l.startswith('}'): rows.append((cur, first, i + 1))
    else: cur += re.findall(r'0x[0-9A-Fa-f]+', l)
    i += 1
o = ['(** Generated by tools/gen_crc.py from crc_32.h:145-691: crc32LUT[16][256]. *)',
     'From Coq Require Import List NArith.', 'Import ListNotations.', 'Local Open Scope N_scope.', '']
for k, (r, f, t) in enumerate(rows):
    assert len(r) == 256
    o.append('(** crc_32.h:%d-%d *)' % (f, t))
    o.append('Definition lut%d : list N := [' % k)
    for j in range(0, 256, 8):
        o.append('  ' + '; '.join(x.lower() for x in r[j:j+8]) + (';' if j < 248 else ''))
    o.append('].')
o.append('Definition crc32LUT : list (list N) := [' + '; '.join('lut%d' % k for k in range(16)) + '].')
open('/verif/rocq/theories/Model/Gen/Crc32Table.v', 'w').write('\n'.join(o) + '\n')
