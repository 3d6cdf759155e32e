#!/usr/bin/env python3
"""Extract constant tables from the headers into Gallina lists.

The literals between the first `{` after the given line and its matching `}` are copied in
order (nested braces are flattened).  Sibling headers that must hold the same table are
compared with the first one; a difference stops the generator.
"""
import re, sys, os

SRC = sys.argv[1] if len(sys.argv) > 1 else '/repo/src'
OUT = sys.argv[2] if len(sys.argv) > 2 else os.path.join(os.path.dirname(__file__), '..', 'rocq', 'theories', 'Model', 'Gen')

# module: [(definition, declaration pattern, count, headers[, rows])]; a table with rows is a list of lists
JOBS = {
    'Sha2Tables': [
        ('kTable32', r'uint32_t kTable\[64\] =', 64, ['sha2_256.h', 'sha2_224.h']),
        ('kTable64', r'uint64_t kTable\[80\] =', 80, ['sha2_512.h', 'sha2_384.h', 'sha2_512_224.h', 'sha2_512_256.h']),
    ],
    'Blake1Tables': [
        ('cTable32', r'uint32_t cTable\[16\] =', 16, ['blake1_256.h', 'blake1_224.h']),
        ('cTable64', r'uint64_t cTable\[16\] =', 16, ['blake1_512.h', 'blake1_384.h']),
    ],
    'Md2Tables': [('piSubst', r'Byte piSubst\[256\] =', 256, ['md2.h'])],
    'TigerTables': [('tTable', r'uint64_t tTable\[4\]\[256\] =', 1024, ['tiger.h'], 4)],
    'WhirlpoolTables': [('cTable', r'uint64_t cTable\[8\]\[256\] =', 2048, ['whirlpool.h'], 8),
                        ('roundConstant', r'uint64_t roundConstant\[ROUND\] =', 10, ['whirlpool.h'])],
    'KeccakTables': [('roundConstantTable', r'uint64_t roundConstantTable\[24\] =', 24, ['sha3.h'])],
    'Has160Tables': [('lTable', r'unsigned int lTable\[80\] =', 80, ['has_160.h'])],
    'HasVTables': [('sTable', r'unsigned int sTable\[20\] =', 20, ['unfinished/has_v_320.cpp']),
                   ('mTable', r'unsigned int mTable\[100\] =', 100, ['unfinished/has_v_320.cpp']),
                   ('lut', r'unsigned int lut\[5\]\[16\] =', 80, ['unfinished/has_v_320.cpp'], 5)],
}

def table(header, pat):
    text = open(os.path.join(SRC, header)).read()
    m = re.search(pat, text)
    if not m:
        raise SystemExit('%s: no %s' % (header, pat))
    first = text.count('\n', 0, m.start()) + 1
    i = text.index('{', m.end())
    depth, j = 0, i
    while True:
        if text[j] == '{': depth += 1
        if text[j] == '}':
            depth -= 1
            if depth == 0: break
        j += 1
    last = text.count('\n', 0, j) + 1
    body = re.sub(r'//[^\n]*', '', text[i:j])
    lits = re.findall(r'\b(0[xX][0-9a-fA-F]+|\d+)[uUlL]*\b', body)
    return first, last, [int(x, 0) for x in lits]

def lst(name, vals, out):
    out.append('Definition %s : list N := [' % name)
    for k in range(0, len(vals), 8):
        out.append('  ' + '; '.join('0x%x' % v for v in vals[k:k + 8]) + (';' if k + 8 < len(vals) else ''))
    out.append('].')

def rho_pi(out):
    """The initialiser of tmp[5][5]: lane row, lane column and rotation of each entry."""
    text = open(os.path.join(SRC, 'sha3.h')).read()
    i = text.index('const uint64_t tmp[5][5] =')
    j = text.index('};', i)
    ent = re.findall(r'rotl\(m_state\[(\d)\]\[(\d)\], \(\s*(\d+) % m_params\.w\)\)', text[i:j])
    assert len(ent) == 25 == text[i:j].count('rotl')
    out.append('')
    out.append('(** tmp[y][x]: rotl(m_state[a][b], (c %% m_params.w)) as (a, b, c)      sha3.h:%d-%d *)' % (
        text.count('\n', 0, i) + 1, text.count('\n', 0, j) + 1))
    out.append('Definition rhoPi : list (nat * nat * N) := [')
    for k in range(0, 25, 5):
        out.append('  ' + '; '.join('(%s%%nat, %s%%nat, %s)' % e for e in ent[k:k + 5]) + (';' if k < 20 else ''))
    out.append('].')

def emit(mod, defs):
    out = ['(** Generated by tools/gen_tables.py. *)',
           'From Coq Require Import List NArith.', 'Import ListNotations.', 'Local Open Scope N_scope.']
    if mod == 'KeccakTables':
        rho_pi(out)
    for name, pat, count, headers, *rows in defs:
        first, last, vals = table(headers[0], pat)
        assert len(vals) == count, (mod, name, len(vals))
        for h in headers[1:]:
            assert table(h, pat)[2] == vals, (mod, name, h)
        out.append('')
        out.append('(** %s:%d-%d%s *)' % (headers[0], first, last,
                   ''.join('; same in ' + h for h in headers[1:])))
        if rows:
            n = count // rows[0]
            for r in range(rows[0]):
                lst('%s_%d' % (name, r), vals[r * n:(r + 1) * n], out)
            out.append('Definition %s : list (list N) := [%s].' % (name, '; '.join('%s_%d' % (name, r) for r in range(rows[0]))))
        else:
            lst(name, vals, out)
    os.makedirs(OUT, exist_ok=True)
    open(os.path.join(OUT, mod + '.v'), 'w').write('\n'.join(out) + '\n')

if __name__ == '__main__':
    for mod, defs in JOBS.items():
        emit(mod, defs)
