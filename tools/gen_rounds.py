#!/usr/bin/env python3
"""Extract the unrolled round calls from the headers into Gallina lists.

Each C++ line `name(r1, r2, ..., x1, x2, ...);` inside addDataImpl becomes
`Call name [r1; r2; ...] [x1; x2; ...]`: registers (identifiers) first, then the other
arguments: C integer literals, or names of local functions (numbered as listed in JOBS).
An argument `v[i]` is register i; `m[i]` and `cTable[i]` give the number i.  Nothing is
reordered, deduplicated or checked here; the interpreter is in Model/<Alg>.v.
"""
import re, sys, os

SRC = sys.argv[1] if len(sys.argv) > 1 else '/repo/src'
OUT = sys.argv[2] if len(sys.argv) > 2 else os.path.join(os.path.dirname(__file__), '..', 'rocq', 'theories', 'Model', 'Gen')

# header, first line, last line, names of callees, registers in declaration order, local functions
JOBS = {
    'Sha1Calls': ('sha1.h', 462, 612, ['sha1Round1', 'sha1Round1a', 'sha1Round2', 'sha1Round2a', 'sha1Round3', 'sha1Round4'],
                  ['a', 'b', 'c', 'd', 'e']),
    'Md4Calls': ('md4.h', 457, 521, ['round1', 'round2', 'round3'], ['aa', 'bb', 'cc', 'dd']),
    'Md5Calls': ('md5.h', 480, 552, ['round'], ['a', 'b', 'c', 'd'], ['f', 'g', 'h', 'ii']),
    'Ripemd128Calls': ('ripemd_128.h', 484, 611, ['lineLeft', 'lineRight'],
                       ['a', 'b', 'c', 'd', 'aa', 'bb', 'cc', 'dd'], ['f1', 'f2', 'f3', 'f4']),
    'Ripemd160Calls': ('ripemd_160.h', 492, 651, ['lineLeft', 'lineRight'],
                       ['a', 'b', 'c', 'd', 'e', 'aa', 'bb', 'cc', 'dd', 'ee'], ['f1', 'f2', 'f3', 'f4', 'f5']),
    'Ripemd256Calls': ('ripemd_256.h', 497, 631, ['lineLeft', 'lineRight', 'swap'],
                       ['a', 'b', 'c', 'd', 'aa', 'bb', 'cc', 'dd'], ['f1', 'f2', 'f3', 'f4']),
    'Ripemd320Calls': ('ripemd_320.h', 506, 674, ['lineLeft', 'lineRight', 'swap'],
                       ['a', 'b', 'c', 'd', 'e', 'aa', 'bb', 'cc', 'dd', 'ee'], ['f1', 'f2', 'f3', 'f4', 'f5']),
    'Has160Calls': ('has_160.h', 485, 589, ['extendXTable', 'round1', 'round2', 'round3', 'round4'], ['a', 'b', 'c', 'd', 'e']),
    'Blake1_224Calls': ('blake1_224.h', 493, 617, ['blakeMix'], []),
    'Blake1_256Calls': ('blake1_256.h', 495, 619, ['blakeMix'], []),
    'Blake1_384Calls': ('blake1_384.h', 560, 702, ['blakeMix'], []),
    'Blake1_512Calls': ('blake1_512.h', 562, 704, ['blakeMix'], []),
    'Blake2Calls': ('blake2.h', 534, 629, ['blakeMix'], []),
    'Blake2sCalls': ('blake2s.h', 468, 547, ['blakeMix'], []),
    'HasVCalls': ('unfinished/has_v_320.cpp', 551, 791, ['extendTable', 'lineLeft', 'lineRight', 'swapChainVars'],
                  ['a', 'b', 'c', 'd', 'e', 'f', 'g', 'h', 'i', 'j'], ['f0', 'f1', 'f2', 'f3', 'f4', 'xTable', 'yTable']),
    'Sm3Calls': ('sm3.h', 498, 577, ['sm3Round1', 'sm3Round2'], ['a', 'b', 'c', 'd', 'e', 'f', 'g', 'h']),
}

def num(s):
    s = s.strip()
    m = re.fullmatch(r'(0[xX][0-9a-fA-F]+|\d+)[uUlL]*', s)
    if not m:
        raise SystemExit('not a literal: ' + s)
    return int(m.group(1), 0)

def extract(header, first, last, names, regs, funcs):
    lines = open(os.path.join(SRC, header)).read().split('\n')
    calls = []
    pat = re.compile(r'^\s*(' + '|'.join(sorted(names, key=len, reverse=True)) + r')\((.*)\);\s*$')
    for no in range(first, last + 1):
        m = pat.match(lines[no - 1])
        if not m:
            continue
        args = [x.strip() for x in m.group(2).split(',')] if m.group(2).strip() else []
        rs, xs = [], []
        for x in args:
            if x in regs:
                assert not xs, (header, no)
                rs.append(x)
            elif re.fullmatch(r'v\[\d+\]', x):
                assert not xs, (header, no)
                rs.append(x[2:-1])
            elif re.fullmatch(r'(m|cTable)\[\d+\]', x):
                xs.append(num(x[x.index('[') + 1:-1]))
            elif x in funcs:
                xs.append(x)
            else:
                xs.append(num(x))
        calls.append((no, m.group(1), rs, xs))
    return calls

def emit(mod, job):
    header, first, last, names, regs = job[:5]
    funcs = job[5] if len(job) > 5 else []
    calls = extract(header, first, last, names, regs, funcs)
    out = []
    out.append('(** Generated by tools/gen_rounds.py from %s: the calls of %s' % (header, ', '.join(names)))
    out.append('    in lines %d-%d, in source order (last number of each line: source line). *)' % (first, last))
    out.append('From Coq Require Import List NArith.')
    out.append('From Verif.Model Require Import Call.')
    out.append('Import ListNotations.')
    out.append('')
    out.append('Inductive fn := %s.' % ' | '.join(names))
    for i, r in enumerate(regs):
        out.append('Local Notation %s := %d%%nat (only parsing).' % (r, i))
    for i, r in enumerate(funcs):
        out.append('Local Notation %s := %d%%N (only parsing).' % (r, i))
    out.append('')
    out.append('Definition calls : list (call fn) := [')
    for k, (no, f, rs, xs) in enumerate(calls):
        sep = ';' if k + 1 < len(calls) else ''
        out.append('  Call %s [%s] [%s]%%N%s   (* %d *)' % (f, '; '.join(rs), '; '.join(x if isinstance(x, str) else hex(x) if x > 255 else str(x) for x in xs), sep, no))
    out.append('].')
    text = '\n'.join(out) + '\n'
    os.makedirs(OUT, exist_ok=True)
    open(os.path.join(OUT, mod + '.v'), 'w').write(text)

if __name__ == '__main__':
    for mod, job in JOBS.items():
        emit(mod, job)
