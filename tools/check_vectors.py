#!/usr/bin/env python3
"""Runs the model on the vectors of /repo/tests (a test of the model, outside the build).
usage: check_vectors.py <output.v> [max bytes]; then coqc -Q <theories> Verif <output.v>.
Reads the statements REQUIRE("hex" == Hash(args).addData(s, n)...finalize().toString()) and the loops
"for (i < n) t.addData(s, k)" followed by REQUIRE("hex" == t.finalize().toString()); everything else is listed as skipped."""
import glob, os, re, sys
out, limit = sys.argv[1], int(sys.argv[2]) if len(sys.argv) > 2 else 2000

def unescape(body):
    res, i = [], 0
    while i < len(body):
        c = body[i]
        if c == '\\':
            n = body[i + 1]
            if n == 'x':
                m = re.match(r'[0-9a-fA-F]+', body[i + 2:])
                res.append(int(m.group(0), 16)); i += 2 + len(m.group(0)); continue
            m = re.match(r'[0-7]{1,3}', body[i + 1:])
            if m:
                res.append(int(m.group(0), 8)); i += 1 + len(m.group(0)); continue
            res.append({'n': 10, 't': 9, 'r': 13}.get(n, ord(n))); i += 2; continue
        res += list(c.encode()); i += 1
    return res
def literal(text):
    parts = re.findall(r'"((?:[^"\\]|\\.)*)"', text, re.S)
    return [b for p in parts for b in unescape(p)]
def cut_strlen(v):
    return v[:v.index(0)] if 0 in v else v
def split_args(s):
    res, depth, cur, q = [], 0, '', False
    i = 0
    while i < len(s):
        c = s[i]
        if q:
            cur += c
            if c == '\\': cur += s[i + 1]; i += 1
            elif c == '"': q = False
        elif c == '"': q = True; cur += c
        elif c in '({': depth += 1; cur += c
        elif c in ')}': depth -= 1; cur += c
        elif c == ',' and depth == 0: res.append(cur.strip()); cur = ''
        else: cur += c
        i += 1
    if cur.strip(): res.append(cur.strip())
    return res
def call_chain(expr):
    """Hash(a).addData(b)...: list of (name, argument text)"""
    res, i = [], 0
    while i < len(expr):
        m = re.match(r'\s*\.?\s*(\w+)\s*\(', expr[i:])
        if not m: return None
        j = i + m.end(); depth, q = 1, False
        k = j
        while depth:
            c = expr[k]
            if q:
                if c == '\\': k += 1
                elif c == '"': q = False
            elif c == '"': q = True
            elif c == '(': depth += 1
            elif c == ')': depth -= 1
            k += 1
        res.append((m.group(1), expr[j:k - 1].strip())); i = k
    return res

lines, skipped, count = [], [], 0
def coq_bytes(v):
    if len(v) > 8 and len(set(v)) == 1: return f'(repeat {v[0]} {len(v)}%nat)'
    return '(unhex "%s")' % ''.join('%02x' % b for b in v)
def emit(name, cls, args, chunks, expect, where):
    global count
    chunks = list(chunks)
    if sum(len(c) for c in chunks) > limit: skipped.append((where, 'long')); return
    if len(chunks) > 8 and all(c == chunks[0] for c in chunks):
        ds = f'(repeat {coq_bytes(chunks[0])} {len(chunks)}%nat)'
    else:
        ds = '[' + '; '.join(coq_bytes(c) for c in chunks) + ']'
    e = f'(unhex "{expect}")'
    if cls in ('CSHAKE_128', 'CSHAKE_256', 'TupleHash_128', 'TupleHash_256'):
        n = eval(args[0].replace('/', '//'))
        texts = [coq_bytes(literal(a)) for a in args[1:]]
        lines.append(('OBJ', cls, n, texts, ds, e, where)); count += 1; return
    if cls.startswith('SHAKE'):
        c = f'({cls} {eval(args[0].replace("/", "//"))})'
    elif cls == 'SipHash':
        key = args[0]
        c = '(SipHash %d %d)' % (int.from_bytes(bytes(key[:8]), 'little'), int.from_bytes(bytes(key[8:]), 'little'))
    else:
        c = cls
    lines.append(('CLS', c, ds, e, where)); count += 1

for f in sorted(glob.glob('/repo/tests/test_*.cpp')):
    text = open(f, encoding='utf-8').read()
    for case in re.split(r'TEST_CASE', text)[1:]:
        m = re.search(r'using Hash = Chocobo1::(\w+);', case)
        if not m: continue
        cls = m.group(1)
        # statements in order
        var, obj = {}, {}
        where0 = os.path.basename(f)
        body = re.sub(r'//.*', '', case)
        stmts, depth, cur, q = [], 0, '', False
        i = 0
        while i < len(body):
            c = body[i]
            cur += c
            if q:
                if c == '\\': cur += body[i + 1]; i += 1
                elif c == '"': q = False
            elif c == '"': q = True
            elif c == '(': depth += 1
            elif c == ')': depth -= 1
            elif c == ';' and depth == 0: stmts.append(cur.strip()); cur = ''
            i += 1
        def value(a):
            """the bytes a call of addData gets"""
            parts = split_args(a)
            if len(parts) == 1:
                if parts[0].startswith('"'): return literal(parts[0]) + [0]
                n = parts[0]
                v, z = var[n]
                return v + [0] if z else v
            p, n = parts
            if re.fullmatch(r'&?\w+', p): v, z = var[p.lstrip('&')]; base = p.lstrip('&')
            else:
                mm = re.fullmatch(r'(\w+)\.data\(\)(?:\s*\+\s*(\d+))?', p); base = mm.group(1)
                v, z = var[base]; v = v[int(mm.group(2) or 0):]
            full = v + [0] if z else v
            if n == f'strlen({base})': return cut_strlen(v)
            if n in (f'(ARRAY_LENGTH({base}) - 1)',): return full[:-1]
            mm = re.fullmatch(r'\(strlen\((\w+)\) \+ 1\)', n)
            if mm: return full[:len(cut_strlen(var[mm.group(1)][0])) + 1]
            if n in (f'ARRAY_LENGTH({base})', f'sizeof({base})'): return full
            mm = re.fullmatch(r'%s\.size\(\)(?:\s*-\s*(\d+))?' % base, n)
            if mm: return full[:len(var[base][0]) - int(mm.group(1) or 0)]
            return full[:int(n)]
        for s in stmts:
            s1 = re.sub(r'\\\n', '\n', s); s1 = re.sub(r'^\{\s*', '', s1)
            try:
                m = re.match(r'const char (\w+)\[\]\s*=\s*(".*");$', s1, re.S)
                if m: var[m.group(1)] = (literal(m.group(2)), True); continue
                m = re.match(r'const (?:unsigned char|uint8_t|char) (\w+)\[(\d*)\]\s*=\s*\{(.*)\};$', s1, re.S)
                if m:
                    v = [int(x, 0) for x in m.group(3).replace('\n', ' ').split(',') if x.strip()]
                    n = int(m.group(2) or len(v)); var[m.group(1)] = (v + [0] * (n - len(v)), False); continue
                m = re.match(r"const unsigned char (\w+) = (0x\w+);$", s1)
                if m: var[m.group(1)] = ([int(m.group(2), 16)], False); continue
                m = re.match(r"const std::vector<char> (\w+)\((\d+), '(.*)'\);$", s1)
                if m: var[m.group(1)] = ([unescape(m.group(3))[0]] * int(m.group(2)), False); continue
                m = re.match(r'Hash (\w+)(?:\((.*)\))?;$', s1, re.S)
                if m: obj[m.group(1)] = (split_args(m.group(2) or ''), []); continue
                m = re.match(r'for \((?:long )?int i = 0\s*; i < (\d+); \+\+i\)\s*(\w+)\.(?:addData|nextData)\((.*)\);$', s1, re.S)
                if m:
                    v = value(m.group(3)); obj[m.group(2)][1].extend([v] * int(m.group(1))); continue
                m = re.match(r'REQUIRE\("([0-9a-f]+)"\s*==\s*(.*)\);$', s1, re.S)
                if m:
                    ch = call_chain(m.group(2))
                    t = re.match(r'(\w+)\.finalize\(\)\.toString\(\)$', m.group(2))
                    w = f'{where0} {cls} {m.group(1)[:16]}'
                    if t: args, chunks = obj[t.group(1)]
                    elif ch and ch[0][0] == 'Hash' and ch[-1][0] == 'toString' and ch[-2][0] == 'finalize':
                        args = split_args(ch[0][1]); chunks = [value(a) for _, a in ch[1:-2]]
                    else: skipped.append((where0, s1[:90])); continue
                    if cls == 'SipHash': args = [var[args[0]][0]]
                    emit(None, cls, args, chunks, m.group(1), w); continue
                skipped.append((where0 + ' ' + cls, re.sub(r'\s+', ' ', s1)[:90]))
            except Exception as ex:
                skipped.append((where0 + ' ' + cls, repr(ex) + re.sub(r'\s+', ' ', s1)[:90]))
with open(out, 'w') as o:
    o.write('''From Coq Require Import String List NArith ZArith.
From Verif.Base Require Import Res.
From Verif.Spec Require Import ObjClient.
From Verif.Model Require Import Api Library.
From Verif.Tests Require Import Kit.
From Verif.Model Require Import ObjApi.
From Verif.Model Require CShake TupleHash.
Import ListNotations.
Local Open Scope N_scope.
''')
    # std::log2 of the values that occur, as this machine computes it
    import math
    entries = '; '.join('(%d, %d)' % (v, round(math.log2(v) * 2 ** 52)) for v in sorted({8 * k for k in range(1, 601)} | {136, 168}))
    o.write('Definition log2_entries : list (N * N) := [%s].\n' % entries)
    o.write('Definition log2_table (v : N) : N := match find (fun e => fst e =? v) log2_entries with Some e => snd e | None => 0 end.\n')
    k = 0
    for l in lines:
        k += 1
        if l[0] == 'CLS':
            o.write(f'(* {l[4]} *)\nExample v{k} : hash_chunks (class {l[1]} false) {l[2]} = Ok {l[3]}. Proof. vm_compute. reflexivity. Qed.\n')
        else:
            _, cls, n, texts, ds, e, w = l
            mod = 'CShake' if cls.startswith('CSHAKE') else 'TupleHash'
            texts = (texts + ['[]', '[]'])[:2 if mod == 'CShake' else 1]
            o.write(f'(* {w} *)\nExample v{k} : ohash (Model.{mod}.cls{cls[-3:]} log2_table false) '
                    f"(({n})%Z, {', '.join(texts)}) {ds} = Ok {e}. Proof. vm_compute. reflexivity. Qed.\n")
print(count, 'vectors,', len(skipped), 'statements skipped')
for s in skipped: print('  ', *s)
