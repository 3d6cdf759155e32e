#!/usr/bin/env python3
"""Rewrites MANIFEST.json from the theorems in rocq/theories/Props and the notes in tools/notes.json."""
import json, glob, os, re
here = os.path.dirname(os.path.dirname(os.path.abspath(__file__)))
notes = json.load(open(os.path.join(here, 'tools/notes.json')))
thms = {}
for f in sorted(glob.glob(os.path.join(here, 'rocq/theories/Props/*.v'))):
    text = open(f).read()
    for name in re.findall(r'^Theorem (\w+)', text, re.M):
        m = re.match(r'(C\d\d)_', name)
        if m:
            thms.setdefault(m.group(1), []).append(name)
claims = []
for line in open(os.path.join(here, 'properties.jsonl')):
    pid = json.loads(line)['id']
    if pid not in thms:
        continue
    entry = notes.get(pid, {})
    status = entry.get('status') or ('partial' if any(t.endswith(('_partial', '_refuted')) for t in thms[pid]) else 'proved')
    claims.append({'property': pid, 'status': status, 'theorems': thms[pid], 'note': entry.get('note', '')})
with open(os.path.join(here, 'MANIFEST.json'), 'w') as out:
    out.write('{"claims": [\n' + ',\n'.join(json.dumps(c) for c in claims) + '\n]}\n')
