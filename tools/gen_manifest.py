#!/usr/bin/env python3
"""Regenerates MANIFEST.json from the theorem names in rocq/theories/*Props.v and the notes in tools/status.json."""
import json, re, glob, os
root = os.path.dirname(os.path.dirname(os.path.abspath(__file__)))
status = json.load(open(os.path.join(root, 'tools', 'status.json')))
thms = {}
for f in sorted(glob.glob(os.path.join(root, 'rocq', 'theories', '*Props.v'))):
    for m in re.finditer(r'^Theorem\s+((C\d\d+)_\w+)', open(f).read(), re.M):
        thms.setdefault(m.group(2), []).append(m.group(1))
claims = []
for line in open(os.path.join(root, 'properties.jsonl')):
    pid = json.loads(line)['id']
    names = thms.get(pid, [])
    st, note = status.get(pid, [None, ''])
    if not names:
        if st == 'not_applicable':
            claims.append({'property': pid, 'status': st, 'theorems': [], 'note': note})
        continue
    if st is None:
        st = 'partial' if any(n.endswith(('_partial', '_refuted')) for n in names) else 'proved'
    claims.append({'property': pid, 'status': st, 'theorems': names, 'note': note})
json.dump({'claims': claims}, open(os.path.join(root, 'MANIFEST.json'), 'w'), indent=1)
print(len(claims), 'claims', sum(len(c['theorems']) for c in claims), 'theorems;', {s: sum(c['status']==s for c in claims) for s in ('proved','partial','not_applicable')})
