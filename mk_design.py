#!/usr/bin/env python3
"""Rebuild DESIGN.md: the fixed part is below, the section on the properties is
made of properties.jsonl, MANIFEST.json and the table PLAN (M: what is modelled,
P: how it is proved)."""
import json

HEAD = open('design_head.md').read()
PLAN = {}
for line in open('design_plan.txt'):
    line = line.rstrip('\n')
    if not line: continue
    i, t = line.split(' ', 1)
    PLAN[i] = t
claims = {c['property']: c for c in json.load(open('MANIFEST.json'))['claims']}
out = [HEAD.rstrip('\n'), '', '## 5. Property by property', '']
for line in open('properties.jsonl'):
    if not line.strip(): continue
    p = json.loads(line); c = claims[p['id']]
    out.append(f"### {p['id']} {p['title']} ({c['status']})")
    out.append('')
    out.append(PLAN[p['id']])
    if c['note']:
        out.append('')
        out.append(c['note'])
    out.append('')
    out.append('Theorems: ' + ', '.join(f'`{t}`' for t in c['theorems']) + '.')
    out.append('')
open('DESIGN.md', 'w').write('\n'.join(out))
