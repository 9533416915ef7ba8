#!/usr/bin/env python3
"""Write ../../MANIFEST.json: theorems are collected from the Props*.v files by their Cnn_ prefix; status and notes are below."""
import json, re, glob, os
here = os.path.dirname(os.path.abspath(__file__))
thms = {}
for f in sorted(glob.glob(os.path.join(here, '../theories/Props*.v'))):
    mod = os.path.basename(f)[:-2]
    for m in re.finditer(r'^Theorem ((C\d+)_\w+)', open(f).read(), re.M):
        thms.setdefault(m.group(2), []).append(m.group(1))
props = [json.loads(l) for l in open(os.path.join(here, '../../properties.jsonl'))]
notes = json.load(open(os.path.join(here, 'notes.json')))
claims = []
for p in props:
    i = p['id']
    if i not in thms and i not in notes:
        continue
    n = notes.get(i, {})
    status = n.get('status')
    if status is None:
        status = 'partial' if any(t.endswith('_partial') or t.endswith('_refuted') for t in thms[i]) else 'proved'
    claims.append({'property': i, 'status': status, 'theorems': thms.get(i, []), 'note': n.get('note', '')})
json.dump({'claims': claims}, open(os.path.join(here, '../../MANIFEST.json'), 'w'), indent=1)
print(len(claims), 'claims;', 'missing:', [p['id'] for p in props if p['id'] not in [c['property'] for c in claims]])
