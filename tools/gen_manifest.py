#!/usr/bin/env python3
"""Writes MANIFEST.json from the theorem names in rocq/theories/Prop*.v and NOTES below.
A property with a _refuted or _partial theorem is "partial", otherwise "proved"."""
import glob, json, os, re
root = os.path.dirname(os.path.dirname(os.path.abspath(__file__)))
NOTES = json.load(open(os.path.join(root, 'tools', 'notes.json')))
props = [json.loads(l)['id'] for l in open(os.path.join(root, 'properties.jsonl'))]
thms = {}
for f in sorted(glob.glob(os.path.join(root, 'rocq/theories/Prop*.v'))):
    for m in re.finditer(r'^Theorem (C\d+)(_\w+)', open(f).read(), re.M):
        thms.setdefault(m.group(1), []).append(m.group(1) + m.group(2))
unknown = set(thms) - set(props)
assert not unknown, unknown
claims = []
for p in props:
    if p not in thms:
        print('no theorem for', p)
        claims.append({'property': p, 'status': 'partial', 'theorems': [], 'note': 'not proved yet'})
        continue
    part = any(t.endswith(('_refuted', '_partial')) for t in thms[p])
    if part and p not in NOTES:
        print('no note for', p)
    claims.append({'property': p, 'status': 'partial' if part else 'proved',
                   'theorems': thms[p], 'note': NOTES.get(p, 'proved as stated')})
json.dump({'claims': claims}, open(os.path.join(root, 'MANIFEST.json'), 'w'), indent=1, ensure_ascii=False)
