#!/usr/bin/env python3
"""Writes MANIFEST.json.  CLAIMS: property -> (status, theorems, note)."""
import json, os, re
root = os.path.dirname(os.path.dirname(os.path.abspath(__file__)))
C = {}
exec(open(os.path.join(root, 'tools', 'claims.py')).read())
names = set()
d = os.path.join(root, 'rocq', 'theories')
for f in os.listdir(d):
    if f.endswith('.v'):
        names |= set(re.findall(r'^(?:Theorem|Lemma|Example|Corollary)\s+(\w+)', open(os.path.join(d, f)).read(), re.M))
claims = []
for l in open(os.path.join(root, 'properties.jsonl')):
    p = json.loads(l)['id']
    if p not in C: continue
    st, th, note = C[p]
    for t in th:
        if t not in names: print('MISSING', p, t)
    claims.append({'property': p, 'status': st, 'theorems': th, 'note': note})
json.dump({'claims': claims}, open(os.path.join(root, 'MANIFEST.json'), 'w'), indent=1)
print(len(claims), 'claims')
