#!/usr/bin/env python3
"""Writes MANIFEST.json.  Theorem names are taken from the Properties*.v files."""
import json, re, glob, os
root = os.path.join(os.path.dirname(os.path.abspath(__file__)), '..')
names = {}
for f in sorted(glob.glob(os.path.join(root, 'rocq/theories/Properties*.v'))):
    for m in re.finditer(r'^Theorem (C\d\d_\w+)', open(f).read(), re.M):
        names.setdefault(m.group(1)[:3], []).append(m.group(1))
STATUS = {}
exec(open(os.path.join(root, 'tools/status.py')).read())
claims = []
for line in open(os.path.join(root, 'properties.jsonl')):
    p = json.loads(line)['id']
    if p not in names:
        continue
    st, note = STATUS.get(p, ('partial', ''))
    claims.append({'property': p, 'status': st, 'theorems': names[p], 'note': note})
json.dump({'claims': claims}, open(os.path.join(root, 'MANIFEST.json'), 'w'), indent=1)
print(len(claims), 'claims', [c['property'] for c in claims])
