#!/usr/bin/env python3
"""Regenerate MANIFEST.json: theorem names come from the *Props.v files, status and notes from claims.json."""
import glob, json, re
claims = json.load(open('/verif/tools/claims.json'))
names = {}
for f in sorted(glob.glob('/verif/rocq/theories/*Props.v')):
    for t in re.findall(r'^Theorem (C(\d+)_\w+)', open(f).read(), re.M):
        names.setdefault('C' + t[1], []).append(t[0])
out = []
for l in open('/verif/properties.jsonl'):
    i = json.loads(l)['id']
    if i not in names:
        print('no theorem for', i)
        continue
    if i not in claims:
        print('no claim for', i)
        continue
    s, n = claims[i]
    out.append({'property': i, 'status': s, 'theorems': names[i], 'note': n})
json.dump({'claims': out}, open('/verif/MANIFEST.json', 'w'), indent=1)
