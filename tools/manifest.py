#!/usr/bin/env python3
"""Writes MANIFEST.json from tools/claims.txt: lines 'Cnn | status | theorems | note'."""
import json, os
here = os.path.dirname(os.path.abspath(__file__))
claims = []
for line in open(os.path.join(here, 'claims.txt')):
    line = line.strip()
    if not line or line.startswith('#'):
        continue
    p, st, th, note = [x.strip() for x in line.split('|', 3)]
    claims.append({'property': p, 'status': st, 'theorems': th.split(), 'note': note})
json.dump({'claims': claims}, open(os.path.join(here, '..', 'MANIFEST.json'), 'w'), indent=1)
print(len(claims), 'claims')
