#!/usr/bin/env python3
"""Writes MANIFEST.json from the theorem names found in rocq/theories/Props_*.v.

Every theorem in a Props_ file is called Cnn_something; it is filed under
property Cnn.  STATUS holds the status and note of each property."""
import glob, json, os, re, sys
root = os.path.dirname(os.path.dirname(os.path.abspath(__file__)))
thms = {}
for f in sorted(glob.glob(os.path.join(root, 'rocq/theories/Props_*.v'))):
    for m in re.finditer(r'^Theorem (C\d\d)_(\w+)', open(f).read(), re.M):
        thms.setdefault(m.group(1), []).append(m.group(1) + '_' + m.group(2))
props = [json.loads(l)['id'] for l in open(os.path.join(root, 'properties.jsonl'))]
sys.path.insert(0, os.path.join(root, 'tools'))
from manifest_status import STATUS
claims = []
for p in props:
    if p in STATUS:
        st, note = STATUS[p]
    elif p in thms:
        print('no status for', p); st, note = 'partial', ''
    else:
        st, note = 'partial', 'Not modelled yet.'
    claims.append({'property': p, 'status': st, 'theorems': thms.get(p, []), 'note': note})
json.dump({'claims': claims}, open(os.path.join(root, 'MANIFEST.json'), 'w'), indent=1)
