#!/usr/bin/env python3
"""Collect theorem names Cnn_* from rocq/theories/Prop*.v into MANIFEST.json."""
import re, glob, json, os
root = os.path.dirname(os.path.dirname(os.path.abspath(__file__)))
props = [json.loads(l) for l in open(os.path.join(root, 'properties.jsonl'))]
thms = {}
for f in sorted(glob.glob(os.path.join(root, 'rocq/theories/Prop*.v'))):
    for m in re.finditer(r'^Theorem\s+((C\d\d+)_\w+)', open(f).read(), re.M):
        thms.setdefault(m.group(2), []).append(m.group(1))
# property -> (status override or None, note)
from mannotes import NOTES
claims = []
for p in props:
    i = p['id']
    st, note = NOTES.get(i, (None, ''))
    t = thms.get(i, [])
    if st is None:
        st = 'partial' if (not t or any(x.endswith('_partial') or x.endswith('_refuted') for x in t)) else 'proved'
    if not t and st != 'not_applicable':
        st = 'partial'; note = note or 'not yet modelled'
    claims.append({'property': i, 'status': st, 'theorems': t, 'note': note})
json.dump({'claims': claims}, open(os.path.join(root, 'MANIFEST.json'), 'w'), indent=1)
for c in claims:
    print(c['property'], c['status'], len(c['theorems']))
