#!/usr/bin/env python3
"""Regenerate MANIFEST.json from the property theorems (Prop*.v) and tools/claims.json."""
import re, glob, json, os
root = os.path.dirname(os.path.dirname(os.path.abspath(__file__)))
notes = json.load(open(os.path.join(root, 'tools/claims.json')))
thms = {}
for f in sorted(glob.glob(os.path.join(root, 'rocq/theories/Prop*.v'))):
    for m in re.finditer(r'^Theorem (C\d\d)(_\w+)', open(f).read(), re.M):
        thms.setdefault(m.group(1), []).append(m.group(1) + m.group(2))
claims = []
for l in open(os.path.join(root, 'properties.jsonl')):
    i = json.loads(l)['id']
    n = notes.get(i)
    if n is None:
        continue
    ts = thms.get(i, [])
    if n['status'] != 'not_applicable' and not ts:
        continue
    claims.append({"property": i, "status": n['status'], "theorems": ts, "note": n['note']})
json.dump({"claims": claims}, open(os.path.join(root, 'MANIFEST.json'), 'w'), indent=1)
print(len(claims), 'claims', sum(len(c['theorems']) for c in claims), 'theorems')
