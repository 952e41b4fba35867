#!/usr/bin/env python3
"""Regenerate MANIFEST.json from the theorem names in rocq/theories/Prop_*.v and tools/status.json."""
import json, re, glob, os
root = os.path.dirname(os.path.dirname(os.path.abspath(__file__)))
thms = {}
for f in sorted(glob.glob(root + '/rocq/theories/Prop_*.v')):
    for m in re.finditer(r'^Theorem\s+(C\d\d+)(_\w+)', open(f).read(), re.M):
        thms.setdefault(m.group(1), []).append(m.group(1) + m.group(2))
status = json.load(open(root + '/tools/status.json'))
claims = []
for line in open(root + '/properties.jsonl'):
    p = json.loads(line)['id']
    st, note = status.get(p, ["partial", "not yet proved"])
    claims.append({"property": p, "status": st, "theorems": thms.get(p, []), "note": note})
    if not thms.get(p): print("no theorem:", p)
    if st == "proved" and any(t.endswith('_partial') or t.endswith('_refuted') for t in thms.get(p, [])): print("check status:", p)
json.dump({"claims": claims}, open(root + '/MANIFEST.json', 'w'), indent=1)
