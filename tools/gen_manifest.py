#!/usr/bin/env python3
"""Write MANIFEST.json: theorem names are collected from Props*.v (prefix Cnn_);
status and notes from tools/status.json."""
import json, re, glob, os
root = os.path.dirname(os.path.dirname(os.path.abspath(__file__)))
thms = {}
for f in sorted(glob.glob(root + '/rocq/theories/Props*.v')):
    for m in re.finditer(r'^Theorem (C(\d\d\d?)_\w+)', open(f).read(), re.M):
        thms.setdefault('C' + m.group(2), []).append(m.group(1))
st = json.load(open(root + '/tools/status.json'))
claims = []
for l in open(root + '/properties.jsonl'):
    p = json.loads(l)['id']
    s = st.get(p, {})
    t = thms.get(p, [])
    if not t and s.get('status') != 'not_applicable':
        continue
    claims.append({"property": p, "status": s.get('status', 'proved'), "theorems": t, "note": s.get('note', '')})
json.dump({"claims": claims}, open(root + '/MANIFEST.json', 'w'), indent=1)
print(len(claims), sum(len(c['theorems']) for c in claims))
