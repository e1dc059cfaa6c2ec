#!/usr/bin/env python3
"""Writes /verif/MANIFEST.json from the theorems of rocq/theories/Props*.v (named Cnn_...) and the notes below."""
import glob, json, os, re
root = os.path.dirname(os.path.dirname(os.path.abspath(__file__)))
notes = json.load(open(os.path.join(root, 'tools', 'notes.json')))
names = {}
for f in sorted(glob.glob(os.path.join(root, 'rocq/theories/Props*.v'))):
    for n in re.findall(r'^Theorem (C\d\d_\w+)', open(f).read(), re.M):
        names.setdefault(n[:3], []).append(n)
claims = []
for line in open(os.path.join(root, 'properties.jsonl')):
    p = json.loads(line)['id']
    n = notes.get(p, {})
    ths = names.get(p, [])
    if not ths:
        print('no theorem for', p); continue
    claims.append({"property": p, "status": n.get('status', 'proved'), "theorems": ths, "note": n.get('note', '')})
json.dump({"claims": claims}, open(os.path.join(root, 'MANIFEST.json'), 'w'), indent=1)
print(len(claims), 'claims', sum(len(c['theorems']) for c in claims), 'theorems')
