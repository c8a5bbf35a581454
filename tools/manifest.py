#!/usr/bin/env python3
"""Regenerates MANIFEST.json from the theorem names in rocq/theories/*Props.v and tools/notes.json."""
import json, re, glob, os
root = os.path.dirname(os.path.dirname(os.path.abspath(__file__)))
notes = json.load(open(root + '/tools/notes.json'))
props = [json.loads(l)['id'] for l in open(root + '/properties.jsonl')]
th = {p: [] for p in props}
for f in sorted(glob.glob(root + '/rocq/theories/*Props.v')):
    for m in re.finditer(r'^Theorem ((C\d\d\d?)_\w+)', open(f).read(), re.M):
        th.setdefault(m.group(2), []).append(m.group(1))
claims = []
for p in props:
    t = th[p]
    if not t:
        continue
    part = any(x.endswith('_partial') or x.endswith('_refuted') for x in t)
    n = notes.get(p, {})
    claims.append({"property": p, "status": n.get("status", "partial" if part else "proved"),
                   "theorems": t, "note": n.get("note", "")})
json.dump({"claims": claims}, open(root + '/MANIFEST.json', 'w'), indent=1)
print(len(claims), 'claims;', [p for p in props if not th[p]], 'missing')
