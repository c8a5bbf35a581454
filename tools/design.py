#!/usr/bin/env python3
"""Regenerates the table of results of DESIGN.md (between the two markers) from properties.jsonl and MANIFEST.json."""
import json, os
root = os.path.dirname(os.path.dirname(os.path.abspath(__file__)))
P = [json.loads(l) for l in open(root + '/properties.jsonl')]
M = {c['property']: c for c in json.load(open(root + '/MANIFEST.json'))['claims']}
out = ['| id | property | status | theorems | remarks |', '|----|----------|--------|----------|---------|']
for p in P:
    c = M.get(p['id'])
    if not c: continue
    esc = lambda s: s.replace('|', '\\|').replace('\n', ' ')
    out.append(f"| {p['id']} | {esc(p['title'])} | {c['status']} | {', '.join('`%s`' % t for t in c['theorems'])} | {esc(c['note'])} |")
f = root + '/DESIGN.md'
s = open(f).read()
a, b = '<!-- results -->\n', '<!-- end of results -->'
i, j = s.index(a) + len(a), s.index(b)
open(f, 'w').write(s[:i] + '\n'.join(out) + '\n' + s[j:])
