#!/usr/bin/env python3
"""Write MANIFEST.json from the claims below; theorem names are collected from Props*.v by prefix."""
import json, re, glob, os
root = os.path.dirname(os.path.dirname(os.path.abspath(__file__)))
names = {}
for f in sorted(glob.glob(root + '/rocq/theories/Props*.v')):
    for m in re.finditer(r'^Theorem ((C\d\d)_\w+)', open(f).read(), re.M):
        names.setdefault(m.group(2), []).append(m.group(1))
NOTES = {}
PARTIAL = {}
exec(open(root + '/tools/manifest_notes.py').read())
claims = []
for line in open(root + '/properties.jsonl'):
    i = json.loads(line)['id']
    if i in names:
        claims.append({"property": i, "status": "partial" if i in PARTIAL else "proved", "theorems": names[i],
                       "note": PARTIAL.get(i) or NOTES.get(i, "")})
    elif i in NOTES and NOTES[i].startswith('N/A'):
        claims.append({"property": i, "status": "not_applicable", "theorems": [], "note": NOTES[i]})
json.dump({"claims": claims}, open(root + '/MANIFEST.json', 'w'), indent=1)
print(len(claims), 'claims; missing', [json.loads(l)['id'] for l in open(root + '/properties.jsonl') if json.loads(l)['id'] not in [c['property'] for c in claims]])
