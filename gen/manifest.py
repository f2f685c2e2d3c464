#!/usr/bin/env python3
"""Writes MANIFEST.json from the theorem names (Cnn_...) in rocq/theories/Prop*.v.

A property whose theorems include a _partial or _refuted one is "partial".
Notes come from gen/notes.json."""
import glob, json, os, re
root = os.path.dirname(os.path.dirname(os.path.abspath(__file__)))
ths = {}
for f in sorted(glob.glob(root + '/rocq/theories/Prop*.v')):
    for m in re.finditer(r'^(?:Theorem|Corollary)\s+((C\d\d\d?)_\w+)', open(f).read(), re.M):
        ths.setdefault(m.group(2), []).append(m.group(1))
notes = json.load(open(root + '/gen/notes.json'))
claims = []
for line in open(root + '/properties.jsonl'):
    pid = json.loads(line)['id']
    t = ths.get(pid, [])
    if not t:
        if pid in notes:
            claims.append({"property": pid, "status": "not_applicable", "theorems": [], "note": notes[pid]})
        continue
    st = 'partial' if any(x.endswith(('_partial', '_refuted')) for x in t) else 'proved'
    claims.append({"property": pid, "status": st, "theorems": t, "note": notes.get(pid, "")})
json.dump({"claims": claims}, open(root + '/MANIFEST.json', 'w'), indent=1)
print(len(claims), 'claims')
missing = [json.loads(l)['id'] for l in open(root + '/properties.jsonl') if json.loads(l)['id'] not in ths]
print('without theorems:', missing)
