#!/usr/bin/env python3
"""Regenerates /verif/MANIFEST.json; checks that every theorem exists."""
import json, os, re, glob
ROOT = os.path.join(os.path.dirname(os.path.abspath(__file__)), '..')
names = set()
for f in glob.glob(os.path.join(ROOT, 'rocq/theories/Properties_*.v')):
    names |= set(re.findall(r'^Theorem (\w+)', open(f).read(), re.M))
# status and note per property; the theorems are those whose name starts with the id
NOTES = json.load(open(os.path.join(ROOT, 'tools/notes.json')))
claims = []
props = [json.loads(l)['id'] for l in open(os.path.join(ROOT, 'properties.jsonl'))]
for p in props:
    th = sorted(n for n in names if n.startswith(p + '_'))
    if p not in NOTES:
        continue
    st, note = NOTES[p]
    assert th or st == 'not_applicable', p
    claims.append(dict(property=p, status=st, theorems=th, note=note))
json.dump({"claims": claims}, open(os.path.join(ROOT, 'MANIFEST.json'), 'w'), indent=1)
print(len(claims), 'claims; unclaimed:', [p for p in props if p not in NOTES],
      'orphans:', sorted(n for n in names if n[:3] not in NOTES))
