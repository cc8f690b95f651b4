#!/usr/bin/env python3
"""Writes MANIFEST.json: which theorems prove which property.  Theorem names start with the property id, so they are
collected from the Prop*.v files; status and notes are kept here."""
import json, re, glob, os
root = os.path.join(os.path.dirname(__file__), '..')
ids = [json.loads(l)['id'] for l in open(os.path.join(root, 'properties.jsonl'))]
thms = {i: [] for i in ids}
for f in sorted(glob.glob(os.path.join(root, 'rocq/theories/Prop*.v'))):
    for m in re.finditer(r'^(?:Theorem|Lemma) (C\d\d+)_(\w+)', open(f).read(), re.M):
        thms[m.group(1)].append(m.group(1) + '_' + m.group(2))
notes = json.load(open(os.path.join(root, 'tools/notes.json')))
claims = []
for i in ids:
    n = notes.get(i, {})
    st = n.get('status') or ('proved' if thms[i] else None)
    if not thms[i] and st is None:
        continue
    claims.append({"property": i, "status": st, "theorems": thms[i], "note": n.get('note', '')})
json.dump({"claims": claims}, open(os.path.join(root, 'MANIFEST.json'), 'w'), indent=1)
print(len(claims), 'claims', sum(len(c['theorems']) for c in claims), 'theorems; missing', [i for i in ids if not thms[i] and i not in notes])
