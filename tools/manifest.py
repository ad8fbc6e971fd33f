#!/usr/bin/env python3
"""Write MANIFEST.json: the theorems of the Prop*.v files, grouped by property id.
tools/notes.json holds status and note per property."""
import re, glob, json, os
top = os.path.join(os.path.dirname(os.path.abspath(__file__)), '..')
notes = json.load(open(os.path.join(top, 'tools', 'notes.json')))
thms = {}
for f in sorted(glob.glob(os.path.join(top, 'rocq', 'theories', 'Prop*.v'))):
    for m in re.finditer(r'^Theorem (C\d\d+)(_\w+)', open(f).read(), re.M):
        thms.setdefault(m.group(1), []).append(m.group(1) + m.group(2))
claims = []
for l in open(os.path.join(top, 'properties.jsonl')):
    d = json.loads(l)
    i = d['id']
    if i not in thms:
        if i in notes:
            claims.append({'property': i, 'status': notes[i][0], 'theorems': [], 'note': notes[i][1]})
        continue
    st, note = notes.get(i, ['partial', ''])
    claims.append({'property': i, 'status': st, 'theorems': thms[i], 'note': note})
json.dump({'claims': claims}, open(os.path.join(top, 'MANIFEST.json'), 'w'), indent=1)
print(len(claims), 'claims', sum(len(c['theorems']) for c in claims), 'theorems')
