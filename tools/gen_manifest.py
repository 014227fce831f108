#!/usr/bin/env python3
# Generates MANIFEST.json: collects the theorem names per property id from the
# *Props.v files (theorem names start with the property id) and adds notes.
import json, re, glob
notes = json.load(open('/verif/tools/notes.json'))
thms = {}
for f in sorted(glob.glob('/verif/rocq/theories/*Props*.v')):
    for m in re.finditer(r'^(?:Theorem|Corollary)\s+(C\d\d+)_(\w+)', open(f).read(), re.M):
        thms.setdefault(m.group(1), []).append(m.group(1) + '_' + m.group(2))
claims = []
for line in open('/verif/properties.jsonl'):
    pid = json.loads(line)['id']
    if pid not in thms:
        continue
    n = notes.get(pid, {})
    status = n.get('status') or ('partial' if any(t.endswith('_partial') for t in thms[pid]) else 'proved')
    claims.append(dict(property=pid, status=status, theorems=thms[pid], note=n.get('note', '')))
json.dump(dict(claims=claims), open('/verif/MANIFEST.json', 'w'), indent=1)
print(len(claims), 'claims', sum(len(c['theorems']) for c in claims), 'theorems')
