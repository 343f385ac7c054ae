#!/usr/bin/env python3
"""Write MANIFEST.json from the theorem names of rocq/theories/Properties*.v."""
import glob, json, os, re
root = os.path.dirname(os.path.dirname(os.path.abspath(__file__)))
names = []
for f in sorted(glob.glob(os.path.join(root, 'rocq/theories/Properties*.v'))):
    names += re.findall(r'^Theorem (C\d\d_\w+)', open(f).read(), re.M)
notes = json.load(open(os.path.join(root, 'gen/notes.json')))
claims = []
for line in open(os.path.join(root, 'properties.jsonl')):
    i = json.loads(line)['id']
    th = [n for n in names if n.startswith(i + '_')]
    if not th:
        continue
    st = 'partial' if any(n.endswith('_partial') for n in th) else 'proved'
    claims.append({'property': i, 'status': st, 'theorems': th, 'note': notes.get(i, '')})
json.dump({'claims': claims}, open(os.path.join(root, 'MANIFEST.json'), 'w'), indent=1)
print(len(claims), 'claims', len(names), 'theorems')
