#!/usr/bin/env python3
"""Regenerate MANIFEST.json from the theorem names in rocq/theories and the statuses below."""
import re, glob, json, os
root = os.path.dirname(os.path.dirname(os.path.abspath(__file__)))
NOTES = json.load(open(f'{root}/tools/status.json'))
names = {}
for f in sorted(glob.glob(f'{root}/rocq/theories/*.v')):
    for n in re.findall(r'^(?:Theorem)\s+(C\d+_\w+)', open(f).read(), re.M):
        names.setdefault(n.split('_')[0], []).append(n)
claims = []
for line in open(f'{root}/properties.jsonl'):
    p = json.loads(line)['id']
    ths = names.get(p, [])
    st = NOTES.get(p, {})
    if not ths and st.get('status') != 'not_applicable':
        continue
    claims.append(dict(property=p, status=st.get('status', 'proved'), theorems=ths, note=st.get('note', '')))
json.dump(dict(claims=claims), open(f'{root}/MANIFEST.json', 'w'), indent=1)
print(len(claims), sum(len(c['theorems']) for c in claims))
