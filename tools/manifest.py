#!/usr/bin/env python3
"""Writes MANIFEST.json from the table below; checks that every theorem exists in rocq/theories."""
import json, re, glob, os
root = os.path.join(os.path.dirname(__file__), '..')
names = set()
for f in glob.glob(os.path.join(root, 'rocq/theories/*.v')):
    names |= set(re.findall(r'^\s*(?:Theorem|Lemma)\s+([A-Za-z0-9_]+)', open(f).read(), re.M))
by_prop = {}
for n in sorted(names):
    m = re.match(r'(C\d{2,3})_', n)
    if m: by_prop.setdefault(m.group(1), []).append(n)
notes = {l.split('|', 2)[0].strip(): (l.split('|', 2)[1].strip(), l.split('|', 2)[2].strip())
         for l in open(os.path.join(root, 'tools/status.txt')) if l.strip() and not l.startswith('#')}
claims = []
for l in open(os.path.join(root, 'properties.jsonl')):
    p = json.loads(l)['id']
    st, note = notes.get(p, ('not_started', ''))
    if st == 'not_started':
        print('no status for', p); continue
    claims.append({'property': p, 'status': st, 'theorems': by_prop.get(p, []), 'note': note})
    if not by_prop.get(p) and st != 'not_applicable': print('no theorems for', p)
json.dump({'claims': claims}, open(os.path.join(root, 'MANIFEST.json'), 'w'), indent=1)
print(len(claims), 'claims,', sum(len(c['theorems']) for c in claims), 'theorems')
