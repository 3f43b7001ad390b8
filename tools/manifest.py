#!/usr/bin/env python3
"""Writes MANIFEST.json: theorems per property are found by their prefix in theories/Properties_*.v."""
import json, re, glob, os
root = os.path.dirname(os.path.dirname(os.path.abspath(__file__)))
names = {}
for f in sorted(glob.glob(root + '/rocq/theories/Properties_*.v')):
    for m in re.finditer(r'^Theorem (C(\d\d+)_\w+)', open(f).read(), re.M):
        names.setdefault('C' + m.group(2), []).append(m.group(1))
notes = json.load(open(root + '/tools/notes.json'))
claims = []
for l in open(root + '/properties.jsonl'):
    i = json.loads(l)['id']
    th = names.get(i, [])
    n = notes.get(i, {})
    st = n.get('status') or ('partial' if any('_partial' in t or '_refuted' in t for t in th) else 'proved')
    if not th and st != 'not_applicable':
        continue
    claims.append({'property': i, 'status': st, 'theorems': th, 'note': n.get('note', '')})
json.dump({'claims': claims}, open(root + '/MANIFEST.json', 'w'), indent=1)
print(len(claims), 'claims;', sum(c['status'] == 'proved' for c in claims), 'proved')
