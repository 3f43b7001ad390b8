#!/usr/bin/env python3
"""Appends results of tools/mutate.py to seeded/LOG.jsonl (one line per edit, keyed by the edit's id).
usage: seedlog.py out.jsonl"""
import json, os, sys
root = os.path.dirname(os.path.dirname(os.path.abspath(__file__)))
log = root + '/seeded/LOG.jsonl'
lines = {}
if os.path.exists(log):
    for l in open(log):
        if l.strip():
            d = json.loads(l); lines[d['id']] = d
tight_f = root + '/tools/tightened.json'
tight = json.load(open(tight_f)) if os.path.exists(tight_f) else {}
for l in open(sys.argv[1]):
    d = json.loads(l)
    if 'theorems_failed' not in d: continue
    th = d['theorems_failed']
    lines[d['id']] = {'id': d['id'], 'definition': d['definition'], 'edit': d['edit'], 'claim': d['claim'],
                      'theorems_failed': th, 'theorems_tightened': tight.get(d['id'], {}).get('theorems', []),
                      **({'note': tight[d['id']]['note']} if d['id'] in tight and 'note' in tight[d['id']] else {})}
os.makedirs(root + '/seeded', exist_ok=True)
with open(log, 'w') as f:
    for k in sorted(lines):
        f.write(json.dumps(lines[k]) + '\n')
print(len(lines), 'lines')
