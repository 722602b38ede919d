#!/usr/bin/env python3
"""Append the outcome of edited-model runs to seeded/LOG.jsonl.

usage: log.py SPECS RESULTS [TIGHTENED]

TIGHTENED is an optional JSON file mapping the id of an edit to the theorems tightened because of it.
"""
import json, os, sys
log = os.path.join(os.path.dirname(os.path.abspath(__file__)), '..', 'seeded', 'LOG.jsonl')
specs = {}
for l in open(sys.argv[1]):
    s = json.loads(l); specs[s['id']] = s
tight = json.load(open(sys.argv[3])) if len(sys.argv) > 3 else {}
seen = {json.loads(l)['id'] for l in open(log) if l.strip()}
with open(log, 'a') as f:
    for l in open(sys.argv[2]):
        r = json.loads(l)
        if r['id'] in seen: continue
        s = specs[r['id']]
        more = {'witness_confirmed': r['witness_confirmed'], 'witness': s['witness']} if 'witness_confirmed' in r else {}
        if 'note' in s: more['note'] = s['note']
        f.write(json.dumps({'id': r['id'], 'definition': s['file'] + ':' + s['definition'], 'edit': s['edit'], 'claim_broken': s['claim'],
                            'theorems_failed': r['failed'], 'lemmas_failed': r['failed_lemmas'],
                            'theorems_tightened': tight.get(r['id'], []), **more}) + '\n')
