#!/usr/bin/env python3
"""Append the results of mutate.py runs (files given as arguments) to seeded/LOG.jsonl."""
import json, os, sys
root = os.path.dirname(os.path.dirname(os.path.abspath(__file__)))
log = os.path.join(root, 'seeded', 'LOG.jsonl')
notes = {}
if os.path.exists(os.path.join(root, 'seeded', 'notes.json')):
    notes = json.load(open(os.path.join(root, 'seeded', 'notes.json')))
seen = set()
if os.path.exists(log):
    for l in open(log):
        d = json.loads(l); seen.add((d['definition'], d['edit'], tuple(d['failed'])))
with open(log, 'a') as out:
    for name in sys.argv[1:]:
        for l in open(name):
            d = json.loads(l)
            if 'failed' not in d: continue
            key = (d['definition'], d['edit'], tuple(d['failed']))
            if key in seen: continue
            seen.add(key)
            n = notes.get(d['claim'], {})
            e = {'definition': d['definition'], 'edit': d['edit'], 'claim': d['claim'],
                 'failed': d['failed'],
                 'tightened': n.get('tightened', []) if not set(n.get('tightened', [])) & set(d['failed']) else []}
            if n.get('note') and not e['tightened'] == [] or n.get('always'):
                e['note'] = n['note']
            out.write(json.dumps(e) + '\n')
