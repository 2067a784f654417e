#!/usr/bin/env python3
"""Append the results of mutate.py to seeded/LOG.jsonl.

usage: log_mutants.py OUT.jsonl [NOTES.json]      NOTES: id -> {"tightened": [...], "note": "..."}
"""
import json, sys
log = '/verif/seeded/LOG.jsonl'
notes = json.load(open(sys.argv[2])) if len(sys.argv) > 2 else {}
with open(log, 'a') as o:
    for line in open(sys.argv[1]):
        r = json.loads(line)
        if 'error' in r: continue
        n = notes.get(r['id'], {})
        o.write(json.dumps({'id': r['id'], 'definition': f"{r['definition']} ({r['file']})", 'edit': r['edit'], 'claim': r['claim'], 'properties_expected_to_fail': r['breaks'],
            'theorems_failed': r['theorems_failed'], 'properties_not_caught': r['properties_survived'], 'theorems_tightened': n.get('tightened', []), 'note': n.get('note', '')}) + '\n')
