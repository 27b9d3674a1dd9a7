#!/usr/bin/env python3
"""Append the results of tools/mutrun.py to seeded/LOG.jsonl."""
import json, sys, re, os
root = os.path.dirname(os.path.dirname(os.path.abspath(__file__)))
man = {c['property']: c['theorems'] for c in json.load(open(root + '/MANIFEST.json'))['claims']}
with open(root + '/seeded/LOG.jsonl', 'a') as f:
    for l in open(sys.argv[1]):
        d = json.loads(l)
        m = re.match(r'(C\d\d)', d['claim'])
        f.write(json.dumps({
            'definition': d['file'] + ': ' + d['definition'], 'edit': d['edit'], 'claim_broken': d['claim'],
            'theorems_failed': d['failed'], 'property_files_unbuilt': [u for u in d['unbuilt'] if u.startswith('Prop')],
            'caught': d['rc'] != 0, 'theorems_tightened': d.get('tightened', [])}) + '\n')
