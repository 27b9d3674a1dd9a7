#!/usr/bin/env python3
"""claim.py Cnn status note : set the status and note of a claim in tools/claims.json."""
import json, sys, os
p = os.path.join(os.path.dirname(os.path.abspath(__file__)), 'claims.json')
d = json.load(open(p)); d[sys.argv[1]] = {'status': sys.argv[2], 'note': sys.argv[3]}
json.dump(d, open(p, 'w'), indent=1)
