#!/usr/bin/env python3
"""Rewrites the generated part of DESIGN.md (status per property) from MANIFEST.json and properties.jsonl."""
import json, os
root = os.path.join(os.path.dirname(os.path.abspath(__file__)), '..')
title = {json.loads(l)['id']: json.loads(l)['title'] for l in open(root + '/properties.jsonl')}
rows = ['| id | property | status | theorems | note |', '|---|---|---|---|---|']
for c in json.load(open(root + '/MANIFEST.json'))['claims']:
    rows.append('| %s | %s | %s | %s | %s |' % (c['property'], title[c['property']], c['status'], ', '.join(c['theorems']), c['note'].replace('|', '\\|')))
p = root + '/DESIGN.md'
s = open(p).read()
a, b = '<!-- status begin -->', '<!-- status end -->'
i, j = s.index(a) + len(a), s.index(b)
open(p, 'w').write(s[:i] + '\n' + '\n'.join(rows) + '\n' + s[j:])
