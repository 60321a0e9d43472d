#!/usr/bin/env python3
"""Writes MANIFEST.json from the table below; checks that every theorem named
exists in a Properties*.v file."""
import json, glob, re, os
root = os.path.dirname(os.path.dirname(os.path.abspath(__file__)))
names = set()
for f in glob.glob(root + '/rocq/theories/Properties*.v'):
    names |= set(re.findall(r'^Theorem\s+(\w+)', open(f).read(), re.M))
C = []
def claim(p, status, note, *thms):
    for t in thms:
        assert t in names, t
    C.append(dict(property=p, status=status, theorems=list(thms), note=note))
exec(open(root + '/tools/claims.py').read())
used = {t for c in C for t in c['theorems']}
print('unlisted theorems:', sorted(names - used))
ids = [json.loads(l)['id'] for l in open(root + '/properties.jsonl')]
print('properties without claim:', [i for i in ids if i not in {c['property'] for c in C}])
json.dump(dict(claims=C), open(root + '/MANIFEST.json', 'w'), indent=1)
