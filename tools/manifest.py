#!/usr/bin/env python3
"""Writes MANIFEST.json; run from /verif: python3 tools/manifest.py"""
import json, re, glob
claims = json.load(open('tools/claims.json'))
thms = set()
for f in glob.glob('rocq/theories/Props*.v'):
    thms |= set(re.findall(r'^Theorem (\w+)', open(f).read(), re.M))
used = set()
for c in claims:
    for t in c['theorems']:
        assert t in thms, t
        used.add(t)
assert thms <= used, thms - used
ids = [json.loads(l)['id'] for l in open('properties.jsonl')]
have = {c['property'] for c in claims}
for i in ids:
    if i not in have:
        print('no claim for', i)
assert have <= set(ids)
json.dump({'claims': sorted(claims, key=lambda c: c['property'])}, open('MANIFEST.json', 'w'), indent=1)
