#!/usr/bin/env python3
"""Generates MANIFEST.json from the table below; checks the theorem names exist."""
import json, re, glob
C = {}
def claim(p, status, theorems, note=""):
    C[p] = dict(property=p, status=status, theorems=theorems, note=note)
exec(open('/verif/tools/claims.py').read())
names=set()
for f in glob.glob('/verif/rocq/theories/*.v'):
    names |= set(re.findall(r'^\s*(?:Theorem|Lemma|Corollary|Example)\s+(\w+)', open(f).read(), re.M))
for c in C.values():
    for t in c['theorems']:
        assert t in names, t
# every C.._ theorem should be claimed
thms=set()
for f in glob.glob('/verif/rocq/theories/Prop*.v'):
    thms |= set(re.findall(r'^Theorem\s+(\w+)', open(f).read(), re.M))
cl={t for c in C.values() for t in c['theorems']}
if thms-cl: print('unclaimed:', sorted(thms-cl))
props=[json.loads(l)['id'] for l in open('/verif/properties.jsonl')]
print('properties without claim:', [p for p in props if p not in C])
json.dump({"claims":[C[p] for p in props if p in C]}, open('/verif/MANIFEST.json','w'), indent=1)
