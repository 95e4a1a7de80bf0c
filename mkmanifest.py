#!/usr/bin/env python3
"""Write MANIFEST.json from the table below; checks that every theorem exists."""
import json,re,glob,sys
T={}
def c(pid,status,thms,note): T[pid]=dict(property=pid,status=status,theorems=thms.split(),note=note)
exec(open('/verif/manifest_table.py').read())
names=set()
for f in glob.glob('/verif/rocq/theories/*.v'):
    names|=set(re.findall(r'^\s*(?:Theorem|Lemma|Corollary)\s+([A-Za-z0-9_\']+)',open(f).read(),re.M))
ids=[json.loads(l)['id'] for l in open('/verif/properties.jsonl') if l.strip()]
for p,v in T.items():
    for t in v['theorems']:
        if t not in names: print('MISSING',p,t)
for i in ids:
    if i not in T: print('no claim for',i)
json.dump({"claims":[T[i] for i in ids if i in T]},open('/verif/MANIFEST.json','w'),indent=1)
