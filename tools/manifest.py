#!/usr/bin/env python3
"""Regenerates MANIFEST.json from the theorem names in rocq/theories/Prop_*.v and the notes below."""
import re,json,glob,os
root=os.path.join(os.path.dirname(__file__),'..')
thms={}
for f in sorted(glob.glob(root+'/rocq/theories/Prop_*.v')):
    for t in re.findall(r'^Theorem (C\d+_\w+)',open(f).read(),re.M):
        thms.setdefault(t.split('_')[0],[]).append(t)
notes=json.load(open(os.path.join(os.path.dirname(__file__),'notes.json')))
claims=[]
for l in open(root+'/properties.jsonl'):
    i=json.loads(l)['id']; ts=thms.get(i,[])
    bad=any('_refuted' in t or '_partial' in t for t in ts)
    st='partial' if bad or not ts else 'proved'
    n=notes.get(i,'')
    if isinstance(n,list): st,n=n
    if any('_refuted' in t for t in ts) and 'REFUTED' not in n: print('no refutation note',i)
    if not ts: print('no theorem',i)
    claims.append(dict(property=i,status=st,theorems=ts,note=n))
json.dump({"claims":claims},open(root+'/MANIFEST.json','w'),indent=1,ensure_ascii=False)
for k in thms:
    if k not in {c['property'] for c in claims}: print('unlisted',k)
from collections import Counter
print(Counter(c['status'] for c in claims), sum(len(c['theorems']) for c in claims))
