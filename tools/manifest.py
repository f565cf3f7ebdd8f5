#!/usr/bin/env python3
"""Regenerates MANIFEST.json: theorem names are collected from rocq/theories/P_*.v by
property prefix; status and note come from tools/status.json."""
import json,re,glob,os
root=os.path.dirname(os.path.dirname(os.path.abspath(__file__)))
th={}
for f in sorted(glob.glob(root+'/rocq/theories/P_*.v')):
    for m in re.finditer(r'^Theorem\s+(C(\d\d)_\w+)',open(f).read(),re.M):
        th.setdefault('C'+m.group(2),[]).append(m.group(1))
st=json.load(open(root+'/tools/status.json'))
props=[json.loads(l) for l in open(root+'/properties.jsonl')]
claims=[]
for p in props:
    i=p['id']; t=th.get(i,[])
    s=st.get(i)
    if s is None:
        if not t: continue
        status='partial' if any(x.endswith('_partial') or x.endswith('_refuted') for x in t) else 'proved'
        note=''
    else: status,note=s
    claims.append({"property":i,"status":status,"theorems":t,"note":note})
json.dump({"claims":claims},open(root+'/MANIFEST.json','w'),indent=1)
print(len(claims),'claims',sum(c['status']=='proved' for c in claims),'proved')
missing=[p['id'] for p in props if p['id'] not in [c['property'] for c in claims]]
print('missing',missing)
