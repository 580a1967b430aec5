#!/usr/bin/env python3
"""Rebuild MANIFEST.json from the Prop*.v files and tools/status.json."""
import re,glob,json,os
root=os.path.join(os.path.dirname(os.path.abspath(__file__)),'..')
th={}
for f in sorted(glob.glob(root+'/rocq/theories/Prop*.v')):
    for n in re.findall(r'^Theorem (C\d+_\w+)',open(f).read(),flags=re.M):
        th.setdefault(n.split('_')[0],[]).append(n)
st=json.load(open(root+'/tools/status.json'))
claims=[]
for l in open(root+'/properties.jsonl'):
    i=json.loads(l)['id']
    ts=th.get(i,[])
    e=st.get(i,{})
    if not ts: 
        if e.get('status')=='not_applicable': claims.append(dict(property=i,status='not_applicable',theorems=[],note=e.get('note','')))
        continue
    claims.append(dict(property=i,status=e.get('status','proved'),theorems=ts,note=e.get('note','')))
json.dump({"claims":claims},open(root+'/MANIFEST.json','w'),indent=1)
print(len(claims),'claims',sum(len(c['theorems']) for c in claims),'theorems; missing',[json.loads(l)['id'] for l in open(root+'/properties.jsonl') if json.loads(l)['id'] not in [c['property'] for c in claims]])
