#!/usr/bin/env python3
"""seeded/LOG.jsonl from tools/mutants.json, the driver's results and tools/seed_notes.json (what was decided and tightened by hand).
usage: seedlog.py RESULTS.jsonl"""
import sys,json,os
root=os.path.abspath(os.path.join(os.path.dirname(os.path.abspath(__file__)),'..'))
M={m['id']:m for m in json.load(open(root+'/tools/mutants.json'))}
N=json.load(open(root+'/tools/seed_notes.json')) if os.path.exists(root+'/tools/seed_notes.json') else {}
R={}
for l in open(sys.argv[1]):
    r=json.loads(l)
    if 'error' in r: continue
    R.setdefault(r['id'],[]).append(r)
with open(root+'/seeded/LOG.jsonl','w') as g:
    for i,rs in R.items():
        if i not in M: continue
        m=M[i]
        for k,r in enumerate(rs):
            last=k==len(rs)-1
            n=N.get(i,{})
            failed=sorted(set(r.get('broken',[])))
            o={'id':i+('' if len(rs)==1 else f' (attempt {k+1})'),'definition':f"{m['file']}.{m['definition']}",'edit':m['edit'],
               'old':m.get('old'),'new':m.get('new'),'claim_broken':m.get('breaks') or sorted(set(x[:3] for x in failed)),
               'theorems_failed':failed[:40]+([f'... and {len(failed)-40} more'] if len(failed)>40 else []),
               'lemmas_failed_first':r.get('first_failures',{}),
               'claims_not_noticing':r.get('expected_but_alive',[]),
               'theorems_tightened':n.get('tightened',[]) if last or len(rs)==1 else []}
            if n.get('note'): o['note']=n['note']
            g.write(json.dumps(o)+'\n')
