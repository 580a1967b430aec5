#!/usr/bin/env python3
"""newclaim.py ID FILE.json : append the property line, the status entry and the DESIGN row of one claim."""
import json,sys,os
root=os.path.join(os.path.dirname(os.path.abspath(__file__)),'..')
for c in json.load(open(sys.argv[1])):
    have=[json.loads(l)['id'] for l in open(root+'/properties.jsonl')]
    if c['prop']['id'] not in have: open(root+'/properties.jsonl','a').write(json.dumps(c['prop'])+'\n')
    p=root+'/tools/status.json'; st=json.load(open(p)); st[c['prop']['id']]=c['status']; json.dump(st,open(p,'w'),indent=1)
    p=root+'/tools/DESIGN.tmpl.md'; t=open(p).read(); row='| %s | %s | %s |\n'%(c['prop']['id'],c['model'],c['proof'])
    if row not in t:
        i=t.index('\n## Trusted base'); t=t[:i].rstrip('\n')+'\n'+row+t[i:]
        open(p,'w').write(t)
