#!/usr/bin/env python3
"""Rebuild DESIGN.md from tools/DESIGN.tmpl.md; the findings table comes from the *_refuted theorems."""
import re,glob,os
root=os.path.join(os.path.dirname(os.path.abspath(__file__)),'..')
rows=[]
for f in sorted(glob.glob(root+'/rocq/theories/Prop*.v')):
    s=open(f).read()
    for m in re.finditer(r'^Theorem (C\d+_\w*refuted)\b',s,flags=re.M):
        d=s[:m.start()].rstrip()
        doc=''
        if d.endswith('*)'):
            doc=' '.join(d[d.rfind('(**')+3:-2].split())
        doc=re.sub(r'^C\d+( \([^)]*\)|, refutation[^:]*)?: ?','',doc).replace('|','\\|')
        rows.append((m.group(1),doc))
rows.sort()
t=open(root+'/tools/DESIGN.tmpl.md').read()
open(root+'/DESIGN.md','w').write(t.replace('@@FINDINGS@@','\n'.join('| `%s` | %s |'%r for r in rows)))
print(len(rows),'findings;',[r[0] for r in rows if not r[1]])
