#!/usr/bin/env python3
"""Generate Prop<X>.v from Proofs<X>.v: every 'Lemma l_Cnn_name : stmt. Proof' becomes
'Theorem Cnn_name : stmt. Proof. exact l_Cnn_name. Qed. Print Assumptions ...'
and every 'Lemma x_Cnn_name' becomes an Example (non-vacuity).  Doc comments just before are copied."""
import re,sys,os
d=os.path.join(os.path.dirname(__file__),'..','rocq','theories')
for src in sys.argv[1:]:
    s=open(os.path.join(d,src)).read()
    hdr=[m for m in re.findall(r'^From [\s\S]*?\.\s*$',s,flags=re.M)]
    base=src[:-2]
    out=["(** * Property theorems (generated from %s by tools/genprops.py; statements only,\n    each closed by [exact]). *)"%src]
    out+= [h.strip() for h in hdr]
    out.append("From Verif Require Import %s."%base)
    out+=re.findall(r'^Local Open Scope \w+\.',s,flags=re.M)
    out.append("Open Scope R_scope.\n")
    for m in re.finditer(r'((?:\(\*\*(?:(?!\*\))[\s\S])*?\*\)\s*\n)?)Lemma ([lx])_(C\d+_\w+) :([\s\S]*?)\nProof\.',s):
        doc,kind,name,st=m.groups()
        kw='Theorem' if kind=='l' else 'Example'
        out.append("%s%s %s :%s\nProof. exact %s_%s. Qed."%(doc,kw,name,st,kind,name))
        if kind=='l': out.append("Print Assumptions %s."%name)
        out.append("")
    open(os.path.join(d,base.replace('Proofs','Prop')+'.v'),'w').write("\n".join(out))
