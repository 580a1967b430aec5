#!/usr/bin/env python3
"""Seeded bugs: apply the edits of tools/mutants.json to a scratch copy of the model and rebuild it.
A lemma whose proof fails is admitted in the scratch copy, so that the rest of the file is still tried; a property
theorem counts as failed if its proof, transitively, uses such a lemma (or its file cannot be compiled).
usage: mutate.py SCRATCH [ids...]   (one JSON line per mutant on stdout and in SCRATCH/results.jsonl)"""
import sys,os,re,json,subprocess,shutil,glob,time,resource
from concurrent.futures import ThreadPoolExecutor,wait,FIRST_COMPLETED
root=os.path.abspath(os.path.join(os.path.dirname(os.path.abspath(__file__)),'..'))
scratch=sys.argv[1]; only=sys.argv[2:]
J=int(os.environ.get('MUT_JOBS','3'))
src=root+'/rocq'
def sh(c,**k): return subprocess.run(c,shell=True,capture_output=True,text=True,**k)
files=[l.strip() for l in open(src+'/_CoqProject') if l.strip().endswith('.v')]
deps={}
out=sh(f'cd {src} && coqdep -Q theories Verif '+' '.join(files)).stdout
for l in out.replace('\\\n',' ').split('\n'):
    if '.vo' not in l or ':' not in l: continue
    a,b=l.split(':',1)
    t=[x for x in a.split() if x.endswith('.vo')]
    if t: deps[t[0][:-1]]=[x[:-1] for x in b.split() if x.endswith('.vo') and x.startswith('theories')]
LEM=re.compile(r'^\s*(?:Local |Global )?(Lemma|Theorem|Example|Corollary|Fact|Remark)\s+(\w+)',re.M)
def enclosing(text,pos):
    last=None
    for m in LEM.finditer(text):
        if m.start()<=pos: last=m
        else: break
    return last
def admit(text,m):
    """Replace the proof of the lemma starting at m by Admitted."""
    p=re.compile(r'\bProof\b[^.]*\.').search(text,m.end())
    if not p: return None
    q=re.compile(r'\b(Qed|Defined)\.').search(text,p.end())
    a=re.compile(r'\bAdmitted\.').search(text,p.end())
    if not q or (a and a.start()<q.start()): return None
    return text[:p.start()]+'Admitted.'+text[q.end():]
REFS={}; THMS=[]
def load_globs():
    """Which lemma or definition mentions which, from the .glob files of the unedited build."""
    for f in files:
        mod=os.path.basename(f)[:-2]; cur=None
        for l in open(f'{src}/{f[:-2]}.glob',errors='replace'):
            q=l.split()
            if q and q[0] in ('prf','def','ind','rec') and len(q)>=4:
                cur=(mod,q[3]); REFS.setdefault(cur,set())
                if q[0]=='prf' and mod.startswith('Prop'): THMS.append(cur)
            elif l.startswith('R') and cur and len(q)>=4 and q[1].startswith('Verif.'):
                REFS[cur].add((q[1][6:],q[3]))
_cl={}
def closure(x):
    if x in _cl: return _cl[x]
    seen=set(); st=[x]
    while st:
        y=st.pop()
        if y in seen: continue
        seen.add(y); st+=list(REFS.get(y,()))
    _cl[x]=seen; return seen
def compile_one(d,f,tmo):
    """-> (ok, admitted lemmas, assumptions output)"""
    path=f'{d}/{f}'; adm=[]
    for it in range(40):
        text=open(path).read()
        try:
            r=subprocess.run(['coqc','-q','-time','-Q','theories','Verif',f],cwd=d,capture_output=True,text=True,timeout=tmo,preexec_fn=lambda: resource.setrlimit(resource.RLIMIT_AS,(5<<30,5<<30)))
            if r.returncode==0: return True,adm,r.stdout
            m=re.search(r'line (\d+), characters (\d+)-',r.stderr)
            if not m:   # out of memory: the command after the last one reported
                cs=re.findall(r'Chars \d+ - (\d+)',r.stdout)
                if not cs: return False,adm,r.stderr[-300:]
                pos=len(text.encode()[:int(cs[-1])].decode(errors='replace'))+1
            else: pos=sum(len(l)+1 for l in text.split('\n')[:int(m.group(1))-1])+int(m.group(2))
        except subprocess.TimeoutExpired as e:
            o=(e.stdout or b'').decode(errors='replace')
            cs=re.findall(r'Chars \d+ - (\d+)',o)
            if not cs: return False,adm,'timeout'
            b=text.encode()[:int(cs[-1])].decode(errors='replace'); pos=len(b)+1
        e=enclosing(text,pos)
        if not e: return False,adm,'no lemma'
        new=admit(text,e)
        if new is None: return False,adm,'not a proof: '+e.group(2)
        adm.append(e.group(2)); open(path,'w').write(new)
    return False,adm,'too many'
def run(mu):
    d=scratch+'/m'; shutil.rmtree(d,ignore_errors=True); os.makedirs(scratch,exist_ok=True)
    subprocess.run(['cp','-a',src,d],check=True)
    edits=mu.get('edits') or [mu]
    dirty=set()
    for e in edits:
        p=f"{d}/theories/{e['file']}.v"; s=open(p).read()
        if s.count(e['old'])<1: return {'error':'pattern not found in '+e['file']}
        s=s.replace(e['old'],e['new'],1) if not e.get('all') else s.replace(e['old'],e['new'])
        open(p,'w').write(s); dirty.add(f"theories/{e['file']}.v")
    todo=[]; bad=set(dirty)
    for f in files:
        if f in bad or any(x in bad for x in deps.get(f,[])): bad.add(f); todo.append(f)
    done={f for f in files if f not in bad}; failed={}; adm={}; outs={}
    run_=set(); ex=ThreadPoolExecutor(J); futs={}
    pend=[f for f in todo if not os.path.basename(f).startswith('Prop')]
    while pend or futs:
        for f in list(pend):
            dd=deps.get(f,[])
            if any(x in failed for x in dd): failed[f]='dependency'; pend.remove(f); continue
            if all(x in done for x in dd) and len(futs)<J:
                pend.remove(f); futs[ex.submit(compile_one,d,f,mu.get('timeout',240))]=f
        if not futs: continue
        ds,_=wait(list(futs),return_when=FIRST_COMPLETED)
        for x in ds:
            f=futs.pop(x); ok,a,o=x.result()
            if a: adm[f]=a
            if ok: done.add(f); outs[f]=o
            else: failed[f]=o
    ex.shutdown()
    alladm={(os.path.basename(f)[:-2],x) for f,v in adm.items() for x in v}
    gone={os.path.basename(f)[:-2] for f in failed}
    broken=[]; total=0
    for (mod,t) in THMS:
        if f'theories/{mod}.v' not in bad: continue
        total+=1; c=closure((mod,t))
        if c & alladm or any(x[0] in gone for x in c): broken.append(t)
    return {'broken':broken,'first_failures':{os.path.basename(f)[:-2]:v for f,v in adm.items()},'not_compiled':{os.path.basename(f)[:-2]:str(v)[:120] for f,v in failed.items() if v!='dependency'},'checked':total}
if __name__=='__main__':
    load_globs()
    M=json.load(open(root+'/tools/mutants.json'))
    for mu in M:
        if only and mu['id'] not in only: continue
        t=time.time(); r=run(mu); r['id']=mu['id']; r['secs']=round(time.time()-t)
        exp=mu.get('breaks',[])
        if 'broken' in r:
            r['broken_claims']=sorted({b.split('_')[0] for b in r['broken']})
            r['expected_but_alive']=[c for c in exp if c not in r['broken_claims'] and c not in r['broken']]
        print(json.dumps(r)); sys.stdout.flush()
        with open(scratch+'/results.jsonl','a') as g: g.write(json.dumps(r)+'\n')
