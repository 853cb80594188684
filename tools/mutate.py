#!/usr/bin/env python3
"""Mutation testing of the model.  usage: mutate.py MUTANTS.json [id ...]
Each mutant: {"id","file","def","old","new","edit","claim"}.  Copies the compiled theories to
/tmp/mut/<id>, applies the edit, recompiles what depends on the file; every proof that no longer goes
through is replaced by Admitted, and at the end Print Assumptions tells which property theorems
rest on an admitted proof.  Appends one line to seeded/LOG.jsonl.
"only": [files] restricts the rebuild to these property files and their dependencies."""
import sys, os, re, json, shutil, subprocess, time
ROOT='/verif'; SNAP=os.environ.get('SNAP',ROOT+'/rocq'); TH=SNAP+'/theories'
def order():
    return [l.strip()[9:-2] for l in open(SNAP+'/_CoqProject') if l.startswith('theories/')]
def deps(d, files):
    out=subprocess.run(['coqdep','-Q','.','Verif']+[f+'.v' for f in files],cwd=d,capture_output=True,text=True).stdout
    r={}
    for l in out.splitlines():
        m=re.match(r'(\S+)\.vo\b.*?: (.*)',l)
        if m: r[m.group(1)]=[os.path.basename(x)[:-3] for x in m.group(2).split() if x.endswith('.vo') and '/' not in x.replace('./','')]
    return r
START=re.compile(r'^\s*(?:Local |Global |#\[[a-z]*\] )?(?:Lemma|Theorem|Example|Corollary|Fact|Remark)\s+(\S+)',re.M)
def admit_at(src,pos):
    st=None
    for m in START.finditer(src):
        if m.start()<=pos: st=m
        else: break
    if st is None: return None
    p=src.find('Proof',st.end())
    e=re.compile(r'\b(Qed|Defined)\.').search(src,st.end())
    if p<0 or e is None or p>e.start() or pos>e.end(): return None
    if pos<p-1: return ('STATEMENT',st.group(1))
    return (src[:p]+'Admitted.'+src[e.end():], st.group(1))
def sentence_pos(out):
    last=None
    for m in re.finditer(r'^Chars (\d+) - (\d+)',out,re.M): last=m
    return int(last.group(2)) if last else 0
def compile(d,f,log,tmo=240):
    failed=[]; broken=None
    for _ in range(80):
        try:
            p=subprocess.run(['coqc','-time','-Q','.','Verif',f+'.v'],cwd=d,capture_output=True,timeout=tmo)
            if p.returncode==0: return failed,None
            err=p.stderr.decode(errors='replace')
            m=re.findall(r'File "\./'+f+r'\.v", line (\d+), characters (\d+)-(\d+):\n(?!Warning)',err)
            if not m: return failed,err[-300:]
            data=open(d+'/'+f+'.v','rb').read()
            ln,c=int(m[-1][0]),int(m[-1][1])
            bpos=sum(len(x)+1 for x in data.split(b'\n')[:ln-1])+c
        except subprocess.TimeoutExpired as e:
            bpos=sentence_pos((e.stdout or b'').decode(errors='replace'))+2
            data=open(d+'/'+f+'.v','rb').read()
        src=data.decode(); pos=len(data[:bpos].decode(errors='ignore'))
        r=admit_at(src,pos)
        if r is None or r[0]=='STATEMENT': return failed,'not in a proof: '+src[max(0,pos-40):pos+60]
        failed.append(r[1]); open(d+'/'+f+'.v','w').write(r[0])
    return failed,'too many failures'
def run(mu):
    t0=time.time(); d='/tmp/mut/'+mu['id']; shutil.rmtree(d,ignore_errors=True); shutil.copytree(TH,d)
    p=d+'/'+mu['file']; s=open(p).read()
    if s.count(mu['old'])!=mu.get('count',1): print(mu['id'],'EDIT DOES NOT APPLY',s.count(mu['old'])); return
    open(p,'w').write(s.replace(mu['old'],mu['new']))
    files=order(); dp=deps(d,files); dirty=set([mu['file'][:-2]]); bad=set(); failed={}; broken={}
    if 'only' in mu:   # look only at these property files and what they need
        need=set(); todo=list(mu['only'])
        while todo:
            f=todo.pop()
            if f not in need: need.add(f); todo+=dp.get(f,[])
        files=[f for f in files if f in need]
    for f in files:
        if f not in dirty and not any(x in dirty for x in dp.get(f,[])): continue
        dirty.add(f)
        if any(x in bad for x in dp.get(f,[])): bad.add(f); continue
        fl,b=compile(d,f,None)
        if fl: failed[f]=fl
        if b: broken[f]=b; bad.add(f)
    props=[]
    for f in files:
        if f.startswith('Props') and f in dirty:
            if f in bad: props.append(('(file '+f+' not built)')); continue
            names=re.findall(r'^Theorem (C\d+_\w+)',open(d+'/'+f+'.v').read(),re.M)
            q='From Verif Require Import '+f+'.\n'+''.join(f'Print Assumptions {n}.\n' for n in names)
            open(d+'/q.v','w').write(q)
            o=subprocess.run(['coqc','-Q','.','Verif','q.v'],cwd=d,capture_output=True,text=True).stdout
            parts=re.split(r'(?m)^(?=Axioms:|Closed under)',o)[1:]
            for n,x in zip(names,parts):
                if x.startswith('Axioms'): props.append(n)
    rec={"id":mu['id'],"definition":mu['file']+': '+mu['def'],"edit":mu['edit'],"claim_broken":mu['claim'],
         "theorems_failed":props,"lemmas_failed":sum(failed.values(),[]),"not_built":broken or None,"tightened":mu.get('tightened',[]),"seconds":int(time.time()-t0)}
    if not rec["not_built"]: del rec["not_built"]
    open(mu.get('log',ROOT+'/seeded/LOG.jsonl'),'a').write(json.dumps(rec,ensure_ascii=False)+'\n')
    print(mu['id'],mu['claim'],'->',props,rec['lemmas_failed'][:6],broken,rec['seconds'],flush=True)
    shutil.rmtree(d,ignore_errors=True)
if __name__=='__main__':
    ms=json.load(open(sys.argv[1])); want=sys.argv[2:]
    for m in ms:
        if not want or m['id'] in want: run(m)
