#!/usr/bin/env python3
"""Seeded-bug runner. usage: seed.py mutations.json  (run outside /verif: works in a scratch copy under /tmp/seed)
Each mutation: {"id","file","old","new","definition","edit","claim"}. The edit is applied to a scratch copy of rocq/, which is rebuilt;
a lemma whose proof or statement breaks is admitted (in the scratch copy only) and the build goes on, so that every broken lemma is seen.
With "targets" (module names) only these files and what they need are rebuilt and searched for theorems. At the end the C.. theorems of the manifest that now rest on an admitted lemma are listed with Print Assumptions."""
import json,os,re,shutil,subprocess,sys
SRC=os.environ.get('SEED_SRC','/verif/rocq')
def sh(c,cwd,t=3000):
    return subprocess.run(c,shell=True,cwd=cwd,capture_output=True,text=True,timeout=t)
def enclosing(path,line):
    ls=open(path).read().split('\n')
    i=line-1
    while i>=0 and not re.match(r'\s*(Global |Local |#\[.*\] )?(Lemma|Theorem|Example|Corollary|Fact|Definition|Fixpoint|Inductive|Record|Instance)\b',ls[i]): i-=1
    m=re.match(r'\s*(?:Global |Local )?(\w+)\s+([\w\']+)',ls[i]) if i>=0 else None
    return i,(m.group(1),m.group(2)) if m else (None,None)
def admit(path,i):
    """replace the proof of the statement starting at line i by Admitted"""
    ls=open(path).read().split('\n')
    j=i
    while j<len(ls) and not re.search(r'\b(Qed|Defined|Admitted)\.',ls[j]): j+=1
    txt='\n'.join(ls[i:j+1]); tail=''
    m=re.search(r'\bProof\b.*?\.(\s|$)',txt)
    if m: txt2=txt[:m.start()]+'Proof. Admitted.'
    else: return False
    k=re.search(r'\b(Qed|Defined)\.',txt)
    e=list(re.finditer(r'\b(Qed|Defined)\.',txt))[-1]
    tail=txt[e.end():]
    ls[i:j+1]=(txt2+tail).split('\n')
    open(path,'w').write('\n'.join(ls)); return True
def run(mu,work):
    if os.path.exists(work): shutil.rmtree(work)
    shutil.copytree(SRC,work,copy_function=shutil.copy2)
    edits=mu.get('edits') or [mu]
    for e in edits:
        p=f"{work}/theories/{e['file']}"
        s=open(p).read()
        if s.count(e['old'])!=1: return {'id':mu['id'],'error':f"old occurs {s.count(e['old'])} times"}
        open(p,'w').write(s.replace(e['old'],e['new']))
    broken=[]; removed=[]
    for it in range(60):
        r=sh('timeout 1500 make -k -j3 '+(' '.join(f'theories/{t}.vo' for t in mu['targets']) if 'targets' in mu else '')+' 2>&1',work)
        if r.returncode==0: break
        errs=re.findall(r'File "\./(theories/\w+\.v)", line (\d+)[^\n]*\n(Error[^\n]*)?',r.stdout)
        errs=[(f,l) for f,l,e in errs if re.search(re.escape(f'File "./{f}", line {l}')+r'[^\n]*\nError',r.stdout)]
        if not errs: broken.append('BUILD:'+r.stdout[-300:]); break
        done=set()
        for f,l in errs:
            if f in done: continue
            done.add(f)
            i,(kind,name)=enclosing(f'{work}/{f}',int(l))
            broken.append(name or '?')
            if kind in ('Lemma','Theorem','Example','Corollary','Fact') and broken.count(name)==1 and admit(f'{work}/{f}',i): continue
            # statement or definition broken: give up on this file
            removed.append(f); 
        if removed: break
    names=[]
    if not removed and r.returncode==0:
        man=json.load(open('/verif/MANIFEST.json'))
        ths=sorted({t for c in man['claims'] for t in c['theorems']})
        mods=[x[:-2] for x in os.listdir(work+'/theories') if x.endswith('.v')]
        if 'targets' in mu:
            mods=mu['targets']
        q=''.join(f'From Verif Require {m}.\n' for m in mods)
        loc={}
        for m in mods:
            for t in re.findall(r'^\s*(?:Theorem|Lemma|Example)\s+([\w\']+)',open(f'{work}/theories/{m}.v').read(),re.M): loc.setdefault(t,m)
        out=[]
        q+=''.join(f'Print Assumptions Verif.{loc[t]}.{t}.\n' for t in ths if t in loc)
        open(f'{work}/Q.v','w').write(q)
        a=sh('coqc -Q theories Verif Q.v',work)
        parts=re.split(r'(?=^Closed under|^Axioms:)',a.stdout,flags=re.M)
        parts=[p for p in parts if p.strip()]
        tt=[t for t in ths if t in loc]
        if len(parts)!=len(tt): names=['?PA '+a.stderr[-200:]]
        else: names=[t for t,p in zip(tt,parts) if p.startswith('Axioms')]
    return {'id':mu['id'],'definition':mu['definition'],'edit':mu['edit'],'claim':mu['claim'],'lemmas_broken':broken,'theorems_failed':names or [b for b in broken if re.match(r'C\d\d',b)],'blocked_files':removed}
if __name__=='__main__':
    ms=json.load(open(sys.argv[1]))
    for m in ms:
        try: r=run(m,os.environ.get('SEED_WORK','/tmp/seed/work'))
        except Exception as ex: r={'id':m['id'],'error':repr(ex)}
        print(json.dumps(r),flush=True)
