"""Seeded-bug experiments.  usage: mutate.py mutations.json [out.jsonl]
Each mutation: {"file","old","new","definition","edit","claim","expect":["C04",...]},
optionally "targets":["PropsX.v"] to rebuild only what those files need.
In a scratch copy the edit is applied and everything is rebuilt; each lemma whose proof breaks is
replaced by Admitted, and the property theorems that end up depending on an admitted lemma (or whose
statement no longer typechecks) are reported as failed."""
import json,sys,os,re,shutil,subprocess,tempfile
SRC='/verif/rocq'
def order():
    return [l.strip() for l in open(SRC+'/_CoqProject') if l.strip().endswith('.v')]
def deps():
    out=subprocess.run(['coqdep','-Q','theories','Verif']+order(),cwd=SRC,capture_output=True,text=True).stdout
    d={}
    for line in out.replace('\\\n',' ').splitlines():
        m=re.match(r'(theories/\S+)\.vo\s.*?:\s*(.*)',line)
        if m:
            d[m.group(1)+'.v']=[x[:-3]+'.v' for x in m.group(2).split() if x.endswith('.vo') and x.startswith('theories/')]
    return d
def topo(d):
    seen=[];
    def go(f):
        if f in seen: return
        for x in d.get(f,[]): go(x)
        seen.append(f)
    for f in order(): go(f)
    return seen
START=re.compile(r'^\s*(?:#\[[^\]]*\]\s*)?(?:Local |Global )?(Theorem|Lemma|Example|Corollary|Fact|Remark|Definition|Fixpoint|Instance|Program Definition)\s+(\w+)',re.M)
def build(dir,f,log,timeout=900):
    """compile f, admitting broken proofs.  returns True if compiled"""
    dropped=0
    while True:
        try:
            r=subprocess.run(['coqc','-q','-Q','theories','Verif',f],cwd=dir,capture_output=True,text=True,timeout=timeout)
        except subprocess.TimeoutExpired:
            log.append((f,'TIMEOUT')); return None
        if r.returncode==0: return r.stdout
        m=re.search(r'File "[^"]*", line (\d+), characters (\d+)-(\d+):\s*\n(?:.*\n)*?Error',r.stderr)
        ms=[x for x in re.finditer(r'File "[^"]*", line (\d+), characters (\d+)-(\d+):\s*\n(\w+)',r.stderr) if x.group(4)=='Error']
        if not ms: log.append((f,'NOERR '+r.stderr[-300:])); return None
        ln=int(ms[-1].group(1)); 
        s=open(os.path.join(dir,f)).read(); lines=s.split('\n')
        pos=sum(len(l)+1 for l in lines[:ln-1])+int(ms[-1].group(2))
        st=None
        for x in START.finditer(s):
            if x.start()<=pos: st=x
            else: break
        if st is None: log.append((f,'NOSTART')); return None
        name=st.group(2)
        pm=re.compile(r'\bProof\b[^.]*\.').search(s,st.end())
        qm=re.compile(r'\b(Qed|Defined)\.').search(s,st.end())
        nxt=START.search(s,st.end())
        log.append((f,name))
        if qm and pm and pm.start()<qm.start() and pos>=pm.start() and pos<=qm.end():
            s=s[:pm.start()]+'Admitted.'+s[qm.end():]
        else:
            # statement itself broken: drop the item up to next blank-line/Qed
            end=qm.end() if qm and (not nxt or qm.start()<nxt.start()) else (nxt.start() if nxt else len(s))
            log.append((f,'DROPPED '+name)); s=s[:st.start()]+s[end:]
            s=re.sub(r'^Print Assumptions %s\.'%name,'',s,flags=re.M)
        open(os.path.join(dir,f),'w').write(s)
        dropped+=1
        if dropped>80: log.append((f,'TOOMANY')); return None
def run(mut,ORD,D):
    dir=tempfile.mkdtemp(prefix='mut')
    try:
        shutil.copytree(SRC,dir,dirs_exist_ok=True)
        edits=mut.get('edits') or [(mut['file'],mut['old'],mut['new'])]
        changed=set()
        for (fn,old,new) in edits:
            p=os.path.join(dir,'theories',fn); s=open(p).read()
            if s.count(old)<1: return dict(error='pattern not found in '+fn)
            s=s.replace(old,new,1); open(p,'w').write(s); changed.add('theories/'+fn)
        log=[]; broken=set(); failed=set(); allth=set()
        dirty=set(changed)
        need=None
        if mut.get('targets'):
            need=set()
            def go(f):
                if f in need: return
                need.add(f)
                for x in D.get(f,[]): go(x)
            for t in mut['targets']: go('theories/'+t)
        for f in ORD:
            if need is not None and f not in need: continue
            if f not in dirty and not any(x in dirty for x in D.get(f,[])): continue
            dirty.add(f)
            if any(x in broken for x in D.get(f,[])):
                broken.add(f)
                if os.path.basename(f).startswith('Props'):
                    failed|=set(re.findall(r'^Theorem\s+(C\d+_\w+)',open(os.path.join(dir,f)).read(),re.M))
                continue
            orig=open(os.path.join(dir,f)).read()
            out=build(dir,f,log)
            if out is None: 
                broken.add(f)
                if os.path.basename(f).startswith('Props'): failed|=set(re.findall(r'^Theorem\s+(C\d+_\w+)',orig,re.M))
                continue
            if os.path.basename(f).startswith('Props'):
                ths=re.findall(r'^Theorem\s+(C\d+_\w+)',orig,re.M)
                now=open(os.path.join(dir,f)).read()
                pas=[x for x in re.findall(r'^Print Assumptions (\w+)\.',now,re.M)]
                blocks=re.split(r'(?m)^(?=Closed under|Axioms:|Section Variables:)',out)
                blocks=[b for b in blocks if b.startswith(('Closed','Axioms'))]
                if len(blocks)!=len(pas): log.append((f,'PA mismatch %d %d'%(len(blocks),len(pas))))
                for n,b in zip(pas,blocks):
                    if not b.startswith('Closed'): failed.add(n)
                for t in ths:
                    if t not in pas: failed.add(t)
        return dict(failed=sorted(failed),lemmas=[l for l in log])
    finally:
        shutil.rmtree(dir,ignore_errors=True)
if __name__=='__main__':
    from concurrent.futures import ThreadPoolExecutor
    muts=json.load(open(sys.argv[1])); out=sys.argv[2] if len(sys.argv)>2 else '/tmp/mutres.jsonl'
    D=deps(); ORD=topo(D)
    def one(m):
        r=run(m,ORD,D)
        exp=m.get('expect',[]); got={t.split('_')[0] for t in r.get('failed',[])}
        r['missed']=[e for e in exp if e not in got]
        return m,r
    with ThreadPoolExecutor(3) as ex, open(out,'a') as o:
        for m,r in ex.map(one,muts):
            print(m.get('definition'),'|',m['edit'],'|',r.get('error') or ('failed: '+', '.join(r['failed'])),'| MISSED' if r['missed'] else '',r['missed'],flush=True)
            o.write(json.dumps(dict(m=m,r=r))+'\n'); o.flush()
