#!/usr/bin/env python3
"""Try wrong programs against the theorems, in a scratch copy outside /verif.

usage: mutate.py MUTANTS.json OUT.jsonl [jobs]
Each mutant: {"name","file","old","new","definition","edit","claim","only"}; only
may list the property files to try (default: all); old must
occur exactly once in the file.  Every file that depends on the edited one is
rebuilt; a lemma whose proof fails is admitted (in the scratch copy) and the
build goes on; the property theorems that failed are those that fail
themselves or whose Print Assumptions lists an admitted lemma."""
import json, os, re, subprocess, sys, shutil, time
from concurrent.futures import ThreadPoolExecutor, FIRST_COMPLETED, wait
SRC=os.environ.get('SRC','/verif/rocq'); SCR=os.environ.get('SCRATCH','/tmp/mut/rocq')
HEAD=re.compile(r'^[ \t]*(?:#\[[^\]]*\]\s*)?(?:Local |Global )?(Lemma|Theorem|Example|Corollary|Fact|Remark)\s+([A-Za-z0-9_\']+)',re.M)
TMO=int(os.environ.get('TMO','400'))
def sh(c,**k): return subprocess.run(c,capture_output=True,text=True,**k)
def deps():
    files=[l.strip() for l in open(SRC+'/_CoqProject') if l.strip().endswith('.v')]
    out=sh(['coqdep','-Q','theories','Verif']+files,cwd=SRC).stdout
    d={f:set() for f in files}
    for l in out.splitlines():
        m=re.match(r'(\S+)\.vo \S.*?: (.*)',l)
        if not m: continue
        f=m.group(1)+'.v'
        if f in d: d[f]|={x[:-1] for x in m.group(2).split() if x.endswith('.vo') and x[:-1] in d}
    return files,d
def lemma_at(txt,pos):
    last=None
    for m in HEAD.finditer(txt):
        if m.start()<=pos: last=m
        else: break
    return last
def admit(path,pos):
    txt=open(path).read(); m=lemma_at(txt,pos)
    if not m: return None
    p=re.compile(r'\bProof\b').search(txt,m.end())
    q=re.compile(r'\b(Qed|Defined)\.').search(txt,m.end())
    if not q or q.end()<pos: return None
    if not p or p.start()>q.start() : return None
    if pos<p.start():   # the statement itself no longer type-checks
        new=txt[:m.start()]+'(* statement failed: '+m.group(2)+' *)'+txt[q.end():]
        new=re.sub(r'Print Assumptions '+re.escape(m.group(2))+r'\.','',new)
    else: new=txt[:p.start()]+'Admitted.'+txt[q.end():]
    open(path,'w').write(new); return m.group(2)
def line_off(txt,line,ch):
    o=0
    for _ in range(line-1): o=txt.index(b'\n',o)+1
    return len(txt[:o+ch].decode('utf8','ignore'))
def build(f):
    path=SCR+'/'+f; failed=[]
    for _ in range(60):
        try:
            r=sh(['coqc','-time','-Q','theories','Verif',f],cwd=SCR,timeout=TMO)
        except subprocess.TimeoutExpired as e:
            o=(e.stdout or b''); o=o.decode() if isinstance(o,bytes) else o
            cs=re.findall(r'^Chars (\d+) - (\d+) ',o,re.M)
            if not cs: return failed,'timeout',''
            raw=open(path,'rb').read(); pos=len(raw[:int(cs[-1][1])+2].decode('utf8','ignore'))
            n=admit(path,pos)
            if n is None: return failed,'timeout',''
            failed.append(n); continue
        if r.returncode==0: return failed,None,r.stdout
        m=re.search(r'line (\d+), characters (\d+)-(\d+):\s*\n(?:.*\n)*?Error',r.stderr) 
        ms=re.findall(r'line (\d+), characters (\d+)-(\d+):',r.stderr)
        if not ms: return failed,r.stderr[-500:],''
        l,c=int(ms[-1][0]),int(ms[-1][1])
        raw=open(path,'rb').read()
        n=admit(path,line_off(raw,l,c))
        if n is None: return failed,r.stderr[-500:],''
        failed.append(n)
    return failed,'too many failures',''
def run(mu,jobs,files,d):
    shutil.rmtree(SCR,ignore_errors=True); os.makedirs(os.path.dirname(SCR),exist_ok=True)
    sh(['cp','-a',SRC,SCR])
    f='theories/'+mu['file']; p=SCR+'/'+f; t=open(p).read()
    eds=mu.get('edits') or [[mu['old'],mu['new']]]
    for o,n in eds:
        if t.count(o)!=1: return {'error':'old occurs %d times: %s'%(t.count(o),o)}
        t=t.replace(o,n)
    open(p,'w').write(t)
    aff={f}
    while True:
        n={x for x in files if d[x]&aff}-aff
        if not n: break
        aff|=n
    if mu.get('only'):   # only these property files and what they need
        need={'theories/'+x for x in mu['only']}
        while True:
            n={y for x in need for y in d[x]}-need
            if not n: break
            need|=n
        aff&=need
    done=set(); lem={}; err={}; out={}; pend=set(aff); running={}; bad=set()
    with ThreadPoolExecutor(jobs) as ex:
        while pend or running:
            for x in sorted(pend):
                dd=d[x]&aff
                if dd&bad: pend.discard(x); bad.add(x); err[x]='dependency not built'; continue
                if dd<=done and len(running)<jobs:
                    pend.discard(x); running[ex.submit(build,x)]=x
            if not running: 
                if pend: continue
                break
            fs,_=wait(running,return_when=FIRST_COMPLETED)
            for u in fs:
                x=running.pop(u); fl,e,o=u.result()
                if fl: lem[x]=fl
                if e: err[x]=e; bad.add(x)
                else: done.add(x); out[x]=o
    adm={n for v in lem.values() for n in v}
    failed=[];ok=[]
    for x in sorted(aff):
        if '/Properties/' not in x: continue
        names=re.findall(r'^Theorem (C\d\d\w*)',open(SRC+'/'+x).read(),re.M)
        if x in bad: failed+=names; continue
        fl=set(lem.get(x,[]))
        # split output by Print Assumptions sentences
        chunks=re.split(r'^Chars \d+ - \d+ \[',out[x],flags=re.M)
        dep={}
        prev=''; order=re.findall(r'^Print Assumptions (\w+)\.',open(SCR+'/'+x).read(),re.M)  # -time abbreviates names
        for i,c in enumerate(chunks):
            if c.startswith('Print~Assumptions'): dep[order.pop(0)]=prev
            prev=re.sub(r'^[^\n]*\n','',c,count=1)
        for n in names:
            if n in fl: failed.append(n); continue
            # a theorem fails if its assumption list (printed before its timing line) mentions an admitted lemma
            a=dep.get(n)
            if a is None or 'Closed under' not in a: failed.append(n)
            else: ok.append(n)
    return {'admitted':lem,'errors':err,'failed':failed,'still_proved':ok}
def main():
    mus=json.load(open(sys.argv[1])); outp=sys.argv[2]; jobs=int(sys.argv[3]) if len(sys.argv)>3 else 3
    files,d=deps()
    have=set()
    if os.path.exists(outp): have={json.loads(l)['name'] for l in open(outp)}
    for mu in mus:
        if mu['name'] in have: continue
        t=time.time(); r=run(mu,jobs,files,d); r['secs']=int(time.time()-t)
        with open(outp,'a') as o: o.write(json.dumps({**mu,**r})+'\n')
        print(mu['name'],r.get('error',''),'failed',len(r.get('failed',[])),'ok',len(r.get('still_proved',[])),r['secs'],'s',flush=True)
main()
