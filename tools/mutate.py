#!/usr/bin/env python3
"""Test the theorems against wrong programs.

usage: mutate.py MUTATIONS.py [id ...] [-j N] [--log FILE]

MUTATIONS.py defines a list M of dicts: id, file (under rocq/theories), definition, old, new, claim (list of property
ids), why.  For each one: copy the development to a scratch directory, apply the edit, recompile every file that depends
on it.  A lemma whose proof no longer goes through is replaced by Admitted and compilation goes on, so that at the end
'Print Assumptions' tells exactly which property theorems rest on a broken lemma (or are broken themselves).
"""
import sys, os, re, json, subprocess, shutil, concurrent.futures as cf, time
ROOT='/verif/rocq'
BASE='/tmp/scratch'
def order():
    return [l.strip() for l in open(ROOT+'/_CoqProject') if l.strip().endswith('.v')]
def deps(files):
    d={}
    out=subprocess.run(['coqdep','-Q','theories','Verif']+files,cwd=ROOT,capture_output=True,text=True).stdout
    for line in out.splitlines():
        m=re.match(r'(\S+)\.vo\s.*?: (.*)',line)
        if m: d[m.group(1)+'.v']=[x[:-1] for x in m.group(2).split() if x.endswith('.vo') and x.startswith('theories')]
    return d
START=re.compile(r'^\s*(?:Local\s+|Global\s+|#\[.*?\]\s*)?(Lemma|Theorem|Example|Corollary|Fact|Remark|Instance|Definition|Fixpoint)\s+([\w\']+)',re.M)
PROOF=re.compile(r'\bProof\b[^.]*\.',re.S)
END=re.compile(r'\b(Qed|Defined)\s*\.')
def admit(src,pos):
    """replace the proof enclosing character pos by Admitted; return (src,name)"""
    starts=[m for m in START.finditer(src) if m.start()<=pos]
    for m in reversed(starts):
        p=PROOF.search(src,m.end())
        if not p: continue
        e=END.search(src,p.end())
        if not e: continue
        if pos<=e.end() and pos>=m.start():
            if pos<p.start() : return None,m.group(2)
            return src[:p.start()]+'Admitted.'+src[e.end():],m.group(2)
        break
    return None,(starts[-1].group(2) if starts else '?')
def run(mu):
    t0=time.time()
    d=f'{BASE}/{mu["id"]}'
    shutil.rmtree(d,ignore_errors=True)
    subprocess.run(['cp','-a',ROOT,d],check=True)
    res={'id':mu['id'],'definition':mu['definition'],'file':mu['file'],'edit':f"{mu['old']}  ==>  {mu['new']}",'claim':mu['claim'],'why':mu.get('why','')}
    f='theories/'+mu['file']; p=d+'/'+f
    s=open(p).read()
    if s.count(mu['old'])!=1 and not mu.get('all'):
        res['error']=f'old text occurs {s.count(mu["old"])} times'; shutil.rmtree(d); return res
    open(p,'w').write(s.replace(mu['old'],mu['new']))
    files=order(); dp=DEPS
    # only what the properties of the claim need: the Props files that state them, and what those depend on
    props=[x for x in files if x.startswith('theories/Props/') and any(re.search(r'^Theorem '+c+'_',open(ROOT+'/'+x).read(),re.M) for c in mu['claim'])]
    need=set(props)
    todo=list(props)
    while todo:
        for y in dp.get(todo.pop(),[]):
            if y not in need: need.add(y); todo.append(y)
    files=[x for x in files if x in need]
    res['checked']=[os.path.basename(x) for x in props]
    dirty={f}; broken=[]; dead=[]; failed=set(); err=None
    for x in files:
        if x not in dirty and not any(y in dirty for y in dp.get(x,[])): continue
        dirty.add(x)
        if any(y in dead for y in dp.get(x,[])): dead.append(x); continue
        for attempt in range(60):
            try:
                r=subprocess.run(['timeout','600','coqc','-Q','theories','Verif',x],cwd=d,capture_output=True,text=True)
            except Exception as ex: err=str(ex); break
            out=r.stdout+r.stderr
            if r.returncode==0: break
            m=re.search(r'line (\d+), characters (\d+)-(\d+):\s*\n\s*(?:Error|.*Error)',out)
            ms=re.findall(r'File "[^"]*", line (\d+), characters (\d+)-(\d+):\n(?:Warning)?',out)
            if not ms or r.returncode==124:
                dead.append(x); err=(err or '')+f'{x}: rc {r.returncode} {out[-300:]}'; break
            ln,c0,_=map(int,ms[-1])
            src=open(d+'/'+x,'rb').read()
            off=sum(len(l) for l in src.split(b'\n')[:ln-1])+(ln-1)+c0
            text=src.decode()
            pos=len(src[:off].decode(errors='ignore'))
            new,name=admit(text,pos)
            if new is None:
                dead.append(x); err=(err or '')+f'{x}:{ln} in {name}: {out[out.find("Error"):][:300]}'; break
            broken.append(os.path.basename(x)[:-2]+'.'+name)
            open(d+'/'+x,'w').write(new)
        else:
            dead.append(x)
        if x.startswith('theories/Props/') and x not in dead:
            # which theorems rest on admitted lemmas: ask again, for every theorem of the file
            names=[n for k,n in START.findall(open(d+'/'+x).read()) if re.match(r'C\d\d+_',n)]
            mod='Verif.'+x[len('theories/'):-2].replace('/','.')
            q='Require Import %s.\n'%mod+''.join(f'Goal True. idtac "@@{n}". exact I. Qed.\nPrint Assumptions {n}.\n' for n in names)
            open(d+'/q.v','w').write(q)
            o=subprocess.run(['coqc','-Q','theories','Verif','q.v'],cwd=d,capture_output=True,text=True).stdout
            for part in o.split('@@')[1:]:
                n=part.split('\n')[0].strip()
                if 'Axioms' in part: failed.add(n)
    res['broken_lemmas']=broken; res['theorems_failed']=sorted(failed); 
    if dead: res['files_not_built']=[os.path.basename(x) for x in dead]
    if err: res['note']=err
    for x in dead:
        if x.startswith('theories/Props/'):
            for k,n in START.findall(open(d+'/'+x).read()):
                if re.match(r'C\d\d+_',n): res.setdefault('theorems_not_built',[]).append(n)
    ok=all(any(n.startswith(c+'_') for n in list(failed)+res.get('theorems_not_built',[])) for c in mu['claim'])
    res['caught']=ok; res['seconds']=round(time.time()-t0)
    shutil.rmtree(d)
    return res
if __name__=='__main__':
    a=sys.argv[1:]; j=4; log=None
    if '-j' in a: i=a.index('-j'); j=int(a[i+1]); del a[i:i+2]
    if '--log' in a: i=a.index('--log'); log=a[i+1]; del a[i:i+2]
    g={}; exec(open(a[0]).read(),g); M=g['M']
    if a[1:]: M=[m for m in M if m['id'] in a[1:]]
    os.makedirs(BASE,exist_ok=True)
    snap=f'/tmp/scratch_snap_{os.getpid()}'; subprocess.run(['cp','-a',ROOT,snap],check=True); ROOT=snap
    DEPS=deps(order())
    with cf.ThreadPoolExecutor(j) as ex:
        for r in ex.map(run,M):
            print(r['id'],'ERROR '+r['error'] if 'error' in r else ('caught' if r['caught'] else '*** SURVIVED'),r.get('seconds'),r['claim'],r.get('theorems_failed'),r.get('files_not_built',''),r.get('note','')[:300],flush=True)
            if log: open(log,'a').write(json.dumps(r)+'\n')
    shutil.rmtree(ROOT)
