#!/usr/bin/env python3
"""Systematic small edits of the model: every comparison, boundary, literal, connective, update, list element ... of the
definitions in rocq/theories/Model.

usage: automutate.py gen OUT.json [FILE.v ...]   list the edits
       automutate.py run IN.json LOG.jsonl -j N [--max-per-def K] [--seed S]   try them: an edit that compiles and breaks no proof survives

An edit is tried in a scratch copy: the edited file is compiled (an edit that is not well typed is dropped), then every
file that depends on it, in order, until one fails.
"""
import sys, os, re, json, subprocess, shutil, random, time, concurrent.futures as cf, threading
ROOT=os.environ.get('ROOT','/verif/rocq')  # a compiled copy that nobody changes meanwhile
SKIP={'BaseSchema.v','EventEnums.v','Language.v','Mitre.v'}
def mask(src):
    """positions that are inside comments"""
    m=[False]*len(src); d=0; i=0; instr=False
    while i<len(src):
        if d==0 and src[i]=='"':
            j=i+1
            while True:
                if src[j]=='"':
                    if src[j+1:j+2]=='"': j+=2; continue
                    break
                j+=1
            i=j+1; continue
        if src.startswith('(*',i) and not src.startswith('(*)',i): d+=1; m[i]=m[i+1]=True; i+=2; continue
        if d and src.startswith('*)',i): d-=1; m[i]=m[i+1]=True; i+=2; continue
        if d: m[i]=True
        i+=1
    return m
def arg_end(s,i):
    """end of the argument that starts at i (skipping spaces): an identifier, literal or parenthesised term"""
    while i<len(s) and s[i] in ' \n': i+=1
    if i>=len(s): return None
    if s[i] in '([{':
        d=0
        while i<len(s):
            if s[i]=='"':
                i=s.index('"',i+1)
            elif s[i] in '([{': d+=1
            elif s[i] in ')]}':
                d-=1
                if d==0: return i+1
            i+=1
        return None
    if s[i]=='"':
        return s.index('"',i+1)+1
    m=re.match(r"[\w'.]+(%\w+)?",s[i:])
    return i+m.end() if m else None
PAIRS=[(r'<\?','<=?'),(r'<=\?','<?'),(r'&&','||'),(r'\|\|','&&'),(r'\btrue\b','false'),(r'\bfalse\b','true'),
       (r'\bNat\.ltb\b','Nat.leb'),(r'\bNat\.leb\b','Nat.ltb'),(r'\bN\.ltb\b','N.leb'),(r'\bN\.leb\b','N.ltb'),(r'\bZ\.ltb\b','Z.leb'),(r'\bZ\.leb\b','Z.ltb'),
       (r'\bnegb\b','(fun b : bool => b)'),(r'(?<= )\+(?= )','-'),(r'(?<= )-(?= )','+'),(r'\bfst\b','snd'),(r'\bsnd\b','fst'),
       (r'\bZ\.min\b','Z.max'),(r'\bZ\.max\b','Z.min'),(r'\bN\.min\b','N.max'),(r'\brev\b','(fun x => x)'),(r'\bexistsb\b','forallb'),(r'\bforallb\b','existsb'),
       (r'\bto_lower\b','(fun x : string => x)'),(r'\bstarts_with\b','str_contains'),(r'\bN\.land\b','N.lor'),(r'\bN\.lor\b','N.land'),(r'\bN\.shiftl\b','N.shiftr'),(r'\bN\.shiftr\b','N.shiftl')]
def edits(fn):
    src=open(f'{ROOT}/theories/Model/{fn}').read(); mk=mask(src); out=[]
    defs=[(m.start(),m.group(2),m.group(1)) for m in re.finditer(r"^ *(Definition|Fixpoint|Inductive|Record|with)\s+([\w']+)",src,re.M) if not mk[m.start()]]
    ends=[m.start() for m in re.finditer(r'\.(?=\s)',src) if not mk[m.start()]]
    def where(p):
        d=[x for x in defs if x[0]<=p]
        if not d: return None
        k,name,kind=d[-1]
        # the definition ends at a dot after which a new sentence starts
        return name,kind,k
    body={}
    for k,name,kind in defs:
        m=re.search(r':=',src[k:]); body[k]=k+m.end() if m else k
    def add(a,b,new,op):
        w=where(a)
        if not w: return
        name,kind,k=w
        if op!='s_' and a<body[k] and op not in('step',): return
        out.append(dict(file=fn,definition=name,kind=kind,start=a,end=b,old=src[a:b],new=new,op=op))
    instr=[]
    for m in re.finditer(r'"(?:[^"]|"")*"',src):
        if mk[m.start()]: continue
        instr.append((m.start(),m.end()))
        if src[m.end():m.end()+5]=='%char': continue
        t=m.group(0)
        add(m.start(),m.end(),t[:-1]+'x"' if t!='""' else '"x"','string')
    def inside(p): return any(a<p<b-1 for a,b in instr)
    for pat,new in PAIRS:
        for m in re.finditer(pat,src):
            if mk[m.start()] or inside(m.start()): continue
            add(m.start(),m.end(),new,'swap '+m.group(0))
    for m in re.finditer(r"(?<![\w.'%])(\d+)(?![\w.'])",src):
        if mk[m.start()] or inside(m.start()): continue
        add(m.start(),m.end(),str(int(m.group(1))+1),'number')
    # drop an update
    for f,n in (('bt_insert',2),('bset_add',1),('bt_remove',1),('upd',2)):
        for m in re.finditer(r'(?<=\()'+f+r'\b',src):
            if mk[m.start()]: continue
            e=m.end()
            for _ in range(n):
                e=arg_end(src,e)
                if e is None: break
            if e: add(m.start(),e,'(fun x => x)','drop '+f)
    # list literals: drop one element
    for m in re.finditer(r'; ([^;\[\]]+)(?=[;\]])',src):
        if mk[m.start()] or inside(m.start()) : continue
        add(m.start(),m.end(),'','drop element')
    # Some x -> None after =>
    for m in re.finditer(r'(?<=\s)Some\b',src):
        if mk[m.start()] or inside(m.start()): continue
        if not re.search(r'(=>|then|else)\s*$',src[:m.start()]): continue
        e=arg_end(src,m.end())
        if e: add(m.start(),e,'None','Some to None')
    # adjacent arms on one line or on successive lines: swap right-hand sides
    for m in re.finditer(r'\|\s*([^|=\n]+?)\s*=>\s*([^|\n]+?)(\s*)\|\s*([^|=\n]+?)\s*=>\s*([^|\n]+?)(?=\s*(\||end\b))',src):
        if mk[m.start()] or inside(m.start()) or m.group(2).strip()==m.group(5).strip(): continue
        new=f'| {m.group(1)} => {m.group(5)}{m.group(3) or " "}| {m.group(4)} => {m.group(2)}'
        add(m.start(),m.end(),new,'swap arms')
    # if c then a else b -> swap on one line with simple branches
    for m in re.finditer(r'\bthen\s+(\S[^\n]*?)\s+else\s+(\S[^\n]*?)(?=(\.\s|\s*\n|\)))',src):
        if mk[m.start()] or inside(m.start()): continue
        if 'then' in m.group(1)+m.group(2): continue
        add(m.start(),m.end(),f'then {m.group(2)} else {m.group(1)}','swap branches')
    # swapped arguments of a call with two simple arguments
    for m in re.finditer(r"\(([a-z]\w*) ([a-z]\w*'?) ([a-z]\w*'?)\)",src):
        if mk[m.start()] or inside(m.start()): continue
        if m.group(1) in('fun','let','match') or m.group(2)==m.group(3): continue
        add(m.start(),m.end(),f'({m.group(1)} {m.group(3)} {m.group(2)})','swap arguments')
    return [e for e in out if e['kind'] not in('Record','Inductive') or e['op'].startswith('swap <') or e['definition'] in('step','fstep')]
def deps():
    files=[l.strip() for l in open(ROOT+'/_CoqProject') if l.strip().endswith('.v')]
    d={}
    out=subprocess.run(['coqdep','-Q','theories','Verif']+files,cwd=ROOT,capture_output=True,text=True).stdout
    for line in out.splitlines():
        m=re.match(r'(\S+)\.vo\s.*?: (.*)',line)
        if m: d[m.group(1)+'.v']=[x[:-1] for x in m.group(2).split() if x.endswith('.vo') and x.startswith('theories')]
    # dependency order
    order=[]; seen=set()
    def visit(x):
        if x in seen: return
        seen.add(x)
        for y in d.get(x,[]): visit(y)
        order.append(x)
    for x in files: visit(x)
    # the slow proofs about the IPv6 parser come last
    slow={x for x in order if 'IpV6' in x}
    for x in order:
        if any(y in slow for y in d.get(x,[])): slow.add(x)
    order=[x for x in order if x not in slow]+[x for x in order if x in slow]
    return order,d
def run_one(e,order,d,slot):
    t0=time.time(); w=f'/tmp/auto/w{slot}'
    if not os.path.exists(w): subprocess.run(['cp','-a',ROOT,w],check=True)
    f='theories/Model/'+e['file']; src=open(f'{ROOT}/{f}').read()
    assert src[e['start']:e['end']]==e['old'],e
    open(f'{w}/{f}','w').write(src[:e['start']]+e['new']+src[e['end']:])
    dirty={f}; verdict='survived'; touched=[]
    for x in order:
        if any(y in dirty for y in d.get(x,[])): dirty.add(x)
    # first what leads to the proofs about this file
    stem=e['file'][:-2]; aim=set()
    def need(x):
        if x in dirty and x not in aim:
            aim.add(x)
            for y in d.get(x,[]): need(y)
    for x in order:
        if stem in os.path.basename(x) and ('/Proofs/' in x or '/Props/' in x) and 'IpV6' not in x: need(x)
    plan=[x for x in order if x in dirty and x in aim]+[x for x in order if x in dirty and x not in aim]
    if f not in plan[:1]: plan=[f]+[x for x in plan if x!=f]
    for x in plan:
        touched.append(x)
        r=subprocess.run(['bash','-c',f'ulimit -v 5000000; timeout 400 coqc -Q theories Verif {x}'],cwd=w,capture_output=True,text=True)
        if r.returncode!=0:
            if x==f: verdict='ill-typed'
            elif 'Error' not in r.stderr: verdict='killed? '+x+f' rc {r.returncode}'
            else:
                m=re.search(r'line (\d+)',r.stderr); ln=int(m.group(1)) if m else 0
                L=open(f'{w}/{x}').read().split('\n')[:ln]
                nm=next((re.match(r'\s*(?:Local )?(?:Lemma|Theorem|Example|Definition|Fixpoint|Corollary|Instance)\s+([\w\']+)',l) for l in reversed(L) if re.match(r'\s*(?:Local )?(?:Lemma|Theorem|Example|Definition|Fixpoint|Corollary|Instance)\s+([\w\']+)',l)),None)
                verdict='killed '+x+' '+(nm.group(1) if nm else '?')
                if '/Model/' in x or '/Spec/' in x: verdict='ill-typed'
            break
    for x in touched:
        for ext in('vo','vok','vos','glob'):
            a=f'{ROOT}/{x[:-1]}{ext}'; b=f'{w}/{x[:-1]}{ext}'
            if os.path.exists(a): shutil.copy2(a,b)
    shutil.copy2(f'{ROOT}/{f}',f'{w}/{f}')
    return dict(e,verdict=verdict,seconds=round(time.time()-t0))
if __name__=='__main__':
    if sys.argv[1]=='gen':
        fs=sys.argv[3:] or sorted(x for x in os.listdir(ROOT+'/theories/Model') if x.endswith('.v') and x not in SKIP)
        E=[]
        for x in fs: E+=edits(x)
        json.dump(E,open(sys.argv[2],'w'))
        from collections import Counter
        print(len(E),Counter(e['file'] for e in E),Counter(e['op'].split()[0] for e in E))
    else:
        E=json.load(open(sys.argv[2])); log=sys.argv[3]
        a=sys.argv[4:]; j=int(a[a.index('-j')+1]); k=int(a[a.index('--max-per-def')+1]) if '--max-per-def' in a else 10**9
        seed=int(a[a.index('--seed')+1]) if '--seed' in a else 0
        done=set()
        if os.path.exists(log):
            for l in open(log):
                r=json.loads(l); done.add((r['file'],r['definition'],r['old'],r['new'],r.get('start')))
        rnd=random.Random(seed); rnd.shuffle(E)
        cnt={}; todo=[]
        for e in E:
            key=(e['file'],e['definition'])
            cnt[key]=cnt.get(key,0)+1
            if cnt[key]<=k and (e['file'],e['definition'],e['old'],e['new'],e['start']) not in done: todo.append(e)
        print(len(todo),'to try',flush=True)
        order,d=deps(); lock=threading.Lock(); slots=list(range(j))
        def job(e):
            with lock: s=slots.pop()
            try: r=run_one(e,order,d,s)
            except Exception as ex: r=dict(e,verdict='error '+repr(ex))
            with lock:
                slots.append(s); open(log,'a').write(json.dumps(r)+'\n')
                if r['verdict'].startswith(('survived','killed?','error')): print(r['file'],r['definition'],r['op'],'|',r['old'],'=>',r['new'],'|',r['verdict'],r.get('seconds'),flush=True)
        with cf.ThreadPoolExecutor(j) as ex: list(ex.map(job,todo))
