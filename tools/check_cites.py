#!/usr/bin/env python3
"""Prints, for every file:line citation in a model file, the first and last cited line (for review)."""
import re,sys,glob,os
idx={}
for p in glob.glob('/repo/src/**/*.rs',recursive=True): idx.setdefault(os.path.basename(p),[]).append(p)
for f in sys.argv[1:]:
    last=None
    for i,l in enumerate(open(f),1):
        for m in re.finditer(r'(?:([\w/]+\.rs):|(?<=, ))(\d+)-(\d+)',l):
            fn=m.group(1) or last; last=fn
            ps=[p for b in idx.values() for p in b if p.endswith('/'+fn)]
            if len(ps)!=1: print(f'{f}:{i} ambiguous {fn} {ps}'); 
            if not ps: continue
            L=open(ps[0]).read().split('\n'); a,b=int(m.group(2)),int(m.group(3))
            print(f'{os.path.basename(f)}:{i} {fn}:{a}-{b} | {L[a-1].strip()[:60]} ... {L[b-1].strip()[:30] if b<=len(L) else "OUT OF RANGE"}')
