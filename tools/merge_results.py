#!/usr/bin/env python3
"""merge_results.py OUT A B ...: later results of the same mutant id replace earlier ones."""
import sys,json
d={}
for f in sys.argv[2:]:
    for l in open(f): r=json.loads(l); d[r['id']]=l
open(sys.argv[1],'w').writelines(d.values())
