#!/usr/bin/env python3
"""Write seeded/LOG.jsonl from the results of mutate.py (files given in order)."""
import json,sys
TIGHT={'ip24':['C05_siem_ip'],'ip27':['C61_from_octets'],'fld11':['C13_to_array'],
 'sch3':['C16_after_schema_partial','C16_schema_keeps_declared'],'ev16':['C22_names'],
 'met26':['C27_histogram_tolerant_partial'],'met28':['C83_conversions'],
 'ds20':['C35_calls_delivered_partial','C84_ip_sets'],'co27':['C40_default_keeps_all'],'km4':['C43_methods'],'st12':['C44_dummy'],
 'sg4':['C47_equals_modifier'],'j41':['C92_logs_and_alerts'],'j4':['C153_messages','C153_payloads','C153_rules']}
NOTE={'fld15':'the claim broken is C12, whose theorems fail',
 'met24':'the claim broken is C64 only','dt2':'the claim broken is C39 only','co22':'the claim broken is C41 (C41_only_reasons)',
 'co26':'the claim broken is C40 (C40_progress)','hol3':'the edit did not apply; run again later in this log',
 'sg37':'a partial fix of the code: no claim becomes false','sg40':'an equivalent program','ip21':'an equivalent program','log4':'an equivalent program','net16':'an equivalent program'}
ORDER='1 1b 2 3 4 4b 5 5b 6 7 8 8b 9 10 11 12 12b 12c 13 14 15 16 17 18 19 20 21'.split()
FIX='net10 net11 cal6 hol12 co29 st5 sg6 sg7 q12 q33 j7 j17 j52 j65 js6 js9 ge6 ty2'.split()
try: TIGHT.update(json.load(open('/verif/seeded/tightened.json')))
except FileNotFoundError: pass
try: NOTE.update(json.load(open('/verif/seeded/notes.json')))
except FileNotFoundError: pass
import os
sys.path.insert(0,os.path.dirname(os.path.abspath(__file__)))
from split import RENAME
ren=lambda l:[RENAME.get(x,x) for x in l]
SURV=set()
out=[];seen=set()
for f in (sys.argv[1:] or ['/verif/seeded/results/%s.jsonl'%x for x in ORDER]):
    for l in open(f):
        r=json.loads(l)
        first=(r['id'],r['definition']) not in seen; seen.add((r['id'],r['definition']))
        o={'id':r['id'],'file':'rocq/theories/'+r['file'],'definition':r['definition'],'edit':r['edit'],'why':r.get('why',''),'claim':r['claim'],
           'theorems_failed':ren(r.get('theorems_failed',[])),'theorems_tightened':[]}
        if not r.get('caught') or r['id']=='ip27':
            if first and r['id'] in TIGHT: o['theorems_tightened']=ren(TIGHT[r['id']]); o['note']='survived; run again after tightening (next entry with this id)'
        if r['id'] in NOTE: o['note']=NOTE[r['id']]
        if r['id'] in FIX: o['note']='this edit repairs a fault of the code: the theorems that state the fault fail'
        if not first: o['note']='run again after tightening' if r['id'] in TIGHT else 'run again with an edit that type-checks'
        if not o['theorems_failed'] and r.get('theorems_not_built') and r.get('caught'): o['theorems_not_built']=ren(r['theorems_not_built'])
        out.append(json.dumps(o,ensure_ascii=False))
open('/verif/seeded/LOG.jsonl','w').write('\n'.join(out)+'\n')
print(len(out))
