#!/usr/bin/env python3
"""Generates rocq/theories/Model/BaseSchema.v from src/events/base_schema.rs and field_dictionary.rs."""
import re
R='/repo/src/events/'
consts={}
for i,l in enumerate(open(R+'field_dictionary.rs'),1):
    m=re.match(r'pub static (\w+): &str = "([^"]*)";',l)
    if m: consts[m.group(1)]=(m.group(2),i)
src=open(R+'base_schema.rs').read()
def q(s): return '"'+s.replace('"','""')+'"'
out=['(** Generated by tools/gen_base_schema.py from src/events/field_dictionary.rs and src/events/base_schema.rs. *)',
'From Coq Require Import String List.','From Verif Require Import Base.Ord Base.BTree Model.Schema.','Import ListNotations.','Local Open Scope string_scope.','']
for k,(v,i) in consts.items(): out.append(f'(** field_dictionary.rs:{i} *)\nDefinition {k} : string := {q(v)}.')
out.append('')
# option maps
body=src
maps={}
for m in re.finditer(r'let mut (\w+) = BTreeMap::new\(\);',body):
    if m.group(1)!='fields': maps[m.group(1)]=[]
line=lambda pos: src.count('\n',0,pos)+1
fields=[]
S=r'"((?:[^"\\]|\\.)*)"'
for m in re.finditer(r'(\w+)\.insert\(\s*(?:'+S+r'|(\w+)),\s*(?:'+S+r'|FieldType::(\w+)\((?:(\w+),\s*)?'+S+r'\)),?\s*\);',body):
    mp,ks,kc,vs,ty,opts,doc=m.groups()
    key=q(ks) if ks is not None else kc
    if mp=='fields': fields.append((key,ty,opts,doc,line(m.start())))
    else: maps[mp].append((key,vs,line(m.start())))
assert len(fields)+sum(map(len,maps.values()))==src.count('.insert('),(len(fields),sum(map(len,maps.values())),src.count('.insert('))
for n,l in maps.items():
    out.append(f'(** base_schema.rs:{l[0][2]}-{l[-1][2]} *)')
    out.append(f'Definition opt_{n} : bt string string := bt_of_list [')
    out.append(';\n'.join(f'  ({k}, {q(v)})' for k,v,_ in l)); out.append('].')
out.append(f'(** base_schema.rs:5-{line(src.rfind("fields,"))} [get_default_schema] *)')
out.append('Definition get_default_schema : schema := mkSchema (bt_of_list [')
out.append(';\n'.join(f'  ({k}, FT{t} {("opt_"+o+" ") if o else ""}{q(d)})' for k,t,o,d,_ in fields))
out.append(']) false None.')
open('/verif/rocq/theories/Model/BaseSchema.v','w').write('\n'.join(out)+'\n')
