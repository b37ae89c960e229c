#!/usr/bin/env python3
"""Generates rocq/theories/Model/EventEnums.v: the large enums of src/events and parse_protocol_id."""
import re
R='/repo/src/events/'
def enum(file,name):
    src=open(R+file).read()
    m=re.search(r'pub enum '+name+r' \{(.*?)\n\}',src,re.S)
    a=src.count('\n',0,m.start())+1; b=src.count('\n',0,m.end())+1
    body=re.sub(r'//[^\n]*','',m.group(1))
    vs=[]
    for v in body.split(','):
        v=v.strip()
        if not v: continue
        mm=re.match(r'(\w+)(?:\((\w+)\))?$',v); assert mm,v
        vs.append((mm.group(1),mm.group(2)))
    return vs,a,b
out=['(** Generated by tools/gen_enums.py from src/events/protocol.rs, webproxy.rs, intrusion.rs. *)',
'From Coq Require Import String NArith List.','Import ListNotations.','Local Open Scope string_scope.','']
def emit(file,name,coq,pre,dl):
    vs,a,b=enum(file,name)
    out.append(f'(** {file}:{a}-{b} [{name}] *)')
    out.append(f'Inductive {coq} :=')
    out.append('\n'.join(f'| {pre}{v}'+(' (s : string)' if p else '') for v,p in vs)+'.')
    out.append(f'(** Every variant without a payload *)\nDefinition {coq}_all : list {coq} := [')
    out.append(';\n'.join(f'  {pre}{v}' for v,p in vs if not p)); out.append('].')
    out.append(f'(** {file}:{dl} [Display] writes the [Debug] form: the name of the variant; [dbg] is the [Debug] form of a text. *)')
    out.append(f'Definition {coq}_str (dbg : string -> string) (x : {coq}) : string :=\n  match x with')
    out.append('\n'.join(f'  | {pre}{v}'+(f' s => "{v}(" ++ dbg s ++ ")"' if p else f' => "{v}"') for v,p in vs)); out.append('  end.\n')
def disp(file,name):
    src=open(R+file).read(); m=re.search(r'impl std::fmt::Display for '+name+r' \{.*?\n\}',src,re.S)
    return f"{src.count(chr(10),0,m.start())+1}-{src.count(chr(10),0,m.end())+1}"
for f,n,c,p in [('protocol.rs','NetworkProtocol','net_protocol','NP_'),('webproxy.rs','WebProxyRuleCategory','web_category','WC_'),('intrusion.rs','IntrusionCategory','intrusion_category','IC_')]:
    emit(f,n,c,p,disp(f,n))
src=open(R+'protocol.rs').read()
m=re.search(r'pub fn parse_protocol_id.*?\n\}',src,re.S)
a=src.count('\n',0,m.start())+1; b=src.count('\n',0,m.end())+1
arms=re.findall(r'^\s*(\d+|_) => NetworkProtocol::(\w+),',m.group(0),re.M)
out.append(f'(** protocol.rs:{a}-{b} *)\nLocal Open Scope N_scope.\nDefinition parse_protocol_id (id : N) : net_protocol :=\n  match id with')
for k,v in arms: out.append(f'  | {k} => NP_{v}')
out.append('  end.')
open('/verif/rocq/theories/Model/EventEnums.v','w').write('\n'.join(out)+'\n')
