#!/usr/bin/env python3
"""Generates rocq/theories/Model/Mitre.v from src/components/mitre.rs."""
import re
s=open('/repo/src/components/mitre.rs').read()
ln=lambda i: s.count('\n',0,i)+1
def block(rx):
    m=re.search(rx,s,re.S|re.M); return m,f'{ln(m.start())}-{ln(m.end())}'
consts=dict(re.findall(r'pub const (\w+): Mitre\w+\s*=\s*Mitre\w+::(\w+);',s))
out=['(** Generated by tools/gen_mitre.py from src/components/mitre.rs. *)',
'From Coq Require Import String List.','From Verif Require Import Base.Outcome.','Import ListNotations.','Local Open Scope string_scope.','']
def emit(name,coq,err):
    m,c=block(r'^pub enum '+name+r' \{(.*?)\n\}')
    b=re.sub(r'//[^\n]*','',m.group(1)); vs=[x.strip() for x in b.split(',') if x.strip()]
    out.append(f'(** mitre.rs:{c} [{name}] *)\nInductive {coq} :=')
    out.append('\n'.join('| '+v for v in vs)+'.')
    out.append(f'(** Every variant *)\nDefinition {coq}_all : list {coq} := [')
    out.append(';\n'.join('  '+v for v in vs)+'].')
    out.append(f'(** The name of the variant: what the derived [Debug] and [Serialize] write. *)\nDefinition {coq}_name (x : {coq}) : string :=\n  match x with')
    out.append('\n'.join(f'  | {v} => "{v}"' for v in vs)+'\n  end.')
    m,c=block(r'^impl TryFrom<&str> for '+name+r' \{.*?\n\}')
    arms=[]
    for k,v in re.findall(r'^\s*("[^"]*"|_) => (.*),$',m.group(0),re.M):
        v=v.strip()
        if k=='_':
            assert err in v; continue
        mm=re.fullmatch(r'(?:Ok\()?(?:'+name+r'::(\w+)|([A-Z_]+))\)?',v); assert mm,v
        arms.append((k,mm.group(1) or consts[mm.group(2)]))
    out.append(f'(** mitre.rs:{c}: the arms of the match, in order *)\nDefinition {coq}_arms : list (string * {coq}) := [')
    out.append(';\n'.join(f'  ({k}, {v})' for k,v in arms)+'].')
    out.append(f'(** mitre.rs:{c} [TryFrom<&str>]: the first matching arm *)\nDefinition {coq}_try_from (s : string) : result {coq} string :=\n  match find (fun a => String.eqb (fst a) s) {coq}_arms with\n  | Some a => Ok (snd a)\n  | None => Err "{err}"\n  end.\n')
emit('MitreTactics','tactic','Invalid Mitre Tactic')
emit('MitreTechniques','technique','Invalid Mitre Technique')
open('/verif/rocq/theories/Model/Mitre.v','w').write('\n'.join(out)+'\n')
