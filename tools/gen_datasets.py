#!/usr/bin/env python3
"""Generates rocq/theories/Model/Language.v (i18n.rs Language, From<String>) and Model/DatasetTypes.v (dataset/mod.rs enums)."""
import re
R='/repo/src/components/dataset/'
def ln(src,i): return src.count('\n',0,i)+1
src=open(R+'i18n.rs').read()
m=re.search(r'pub enum Language \{(.*?)\n\}',src,re.S)
vs=[v.strip() for v in re.sub(r'#\[default\]','',m.group(1)).split(',') if v.strip()]
assert vs[-1]=="Other(&'static str)"
plain=vs[:-1]
f=re.search(r'    fn from\(mut value: String\) -> Self \{.*?\n    \}',src,re.S)
arms=re.findall(r'"(\w+)" => Language::(\w+),',f.group(0))
o=['(** Generated by tools/gen_datasets.py from src/components/dataset/i18n.rs. *)',
'From Coq Require Import String NArith List.','From Verif Require Import Base.Ord Base.Str.','Import ListNotations.','Local Open Scope string_scope.','Local Open Scope N_scope.','',
f'(** i18n.rs:{ln(src,m.start())}-{ln(src,m.end())} *)','Inductive language :=']
o+=[f'| L_{v}' for v in plain]+['| L_Other (s : string).','',
'(** Every variant without a payload, in declaration order *)','Definition languages : list language := [',';\n'.join(f'  L_{v}' for v in plain),'].','',
'(** The derived [Debug] form of a variant without a payload: its name *)','Definition lang_name (l : language) : string :=\n  match l with']
o+=[f'  | L_{v} => "{v}"' for v in plain]+['  | L_Other s => s','  end.','',
'(** The derived [Ord] (i18n.rs:14): declaration order, then the payload *)','Definition lang_rank (l : language) : N * string :=\n  match l with']
o+=[f'  | L_{v} => ({i}, "")' for i,v in enumerate(plain)]+[f'  | L_Other s => ({len(plain)}, s)','  end.','',
'Definition lang_unrank (r : N * string) : language :=\n  match fst r with']
o+=[f'  | {i} => L_{v}' for i,v in enumerate(plain)]+['  | _ => L_Other (snd r)','  end.','Lemma lang_unrank_rank l : lang_unrank (lang_rank l) = l.','Proof. destruct l; reflexivity. Qed.','',
'''#[global] Instance Ord_language : Ord language.
Proof.
  refine {| cmp := fun a b => cmp (lang_rank a) (lang_rank b) |}.
  - intros x y. rewrite cmp_eq. split; [|intros ->; reflexivity].
    intros H. rewrite <- (lang_unrank_rank x), <- (lang_unrank_rank y), H. reflexivity.
  - intros x y; apply cmp_anti.
  - intros x y z; apply cmp_lt_trans.
Defined.
''',
f'(** i18n.rs:{ln(src,f.start())}-{ln(src,f.end())}; [make_ascii_uppercase] then a table *)',
'Definition lang_from (value : string) : language :=\n  let value := to_upper value in']
for i,(k,v) in enumerate(arms): o.append(f'  {"" if i==0 else "else "}if String.eqb value "{k}" then L_{v}')
other=re.search(r'_ => Language::Other\("(.*?)"\)',f.group(0)).group(1)
o.append(f'  else L_Other "{other}".')
open('/verif/rocq/theories/Model/Language.v','w').write('\n'.join(o)+'\n')

src=open(R+'mod.rs').read()
def enum(name):
    m=re.search(r'pub enum '+name+r' \{(.*?)\n\}',src,re.S)
    body=re.sub(r'//[^\n]*','',m.group(1))
    vs=[]
    for v in re.split(r',\s*\n',body):
        v=v.strip().rstrip(',')
        if v: vs.append(v)
    return vs,ln(src,m.start()),ln(src,m.end())
K={'CorrelationRulesDataset':'KRules','GeoIpSynDataset':'KGeoIp','IpMapSynDataset':'KIpMap','IpMapListSynDataset':'KIpMapList','TextMapSynDataset':'KTextMap','IpSetSynDataset':'KIpSet','TextSetSynDataset':'KTextSet','TextMapListSynDataset':'KTextMapList','IpNetSynDataset':'KIpNet','CalendarSynDataset':'KCalendar','I18nSynDataset':'KI18n'}
tv,ta,tb=enum('SiemDatasetType'); dv,da,db=enum('SiemDataset')
o=['(** Generated by tools/gen_datasets.py from src/components/dataset/mod.rs. *)','From Coq Require Import String NArith List.','From Verif Require Import Base.Ord Model.Datasets.','Import ListNotations.','Local Open Scope string_scope.','Local Open Scope N_scope.','',
'(** The types of synchronised datasets (dataset/mod.rs:15-31); [handle k] is a value of the type [k]: an [Arc] and a channel. *)',
'Inductive kind := '+' | '.join(sorted(set(K.values())))+'.','Inductive handle (k : kind) := Handle (s : syn).','Arguments Handle {k} _.','',
f'(** dataset/mod.rs:{ta}-{tb} *)','Inductive dataset_type :=']
T=[]
for v in tv:
    mm=re.match(r'(\w+)(\(LogString\))?$',v); assert mm,v
    T.append((mm.group(1),bool(mm.group(2))))
o.append('\n'.join(f'| T_{n}'+(' (name : string)' if p else '') for n,p in T)+'.'); o.append('')
o.append(f'(** dataset/mod.rs:{da}-{db} *)'); o.append('Inductive siem_dataset :=')
D=[]
for v in dv:
    mm=re.match(r'(\w+)(?:\((?:\(LogString, (\w+)\)|(\w+))\))?$',v); assert mm,v
    D.append((mm.group(1),mm.group(2),mm.group(3)))
def darg(n,c,p): return f'| D_{n}'+(f' (name : string) (v : handle {K[c]})' if c else f' (v : handle {K[p]})' if p else '')
o.append('\n'.join(darg(*d) for d in D)+'.'); o.append('')
o.append(f'(** The derived [Ord] (dataset/mod.rs:{ta-2}): declaration order, then the payload *)\nDefinition type_rank (t : dataset_type) : N * string :=\n  match t with')
o+=[f'  | T_{n}'+(f' s => ({i}, s)' if p else f' => ({i}, "")') for i,(n,p) in enumerate(T)]+['  end.','Definition type_unrank (r : N * string) : dataset_type :=\n  match fst r with']
o+=[f'  | {i} => T_{n}'+(' (snd r)' if p else '') for i,(n,p) in enumerate(T[:-1])]+[f'  | _ => T_{T[-1][0]}','  end.','Lemma type_unrank_rank t : type_unrank (type_rank t) = t.','Proof. destruct t; reflexivity. Qed.','',
'''#[global] Instance Ord_dataset_type : Ord dataset_type.
Proof.
  refine {| cmp := fun a b => cmp (type_rank a) (type_rank b) |}.
  - intros x y. rewrite cmp_eq. split; [|intros ->; reflexivity].
    intros H. rewrite <- (type_unrank_rank x), <- (type_unrank_rank y), H. reflexivity.
  - intros x y; apply cmp_anti.
  - intros x y z; apply cmp_lt_trans.
Defined.
''']
m=re.search(r'    pub fn dataset_type\(&self\).*?\n    \}',src,re.S)
body=m.group(0)
o.append(f'(** dataset/mod.rs:{ln(src,m.start())}-{ln(src,m.end())} *)\nDefinition type_of (d : siem_dataset) : dataset_type :=\n  match d with')
arms=re.findall(r'SiemDataset::(\w+)(\(\(name, _\)\)|\(_\))? => \{?\s*SiemDatasetType::(\w+)(\(name\.clone\(\)\))?',body)
assert len(arms)==len(D),(len(arms),len(D))
for n,a,t,c in arms:
    o.append(f'  | D_{n}'+(' name _' if 'name' in a else ' _' if a else '')+f' => T_{t}'+(' name' if c else ''))
o.append('  end.')
open('/verif/rocq/theories/Model/DatasetTypes.v','w').write('\n'.join(o)+'\n')
