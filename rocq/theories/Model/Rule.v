(** Model of src/components/rule/mod.rs *)
From Coq Require Import String Ascii NArith ZArith List Bool.
From Verif Require Import Base.Ord Base.BTree Base.Str Base.Outcome Model.IpUtils Model.Ip Model.Field Model.Log
  Model.DatasetTypes Model.Holder Model.Mitre.
Import ListNotations.
Local Open Scope string_scope.

(** alert.rs:6-12 *)
Inductive severity := INFORMATIONAL | LOW | MEDIUM | HIGH | CRITICAL.
(** alert.rs:34-39 *)
Record aggregation := mkAgg { ag_limit : Z; ag_key : string }.

(** rule/mod.rs:174-178 *)
Inductive state_value := SV_Text (s : string) | SV_Field (s : string).
(** rule/mod.rs:169-172 *)
Record rule_state := mkState { states : state_value }.

(** rule/mod.rs:73-102. A [Box] is its content; a compiled [Regex] is its source text. *)
Inductive rule_op :=
| OAll (l : list rule_op)
| OAny (l : list rule_op)
| ONot (o : rule_op)
| OEquals (f : field)
| OStartsWith (s : string)
| OEndsWith (s : string)
| OContains (s : string)
| OGT (f : field)
| OLT (f : field)
| OGTE (f : field)
| OLTE (f : field)
| OMatches (re : string)
| OSameNet (ip : siem_ip) (bits : N)
| OIsLocalIp (b : bool)
| OIsExternalIp (b : bool)
| OExists (b : bool)
| OIsNull (b : bool)
| OB64 (o : rule_op)
| OInDataset (t : dataset_type)
| OExistsRuleState (l : list rule_state)
| OInCountry (s : string).

(** derived [PartialEq] of [RuleStateValue], [RuleState] (rule/mod.rs:169-178) *)
Definition state_eqb (a b : rule_state) : bool :=
  match states a, states b with
  | SV_Text x, SV_Text y => String.eqb x y
  | SV_Field x, SV_Field y => String.eqb x y
  | _, _ => false
  end.

(** [v1 == v2] on vectors: same length and equal elements *)
Section list_eqb.
  Context {A : Type} (eqb : A -> A -> bool).
  Fixpoint list_eqb (l1 l2 : list A) : bool :=
    match l1, l2 with
    | [], [] => true
    | x :: r, y :: t => eqb x y && list_eqb r t
    | _, _ => false
    end.
End list_eqb.

(** rule/mod.rs:104-131 [PartialEq for RuleOperator] *)
Fixpoint op_eqb (P : printers) (self other : rule_op) {struct self} : bool :=
  match self, other with
  | OAll v1, OAll v2 => list_eqb (op_eqb P) v1 v2
  | OAny v1, OAny v2 => list_eqb (op_eqb P) v1 v2
  | ONot v1, ONot v2 => op_eqb P v1 v2
  | OEquals v1, OEquals v2 => field_eqb P v1 v2
  | OStartsWith v1, OStartsWith v2 => String.eqb v1 v2
  | OEndsWith v1, OEndsWith v2 => String.eqb v1 v2
  | OContains v1, OContains v2 => String.eqb v1 v2
  | OGT v1, OGT v2 => field_eqb P v1 v2
  | OLT v1, OLT v2 => field_eqb P v1 v2
  | OGTE v1, OGTE v2 => field_eqb P v1 v2
  | OLTE v1, OLTE v2 => field_eqb P v1 v2
  | OMatches v1, OMatches v2 => String.eqb v1 v2
  | OSameNet v1 v11, OSameNet v2 v22 => ip_eqb v1 v2 && N.eqb v11 v22
  | OIsLocalIp v1, OIsLocalIp v2 => Bool.eqb v1 v2
  | OIsExternalIp v1, OIsExternalIp v2 => Bool.eqb v1 v2
  | OExists v1, OExists v2 => Bool.eqb v1 v2
  | OB64 v1, OB64 v2 => op_eqb P v1 v2
  | OInDataset v1, OInDataset v2 => keqb v1 v2
  | OExistsRuleState v1, OExistsRuleState v2 => list_eqb state_eqb v1 v2
  | OInCountry v1, OInCountry v2 => String.eqb v1 v2
  | OIsNull v1, OIsNull v2 => Bool.eqb v1 v2
  | _, _ => false
  end.

(** rule/mod.rs:56-61 *)
Record rule_cond := mkCond { rc_field : string; rc_op : rule_op }.
(** rule/mod.rs:49-54 *)
Record subrule := mkSub { sr_conditions : list rule_cond; sr_state : option rule_state }.
(** rule/mod.rs:63-71 *)
Inductive alert_content := AText (s : string) | AField (s : string) | AMatchedRules (s : string).
(** rule/mod.rs:34-41 *)
Record alert_gen := mkAlert {
  al_content : list alert_content; al_severity : severity; al_tags : list string; al_aggregation : option aggregation }.
(** rule/mod.rs:43-47 *)
Record mitre_info := mkMitre { mi_tactics : list tactic; mi_techniques : list technique }.
(** rule/mod.rs:15-32 *)
Record siem_rule := mkRule {
  ru_id : string; ru_name : string; ru_description : string; ru_mitre : mitre_info;
  ru_needed_datasets : list dataset_type; ru_subrules : bt string subrule;
  ru_conditions : list (list string); ru_alert : alert_gen }.

(** rule/mod.rs:207-242 [RuleCondition::matches]; [todo!()] is a panic. The log is only read. *)
Definition cond_matches (c : rule_cond) (l : log) (datasets : holder) : outcome bool :=
  match log_field (rc_field c) l with
  | None =>
      match rc_op c with
      | OExists cond => Val (negb cond)
      | OIsNull cond => Val cond
      | _ => Val false
      end
  | Some _field =>
      match rc_op c with
      | OAll _ => Panic
      | OAny _ => Panic
      | ONot _ => Panic
      | OEquals _ => Panic
      | OStartsWith _ => Panic
      | OEndsWith _ => Panic
      | OContains _ => Panic
      | OGT _ => Panic
      | OLT _ => Panic
      | OGTE _ => Panic
      | OLTE _ => Panic
      | OMatches _ => Panic
      | OSameNet _ _ => Panic
      | OIsLocalIp _ => Panic
      | OIsExternalIp _ => Panic
      | OExists cond => Val cond
      | OIsNull cond => Val (negb cond)
      | OB64 _ => Panic
      | OInDataset _ => Panic
      | OExistsRuleState _ => Panic
      | OInCountry _ => Panic
      end
  end.

(** rule/mod.rs:197-201: the inner loop; [Val false] is the early return *)
Fixpoint conds_match (cs : list rule_cond) (l : log) (datasets : holder) : outcome bool :=
  match cs with
  | [] => Val true
  | c :: r => let! b := cond_matches c l datasets in if negb b then Val false else conds_match r l datasets
  end.

(** rule/mod.rs:196-203: the outer loop, over the values of the map in key order *)
Fixpoint subrules_match (rs : list subrule) (l : log) (datasets : holder) : outcome bool :=
  match rs with
  | [] => Val true
  | r :: t => let! b := conds_match (sr_conditions r) l datasets in if negb b then Val false else subrules_match t l datasets
  end.

(** rule/mod.rs:195-204 [SiemRule::matches] *)
Definition rule_matches (r : siem_rule) (l : log) (datasets : holder) : outcome bool :=
  subrules_match (map snd (ru_subrules r)) l datasets.

(** rule/mod.rs:180-183 *)
Record alert_dictionary := mkDict { language_map : bt string (bt string string) }.
(** rule/mod.rs:185-187 *)
Definition get_mappings_for (d : alert_dictionary) (language : string) : option (bt string string) :=
  bt_get language (language_map d).
(** rule/mod.rs:189-191 *)
Definition get_mappings_for_id (d : alert_dictionary) (language id : string) : option string :=
  match bt_get language (language_map d) with Some v => bt_get id v | None => None end.
