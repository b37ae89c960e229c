(** The JSON of rules: src/components/rule/mod.rs *)
From Coq Require Import String NArith ZArith List Bool.
From Verif Require Import Base.Ord Base.BTree Base.Outcome Model.Ip Model.Field Model.Log Model.DatasetTypes Model.Mitre
  Model.Rule Model.Json Model.JsonField Model.JsonCommand.
Import ListNotations.
Local Open Scope string_scope.

(** rule/mod.rs:169-178 *)
Definition json_of_state (s : rule_state) : json :=
  JObj [("states", match states s with SV_Text t => tagged "Text" (JStr t) | SV_Field f => tagged "Field" (JStr f) end)].
Definition state_value_of_json : json -> option state_value :=
  read_enum [("Text", newtype_v read_str SV_Text); ("Field", newtype_v read_str SV_Field)].
Definition state_of_json (j : json) : option rule_state :=
  match struct_fields ["states"] j with
  | Some [s] => let? s := req state_value_of_json s in Some (mkState s)
  | _ => None
  end.

(** rule/mod.rs:73-76 [rename_all = "snake_case"]: an underscore before every capital but the first *)
Definition op_names : list string :=
  ["all"; "any"; "not"; "equals"; "starts_with"; "ends_with"; "contains"; "g_t"; "l_t"; "g_t_e"; "l_t_e"; "matches"; "same_net";
   "is_local_ip"; "is_external_ip"; "exists"; "is_null"; "b64"; "in_dataset"; "exists_rule_state"; "in_country"].

(** rule/mod.rs:73-102 [derive(Serialize)], 133-138: tag and payload *)
Fixpoint op_entry (o : rule_op) : string * json :=
  match o with
  | OAll l => ("all", JArr (map (fun o => JObj [op_entry o]) l))
  | OAny l => ("any", JArr (map (fun o => JObj [op_entry o]) l))
  | ONot o => ("not", JObj [op_entry o])
  | OEquals f => ("equals", json_of_field f)
  | OStartsWith s => ("starts_with", JStr s)
  | OEndsWith s => ("ends_with", JStr s)
  | OContains s => ("contains", JStr s)
  | OGT f => ("g_t", json_of_field f)
  | OLT f => ("l_t", json_of_field f)
  | OGTE f => ("g_t_e", json_of_field f)
  | OLTE f => ("l_t_e", json_of_field f)
  | OMatches re => ("matches", JStr re)
  | OSameNet ip bits => ("same_net", JArr [json_of_ip ip; json_of_n bits])
  | OIsLocalIp b => ("is_local_ip", JBool b)
  | OIsExternalIp b => ("is_external_ip", JBool b)
  | OExists b => ("exists", JBool b)
  | OIsNull b => ("is_null", JBool b)
  | OB64 o => ("b64", JObj [op_entry o])
  | OInDataset t => ("in_dataset", json_of_type t)
  | OExistsRuleState l => ("exists_rule_state", json_of_list json_of_state l)
  | OInCountry s => ("in_country", JStr s)
  end.
Definition json_of_op (o : rule_op) : json := JObj [op_entry o].

Section Read.
  Context (io : float_io) (compiles : string -> bool).   (* whether a text is a regular expression of the regex crate *)

  (** rule/mod.rs:140-167 *)
  Definition regex_of_json (j : json) : option string :=
    match j with JStr s => if compiles s then Some s else None | _ => None end.
  (** rule/mod.rs:73-102 [derive(Deserialize)], inside a condition and so from buffered content *)
  Fixpoint op_of_json (j : json) : option rule_op :=
    match j with
    | JObj [(k, v)] =>
        if String.eqb k "all" then match v with JArr l => let? l := mapM op_of_json l in Some (OAll l) | _ => None end
        else if String.eqb k "any" then match v with JArr l => let? l := mapM op_of_json l in Some (OAny l) | _ => None end
        else if String.eqb k "not" then let? o := op_of_json v in Some (ONot o)
        else if String.eqb k "b64" then let? o := op_of_json v in Some (OB64 o)
        else let? r := pick k [
          ("equals", newtype_v (field_of_json io) OEquals);
          ("starts_with", newtype_v read_str OStartsWith);
          ("ends_with", newtype_v read_str OEndsWith);
          ("contains", newtype_v read_str OContains);
          ("g_t", newtype_v (field_of_json io) OGT);
          ("l_t", newtype_v (field_of_json io) OLT);
          ("g_t_e", newtype_v (field_of_json io) OGTE);
          ("l_t_e", newtype_v (field_of_json io) OLTE);
          ("matches", newtype_v regex_of_json OMatches);
          ("same_net", pair_v ip_of_content (read_uint 8) OSameNet);
          ("is_local_ip", newtype_v read_bool OIsLocalIp);
          ("is_external_ip", newtype_v read_bool OIsExternalIp);
          ("exists", newtype_v read_bool OExists);
          ("is_null", newtype_v read_bool OIsNull);
          ("in_dataset", newtype_v type_of_json OInDataset);
          ("exists_rule_state", newtype_v (read_list state_of_json) OExistsRuleState);
          ("in_country", newtype_v read_str OInCountry)] in
        r (Some v)
    | _ => None
    end.

  (** rule/mod.rs:56-61 [derive(Deserialize)] with a flattened enum: of the other entries the first one that names an
      operator is taken, the rest ignored *)
  Definition cond_of_json (j : json) : option rule_cond :=
    match j with
    | JObj l =>
        let? o := once (entries "field" l) in
        let? e := find (fun e => negb (String.eqb (fst e) "field") && existsb (String.eqb (fst e)) op_names) l in
        let? f := req read_str o in
        let? op := op_of_json (JObj [e]) in
        Some (mkCond f op)
    | _ => None
    end.
  (** rule/mod.rs:49-54 *)
  Definition subrule_of_json (j : json) : option subrule :=
    match struct_fields ["conditions"; "rule_state"] j with
    | Some [c; s] => let? c := req (read_list cond_of_json) c in let? s := opt state_of_json s in Some (mkSub c s)
    | _ => None
    end.
  (** rule/mod.rs:63-71 *)
  Definition content_of_json : json -> option alert_content :=
    read_enum [("Text", newtype_v read_str AText); ("Field", newtype_v read_str AField); ("MatchedRules", newtype_v read_str AMatchedRules)].
  (** rule/mod.rs:34-41 *)
  Definition alert_gen_of_json (j : json) : option alert_gen :=
    match struct_fields ["content"; "severity"; "tags"; "aggregation"] j with
    | Some [c; s; t; a] =>
        let? c := req (read_list content_of_json) c in let? s := req severity_of_json s in
        let? t := req (read_list read_str) t in let? a := opt aggregation_of_json a in Some (mkAlert c s t a)
    | _ => None
    end.
  (** rule/mod.rs:43-47 *)
  Definition mitre_of_json (j : json) : option mitre_info :=
    match struct_fields ["tactics"; "techniques"] j with
    | Some [a; b] => let? a := req (read_list tactic_of_json) a in let? b := req (read_list technique_of_json) b in Some (mkMitre a b)
    | _ => None
    end.
  (** rule/mod.rs:15-32 *)
  Definition rule_of_json (j : json) : option siem_rule :=
    match struct_fields ["id"; "name"; "description"; "mitre"; "needed_datasets"; "subrules"; "conditions"; "alert"] j with
    | Some [i; n; d; m; ds; s; c; a] =>
        let? i := req read_str i in let? n := req read_str n in let? d := req read_str d in let? m := req mitre_of_json m in
        let? ds := req (read_list type_of_json) ds in let? s := req (read_map subrule_of_json) s in
        let? c := req (read_list (read_list read_str)) c in let? a := req alert_gen_of_json a in
        Some (mkRule i n d m ds s c a)
    | _ => None
    end.
End Read.

(** rule/mod.rs:56-61 *)
Definition json_of_cond (c : rule_cond) : json := JObj [("field", JStr (rc_field c)); op_entry (rc_op c)].
(** rule/mod.rs:49-54: no entry for an absent state *)
Definition json_of_subrule (s : subrule) : json :=
  JObj (("conditions", json_of_list json_of_cond (sr_conditions s))
        :: match sr_state s with Some t => [("rule_state", json_of_state t)] | None => [] end).
(** rule/mod.rs:63-71 *)
Definition json_of_content (c : alert_content) : json :=
  match c with AText s => tagged "Text" (JStr s) | AField s => tagged "Field" (JStr s) | AMatchedRules s => tagged "MatchedRules" (JStr s) end.
(** rule/mod.rs:34-41: no entry for an absent aggregation *)
Definition json_of_alert_gen (a : alert_gen) : json :=
  JObj (("content", json_of_list json_of_content (al_content a)) :: ("severity", json_of_severity (al_severity a))
        :: ("tags", json_of_strings (al_tags a))
        :: match al_aggregation a with Some g => [("aggregation", json_of_aggregation g)] | None => [] end).
(** rule/mod.rs:43-47 *)
Definition json_of_mitre (m : mitre_info) : json :=
  JObj [("tactics", json_of_list json_of_tactic (mi_tactics m)); ("techniques", json_of_list json_of_technique (mi_techniques m))].
(** rule/mod.rs:15-32 *)
Definition json_of_rule (r : siem_rule) : json :=
  JObj [("id", JStr (ru_id r)); ("name", JStr (ru_name r)); ("description", JStr (ru_description r)); ("mitre", json_of_mitre (ru_mitre r));
        ("needed_datasets", json_of_list json_of_type (ru_needed_datasets r)); ("subrules", json_of_map json_of_subrule (ru_subrules r));
        ("conditions", json_of_list json_of_strings (ru_conditions r)); ("alert", json_of_alert_gen (ru_alert r))].
