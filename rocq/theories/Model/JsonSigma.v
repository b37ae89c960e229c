(** The JSON of Sigma rules and of alert dictionaries: src/components/rule/sigma.rs, mod.rs.  (The same derived code reads
    Sigma rules from YAML; only what the two formats have in common is used here.) *)
From Coq Require Import String Ascii NArith ZArith List Bool.
From Verif Require Import Base.Ord Base.BTree Base.Str Model.Field Model.Rule Model.Sigma Model.Json Model.JsonField.
Import ListNotations.
Local Open Scope string_scope.
Local Open Scope list_scope.

(** sigma.rs:267-276 [derive(Serialize)], untagged *)
Fixpoint json_of_value (v : sigma_value) : json :=
  match v with
  | SText s => JStr s
  | SInt z => JInt z
  | SFloat x => json_of_f64 x
  | SArray l => JArr (map json_of_value l)
  | SNone => JNull
  end.
(** sigma.rs:267-276 [derive(Deserialize)], untagged: the first variant that fits; an integer that is none of 64 bits with a
    sign fits [Float] *)
Fixpoint value_of_json (io : float_io) (j : json) : option sigma_value :=
  match j with
  | JStr s => Some (SText s)
  | JInt z =>
      let? n := read_number io j in
      match n with
      | NUnsigned n => if (n <? 2 ^ 63)%N then Some (SInt (Z.of_N n)) else Some (SFloat (int_as_f64 (Z.of_N n)))
      | NSigned z => Some (SInt z)
      | NFloat x => Some (SFloat x)
      end
  | JFloat x => let? y := reread io x in Some (SFloat y)
  | JArr l => let? l := mapM (value_of_json io) l in Some (SArray l)
  | JNull => Some SNone
  | JBool _ | JObj _ => None
  end.

(** sigma.rs:105-112 [derive(Serialize)], untagged *)
Definition json_of_condition (c : sigma_condition) : json :=
  match c with
  | SMap m => json_of_map json_of_value m
  | SList l => json_of_list (json_of_map json_of_value) l
  | SNoCondition => JNull
  end.
(** sigma.rs:105-112 [derive(Deserialize)], untagged *)
Definition condition_of_json (io : float_io) (j : json) : option sigma_condition :=
  match j with
  | JObj _ => let? m := read_map (value_of_json io) j in Some (SMap m)
  | JArr _ => let? l := read_list (read_map (value_of_json io)) j in Some (SList l)
  | JNull => Some SNoCondition
  | _ => None
  end.

(** sigma.rs:98-103 [derive(Serialize)]: the identifiers flattened, before the condition *)
Definition json_of_detection (d : sigma_detection) : json :=
  JObj (map (fun e => (fst e, json_of_condition (snd e))) (search_identifiers d) ++ [("condition", JStr (sd_condition d))]).
(** sigma.rs:98-103 [derive(Deserialize)]: every entry but the condition is an identifier *)
Definition detection_of_json (io : float_io) (j : json) : option sigma_detection :=
  match j with
  | JObj l =>
      let? c := once (entries "condition" l) in
      let? c := req read_str c in
      let? m := read_map (condition_of_json io) (JObj (filter (fun e => negb (String.eqb (fst e) "condition")) l)) in
      Some (mkDetection m c)
  | _ => None
  end.

(** [#[serde(skip_serializing_if = "Option::is_none")]] *)
Definition skip_none {A} (key : string) (w : A -> json) (o : option A) : list (string * json) :=
  match o with Some a => [(key, w a)] | None => [] end.
(** sigma.rs:255-265 *)
Definition json_of_logsource (l : sigma_logsource) : json :=
  JObj (skip_none "category" JStr (ls_category l) ++ skip_none "product" JStr (ls_product l)
        ++ skip_none "service" JStr (ls_service l) ++ skip_none "definition" JStr (ls_definition l)).
Definition logsource_of_json (j : json) : option sigma_logsource :=
  match struct_fields ["category"; "product"; "service"; "definition"] j with
  | Some [c; p; s; d] =>
      let? c := opt read_str c in let? p := opt read_str p in let? s := opt read_str s in let? d := opt read_str d in
      Some (mkSource c p s d)
  | _ => None
  end.

(** sigma.rs:15-96 *)
Definition json_of_sigma (r : sigma_rule) : json :=
  JObj ([("title", JStr (sg_title r))]
        ++ skip_none "id" JStr (sg_id r) ++ skip_none "description" JStr (sg_description r)
        ++ skip_none "references" json_of_strings (sg_references r) ++ skip_none "status" JStr (sg_status r)
        ++ skip_none "license" JStr (sg_license r) ++ skip_none "author" JStr (sg_author r) ++ skip_none "date" JStr (sg_date r)
        ++ [("logsource", json_of_logsource (sg_logsource r)); ("detection", json_of_detection (sg_detection r))]
        ++ skip_none "fields" json_of_strings (sg_fields r) ++ skip_none "falsepositives" json_of_strings (sg_falsepositives r)
        ++ skip_none "level" JStr (sg_level r) ++ skip_none "tags" json_of_strings (sg_tags r)).
Definition sigma_of_json (io : float_io) (j : json) : option sigma_rule :=
  let texts := read_list read_str in
  match struct_fields ["title"; "id"; "description"; "references"; "status"; "license"; "author"; "date"; "logsource"; "detection";
                       "fields"; "falsepositives"; "level"; "tags"] j with
  | Some [t; i; d; r; s; l; a; dt; ls; de; f; fp; lv; tg] =>
      let? t := req read_str t in let? i := opt read_str i in let? d := opt read_str d in let? r := opt texts r in
      let? s := opt read_str s in let? l := opt read_str l in let? a := opt read_str a in let? dt := opt read_str dt in
      let? ls := req logsource_of_json ls in let? de := req (detection_of_json io) de in
      let? f := opt texts f in let? fp := opt texts fp in let? lv := opt read_str lv in let? tg := opt texts tg in
      Some (mkSigma t i d r s l a dt ls de f fp lv tg)
  | _ => None
  end.

(** rule/mod.rs:180-183 *)
Definition json_of_dictionary (d : alert_dictionary) : json :=
  JObj [("language_map", json_of_map (json_of_map JStr) (language_map d))].
Definition dictionary_of_json (j : json) : option alert_dictionary :=
  match struct_fields ["language_map"] j with
  | Some [m] => let? m := req (read_map (read_map read_str)) m in Some (mkDict m)
  | _ => None
  end.
