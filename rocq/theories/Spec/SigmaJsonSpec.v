(** Sigma rules as JSON documents. *)
From Coq Require Import String NArith ZArith List.
From Verif Require Import Base.Ord Base.BTree Model.Field Model.Rule Model.Sigma Model.Json Spec.JsonSpec.
Import ListNotations.
Local Open Scope string_scope.

(** [within v w]: [v] is [w], or inside the list [w] at any depth *)
Inductive within (v : sigma_value) : sigma_value -> Prop :=
| W_self : within v v
| W_in w l : In w l -> within v w -> within v (SArray l).
(** the maps of a search identifier *)
Definition maps_of (c : sigma_condition) : list (bt string sigma_value) :=
  match c with SMap m => [m] | SList l => l | SNoCondition => [] end.
(** [v] occurs in a condition of the rule *)
Definition occurs (v : sigma_value) (r : sigma_rule) : Prop :=
  exists id c m key w, In (id, c) (search_identifiers (sg_detection r)) /\ In m (maps_of c) /\ In (key, w) m /\ within v w.

(** What the Rust types can hold: maps without repeated keys, integers of 64 bits *)
Definition sigma_fits (r : sigma_rule) : Prop :=
  sorted (search_identifiers (sg_detection r))
  /\ (forall id c m, In (id, c) (search_identifiers (sg_detection r)) -> In m (maps_of c) -> sorted m)
  /\ (forall z, occurs (SInt z) r -> i64_ok z).

(** The document of a rule: absent texts are absent, every other one stands under its name. *)
Fixpoint value_document (v : sigma_value) : json :=
  match v with
  | SText s => JStr s
  | SInt z => JInt z
  | SFloat x => match x with SpecFloat.S754_nan | SpecFloat.S754_infinity _ => JNull | _ => JFloat x end
  | SArray l => JArr (map value_document l)
  | SNone => JNull
  end.
Definition map_document (m : bt string sigma_value) : json := JObj (map (fun e => (fst e, value_document (snd e))) m).
Definition condition_document (c : sigma_condition) : json :=
  match c with SMap m => map_document m | SList l => JArr (map map_document l) | SNoCondition => JNull end.
Definition texts_document (l : list string) : json := JArr (map JStr l).
(** the members that are given *)
Definition members (l : list (string * option json)) : json :=
  JObj (flat_map (fun e => match snd e with Some j => [(fst e, j)] | None => [] end) l).
Definition sigma_document (r : sigma_rule) : json :=
  let d := sg_detection r in let s := sg_logsource r in
  members [("title", Some (JStr (sg_title r))); ("id", option_map JStr (sg_id r)); ("description", option_map JStr (sg_description r));
    ("references", option_map texts_document (sg_references r)); ("status", option_map JStr (sg_status r));
    ("license", option_map JStr (sg_license r)); ("author", option_map JStr (sg_author r)); ("date", option_map JStr (sg_date r));
    ("logsource", Some (members [("category", option_map JStr (ls_category s)); ("product", option_map JStr (ls_product s));
       ("service", option_map JStr (ls_service s)); ("definition", option_map JStr (ls_definition s))]));
    ("detection", Some (JObj (map (fun e => (fst e, condition_document (snd e))) (search_identifiers d) ++ [("condition", JStr (sd_condition d))])));
    ("fields", option_map texts_document (sg_fields r)); ("falsepositives", option_map texts_document (sg_falsepositives r));
    ("level", option_map JStr (sg_level r)); ("tags", option_map texts_document (sg_tags r))].

(** Search identifiers of the Sigma language, as documents: a map of fields to values, a list of such maps, or a list of
    keywords.  A value is a text, a number, a truth value or nothing, or a list of these. *)
Inductive sigma_scalar : json -> Prop :=
| SS_text s : sigma_scalar (JStr s)
| SS_int z : (- 2 ^ 63 <= z < 2 ^ 64)%Z -> sigma_scalar (JInt z)
| SS_float x : finite x -> sigma_scalar (JFloat x)
| SS_bool b : sigma_scalar (JBool b)
| SS_null : sigma_scalar JNull.
Inductive sigma_values : json -> Prop :=
| SV_one j : sigma_scalar j -> sigma_values j
| SV_list l : Forall sigma_scalar l -> sigma_values (JArr l).
Definition sigma_map (j : json) : Prop := exists l, j = JObj l /\ Forall (fun e => sigma_values (snd e)) l.
Inductive sigma_search : json -> Prop :=
| Search_map j : sigma_map j -> sigma_search j
| Search_maps l : Forall sigma_map l -> sigma_search (JArr l)
| Search_keywords l : Forall (fun j => exists s, j = JStr s) l -> sigma_search (JArr l).
(** without truth values and keywords *)
Definition no_bool (j : json) : Prop := (forall b, j <> JBool b) /\ forall l b, j = JArr l -> ~ In (JBool b) l.
Definition plain_map (j : json) : Prop := exists l, j = JObj l /\ Forall (fun e => sigma_values (snd e) /\ no_bool (snd e)) l.
Definition plain_search (j : json) : Prop := plain_map j \/ exists l, j = JArr l /\ Forall plain_map l.

(** What a document means.  Of two members of one name the last counts. *)
Inductive reads_as (io : float_io) : json -> sigma_value -> Prop :=
| RA_text s : reads_as io (JStr s) (SText s)
| RA_int z : i64_ok z -> reads_as io (JInt z) (SInt z)
| RA_large z : (2 ^ 63 <= z < 2 ^ 64)%Z -> reads_as io (JInt z) (SFloat (int_as_f64 z))
| RA_huge z x : (z < - 2 ^ 63 \/ 2 ^ 64 <= z)%Z -> big_int io z = Some x -> reads_as io (JInt z) (SFloat x)
| RA_float x y : float_reads io x y -> reads_as io (JFloat x) (SFloat y)
| RA_list l vs : Forall2 (reads_as io) l vs -> reads_as io (JArr l) (SArray vs)
| RA_null : reads_as io JNull SNone.
Definition members_read_as {A} (R : json -> A -> Prop) (l : list (string * json)) (m : bt string A) : Prop :=
  sorted m /\ forall k, match last_assoc k l, bt_get k m with Some j, Some a => R j a | None, None => True | _, _ => False end.
Inductive map_reads_as (io : float_io) : json -> bt string sigma_value -> Prop :=
| MR l m : members_read_as (reads_as io) l m -> map_reads_as io (JObj l) m.
Inductive search_reads_as (io : float_io) : json -> sigma_condition -> Prop :=
| SR_map j m : map_reads_as io j m -> search_reads_as io j (SMap m)
| SR_maps l ms : Forall2 (map_reads_as io) l ms -> search_reads_as io (JArr l) (SList ms)
| SR_null : search_reads_as io JNull SNoCondition.
