(** What JSON can carry: the values the Rust types can hold, and what a value becomes once it was written and read. *)
From Coq Require Import String NArith ZArith List Bool Floats.SpecFloat.
From Verif Require Import Base.Ord Base.BTree Base.Outcome Model.Ip Model.Field Model.Log Model.Rule Model.Command
  Model.Component Model.Payloads Model.Json.
Import ListNotations.
Local Open Scope string_scope.

(** [through w r] : write with [w], then read with [r] *)
Definition through {A} (w : A -> json) (r : json -> option A) (a : A) : option A := r (w a).

(** A finite float that the JSON reader can read, and what it then is *)
Definition finite (x : f64) : Prop := x <> S754_nan /\ (forall s, x <> S754_infinity s).
Definition float_reads (io : float_io) (x y : f64) : Prop := reread io x = Some y.

(** What a field value becomes: every text is plain text, every integer an unsigned one if it can be, and a float
    that is no number is nothing *)
Inductive becomes (io : float_io) : field -> field -> Prop :=
| B_null : becomes io Null Null
| B_text s : becomes io (Text s) (Text s)
| B_ip a : becomes io (IP a) (Text (ip_to_string a))
| B_domain s : becomes io (Domain s) (Text s)
| B_user s : becomes io (User s) (Text s)
| B_asset s : becomes io (AssetID s) (Text s)
| B_path s : becomes io (Path s) (Text s)
| B_u64 n : becomes io (U64 n) (U64 n)
| B_i64_nonneg n : becomes io (I64 (Z.of_N n)) (U64 n)
| B_i64_neg z : (z < 0)%Z -> becomes io (I64 z) (I64 z)
| B_date_nonneg n : becomes io (Date (Z.of_N n)) (U64 n)
| B_date_neg z : (z < 0)%Z -> becomes io (Date z) (I64 z)
| B_f64 x y : finite x -> float_reads io x y -> becomes io (F64 x) (F64 y)
| B_f64_none x : ~ finite x -> becomes io (F64 x) Null
| B_array l : becomes io (Array l) (Array l).

(** * The values the Rust types can hold *)
Definition u32_ok (n : N) : Prop := (n < 2 ^ 32)%N.
Definition sorted {A} (m : bt string A) : Prop := bt_wf m.
Definition task_data_ok (d : siem_task_data) : Prop :=
  match d with
  | TD_EXECUTE_ENDPOINT_SCRIPT _ p | TD_REMEDIATE_EMAILS p | TD_REPORT_ABUSE p | TD_OTHER _ p => sorted p
  | _ => True
  end.
Definition task_ok (t : siem_task) : Prop :=
  i64_ok (t_created_at t) /\ i64_ok (t_enqueued_at t) /\ u64_ok (t_id t) /\ task_data_ok (t_data t).
Definition pagination_ok (p : pagination) : Prop := u32_ok (pg_offset p) /\ u32_ok (pg_limit p).
Definition query_ok (q : query_info) : Prop :=
  i64_ok (q_from q) /\ i64_ok (q_to q) /\ u64_ok (q_limit q) /\ u64_ok (q_offset q) /\ i64_ok (q_ttl q).
Definition call_ok (c : siem_command_call) : Prop :=
  match c with
  | C_LOG_QUERY q => query_ok q
  | C_ISOLATE_IP x | C_FILTER_IP x => ip_ok (what _ x)
  | C_LIST_USE_CASES p | C_LIST_RULES p | C_LIST_DATASETS p | C_LIST_TASKS p | C_LIST_PARSERS p => pagination_ok p
  | C_START_TASK t => task_ok t
  | C_GET_TASK_RESULT id => u64_ok id
  | C_OTHER _ p => sorted p
  | _ => True
  end.
Definition header_ok (h : header) : Prop := u64_ok (h_comp_id h) /\ u64_ok (h_comm_id h).
Definition task_result_ok (r : task_result) : Prop := u64_ok (tr_id r).
Definition result_ok {T} (ok : T -> Prop) (r : command_result T) : Prop := match r with Ok a => ok a | Err _ => True end.
Definition row_ok (m : bt string field) : Prop := sorted m /\ Forall (fun e => field_ok (snd e)) m.
Definition response_ok (r : response) : Prop :=
  match r with
  | R_LOG_QUERY q r => query_ok q /\ result_ok (Forall row_ok) r
  | R_START_TASK r => result_ok u64_ok r
  | R_GET_TASK_RESULT r => result_ok task_result_ok r
  | R_OTHER _ r => result_ok sorted r
  | _ => True
  end.
Definition fire_mode_ok (m : fire_mode) : Prop :=
  match m with
  | Inmediate => True
  | Cron a b c d e => u32_ok a /\ u32_ok b /\ u32_ok c /\ u32_ok d /\ u32_ok e
  | Repetitive ms => u64_ok ms
  | Future t => i64_ok t
  end.
Definition task_definition_ok (d : task_definition) : Prop :=
  task_data_ok (td_data d) /\ fire_mode_ok (td_fire_mode d) /\ u64_ok (td_max_duration d).
Definition notification_ok (n : notification) : Prop := i64_ok (n_timestamp n) /\ u64_ok (n_component n).
Definition aggregation_ok (a : aggregation) : Prop := i64_ok (ag_limit a).

(** A command that carries an address *)
Definition carries_ip (c : siem_command_call) : Prop := (exists x, c = C_ISOLATE_IP x) \/ (exists x, c = C_FILTER_IP x).

(** A response: rows are read with their values changed, the rest is read as it was *)
Definition row_becomes (io : float_io) : bt string field -> bt string field -> Prop :=
  Forall2 (fun a b => fst a = fst b /\ becomes io (snd a) (snd b)).
Inductive response_becomes (io : float_io) : response -> response -> Prop :=
| RB_rows q rows rows' : Forall2 (row_becomes io) rows rows' -> response_becomes io (R_LOG_QUERY q (Ok rows)) (R_LOG_QUERY q (Ok rows'))
| RB_same r : (forall q rows, r <> R_LOG_QUERY q (Ok rows)) -> response_becomes io r r.

(** * Rules *)

(** The operators of which an operator is made *)
Inductive inside : rule_op -> rule_op -> Prop :=
| In_self o : inside o o
| In_all o p l : In p l -> inside o p -> inside o (OAll l)
| In_any o p l : In p l -> inside o p -> inside o (OAny l)
| In_not o p : inside o p -> inside o (ONot p)
| In_b64 o p : inside o p -> inside o (OB64 p).
(** The value an operator compares with is one the Rust type can hold *)
Definition compares_ok (o : rule_op) : Prop :=
  match o with OEquals f | OGT f | OLT f | OGTE f | OLTE f => field_ok f | _ => True end.
Definition op_ok (o : rule_op) : Prop := forall p, inside p o -> compares_ok p.

(** What an operator becomes: the values it compares with change as fields do, regular expressions must compile,
    and there is nothing that [SameNet] becomes *)
Inductive op_becomes (io : float_io) (compiles : string -> bool) : rule_op -> rule_op -> Prop :=
| OB_all l l' : Forall2 (op_becomes io compiles) l l' -> op_becomes io compiles (OAll l) (OAll l')
| OB_any l l' : Forall2 (op_becomes io compiles) l l' -> op_becomes io compiles (OAny l) (OAny l')
| OB_not o o' : op_becomes io compiles o o' -> op_becomes io compiles (ONot o) (ONot o')
| OB_b64 o o' : op_becomes io compiles o o' -> op_becomes io compiles (OB64 o) (OB64 o')
| OB_equals f g : becomes io f g -> op_becomes io compiles (OEquals f) (OEquals g)
| OB_gt f g : becomes io f g -> op_becomes io compiles (OGT f) (OGT g)
| OB_lt f g : becomes io f g -> op_becomes io compiles (OLT f) (OLT g)
| OB_gte f g : becomes io f g -> op_becomes io compiles (OGTE f) (OGTE g)
| OB_lte f g : becomes io f g -> op_becomes io compiles (OLTE f) (OLTE g)
| OB_matches re : compiles re = true -> op_becomes io compiles (OMatches re) (OMatches re)
| OB_starts s : op_becomes io compiles (OStartsWith s) (OStartsWith s)
| OB_ends s : op_becomes io compiles (OEndsWith s) (OEndsWith s)
| OB_contains s : op_becomes io compiles (OContains s) (OContains s)
| OB_local b : op_becomes io compiles (OIsLocalIp b) (OIsLocalIp b)
| OB_external b : op_becomes io compiles (OIsExternalIp b) (OIsExternalIp b)
| OB_exists b : op_becomes io compiles (OExists b) (OExists b)
| OB_null b : op_becomes io compiles (OIsNull b) (OIsNull b)
| OB_dataset t : op_becomes io compiles (OInDataset t) (OInDataset t)
| OB_state l : op_becomes io compiles (OExistsRuleState l) (OExistsRuleState l)
| OB_country s : op_becomes io compiles (OInCountry s) (OInCountry s).

Definition cond_becomes io compiles (c c' : rule_cond) : Prop :=
  rc_field c' = rc_field c /\ op_becomes io compiles (rc_op c) (rc_op c').
Definition subrule_becomes io compiles (s s' : subrule) : Prop :=
  Forall2 (cond_becomes io compiles) (sr_conditions s) (sr_conditions s') /\ sr_state s' = sr_state s.
(** A rule that was written and read: its subrules keep their names, everything else is as it was *)
Definition rule_becomes io compiles (r r' : siem_rule) : Prop :=
  ru_id r' = ru_id r /\ ru_name r' = ru_name r /\ ru_description r' = ru_description r /\ ru_mitre r' = ru_mitre r
  /\ ru_needed_datasets r' = ru_needed_datasets r /\ ru_conditions r' = ru_conditions r /\ ru_alert r' = ru_alert r
  /\ Forall2 (fun e e' => fst e' = fst e /\ subrule_becomes io compiles (snd e) (snd e')) (ru_subrules r) (ru_subrules r').
Definition rule_ok (r : siem_rule) : Prop :=
  sorted (ru_subrules r)
  /\ (forall e c, In e (ru_subrules r) -> In c (sr_conditions (snd e)) -> op_ok (rc_op c))
  /\ (forall a, al_aggregation (ru_alert r) = Some a -> aggregation_ok a).
