(** Properties C85-C92: what survives being written as JSON and read again. *)
From Coq Require Import String Ascii NArith ZArith List Bool Lia Floats.SpecFloat.
From Verif Require Import Base.Arith Base.Ord Base.BTree Base.Str Base.Outcome Model.IpUtils Model.Ip Model.Field Model.Log
  Model.DatasetTypes Model.Holder Model.Mitre Model.Rule Model.Command Model.Component Model.Payloads Model.Json Model.JsonField
  Model.JsonCommand Model.JsonRule Spec.JsonSpec Proofs.IpPrintP Proofs.LogP Proofs.JsonP Proofs.JsonCmdP Proofs.JsonRuleP Props.PropsIpPrint.
Import ListNotations.
Local Open Scope string_scope.
Local Open Scope list_scope.

(** A reader of floats that changes nothing, and refuses integers beyond 64 bits *)
Definition exact_io : float_io := {| reread := fun x => Some x; big_int := fun _ => None |}.

(** * C85: addresses *)
Definition ip_roundtrip := forall a, ip_ok a -> ip_of_json (json_of_ip a) = Some a.
Theorem C142_roundtrip_refuted : ~ ip_roundtrip.
Proof. intros H. specialize (H (V4 1) eq_refl). rewrite ip_never in H. discriminate. Qed.
Print Assumptions C142_roundtrip_refuted.
(** It fails for every address: what is written is never accepted. *)
Theorem C142_never_refuted : forall a, ip_of_json (json_of_ip a) = None /\ ip_of_content (json_of_ip a) = None.
Proof. intros a. exact (ip_text_fails _). Qed.
Print Assumptions C142_never_refuted.
(** What is accepted: an object with the family and the number of the address. *)
Theorem C85_reads : forall j a, ip_of_json j = Some a <->
  ip_ok a /\ exists tag n, j = JObj [(tag, JInt (Z.of_N n))] /\ ((tag = "V4" /\ a = V4 n) \/ (tag = "V6" /\ a = V6 n)).
Proof.
  intros j a. unfold ip_of_json, read_enum. split.
  - destruct j as [|b|z|f|s|l|l]; cbn [variant]; try discriminate.
    + intros H. exfalso. revert H. change (ip_of_json (JStr s) = Some a -> False). rewrite (proj1 (ip_text_fails s)). discriminate.
    + destruct l as [|[k v] [|]]; try discriminate. cbn [fst snd pick].
      destruct (String.eqb_spec "V4" k) as [<-|]; [|destruct (String.eqb_spec "V6" k) as [<-|]; [|discriminate]].
      * unfold newtype_v, read_uint. destruct v; try discriminate. destruct (_ && _) eqn:E; [|discriminate]. intros [= <-].
        split; [|exists "V4", (Z.to_N z); rewrite Z2N.id by lia; auto].
        cbn [ip_ok]. assert (z < 2 ^ 32)%Z by lia. change (2 ^ 32)%Z with (Z.of_N (2 ^ 32)) in *. lia.
      * unfold newtype_v, read_uint. destruct v; try discriminate. destruct (_ && _) eqn:E; [|discriminate]. intros [= <-].
        split; [|exists "V6", (Z.to_N z); rewrite Z2N.id by lia; auto].
        cbn [ip_ok]. assert (z < 2 ^ 128)%Z by lia. change (2 ^ 128)%Z with (Z.of_N (2 ^ 128)) in *. lia.
  - intros (K & tag & n & -> & [[-> ->]|[-> ->]]); cbn [variant fst snd pick].
    + change (String.eqb "V4" "V4") with true. cbv iota. unfold newtype_v.
      change (JInt (Z.of_N n)) with (json_of_n n). rewrite read_u32_ok by exact K. reflexivity.
    + change (String.eqb "V4" "V6") with false. change (String.eqb "V6" "V6") with true. cbv iota. unfold newtype_v.
      change (JInt (Z.of_N n)) with (json_of_n n). cbn [ip_ok] in K. rewrite read_uint_ok; [reflexivity|lia|].
      change (2 ^ 128)%Z with (Z.of_N (2 ^ 128)). lia.
Qed.
Print Assumptions C85_reads.
(** The text written identifies the address, and the address parser reads it: every IPv4 address, and the IPv6
    addresses whose printed form it can read (C60). *)
Theorem C85_text_identifies : forall a b, ip_ok a -> ip_ok b -> json_of_ip a = json_of_ip b -> a = b.
Proof. intros a b A B [= E]. exact (ip_to_string_inj a b A B E). Qed.
Print Assumptions C85_text_identifies.
Theorem C85_text_parses : forall a, ip_ok a -> exists s, json_of_ip a = JStr s /\
  match a with V4 _ => from_ip_str s = Val (Ok a)
  | V6 n => from_ip_str s = Val (Ok a) <-> ipv6_from_str (ipv6_to_str n) = Val (Ok n) end.
Proof.
  intros a K. exists (ip_to_string a). split; [reflexivity|]. destruct a as [n|n].
  - exact (C61_v4_roundtrip n K).
  - exact (C61_v6_roundtrip n K).
Qed.
Print Assumptions C85_text_parses.
Example C85_case : json_of_ip (V4 3232235777) = JStr "192.168.1.1" /\ ip_of_json (JStr "192.168.1.1") = None
  /\ ip_of_json (JObj [("V4", JInt 3232235777)]) = Some (V4 3232235777).
Proof. splits; vm_compute; reflexivity. Qed.

(** * C86: field values *)
Definition field_roundtrip := forall io f, field_ok f -> (forall x, float_reads io x x) -> field_of_json io (json_of_field f) = Some f.
(** Exactly what a value becomes. *)
Theorem C86_becomes : forall io f g, field_ok f -> (field_of_json io (json_of_field f) = Some g <-> becomes io f g).
Proof. exact field_reads. Qed.
Print Assumptions C86_becomes.
Theorem C143_roundtrip_refuted : ~ field_roundtrip.
Proof. intros H. specialize (H exact_io (Domain "a.com") I (fun _ => eq_refl)). vm_compute in H. discriminate. Qed.
Print Assumptions C143_roundtrip_refuted.
(** Which values come back as they were: nothing, plain texts, lists, unsigned and negative numbers, and finite floats. *)
Theorem C86_kept : forall io f, field_ok f -> (forall x, float_reads io x x) ->
  (field_of_json io (json_of_field f) = Some f <->
   match f with
   | Null | Text _ | Array _ | U64 _ => True
   | I64 z => (z < 0)%Z
   | F64 x => finite x
   | IP _ | Domain _ | User _ | AssetID _ | Date _ | Path _ => False
   end).
Proof.
  intros io f K R. rewrite (field_reads io f f K). split.
  - destruct f; inversion 1; subst; auto.
  - destruct f; intros H; try contradiction; constructor; auto.
Qed.
Print Assumptions C86_kept.
(** A second trip changes nothing more. *)
Theorem C86_stable : forall io f g, field_ok f -> (forall x, float_reads io x x) ->
  field_of_json io (json_of_field f) = Some g -> field_of_json io (json_of_field g) = Some g.
Proof.
  intros io f g K R B. apply (field_reads io f g K) in B. apply field_reads.
  - inversion B; subst; cbn [field_ok] in *; auto; unfold u64_ok, i64_ok in *; lia.
  - inversion B; subst; try (constructor; auto; fail). red in H0. rewrite R in H0. injection H0 as <-. constructor; auto.
Qed.
Print Assumptions C86_stable.
(** The text a value shows stays the same, but for dates, paths and floats. *)
Theorem C86_display : forall P io f g, field_ok f ->
  match f with Date _ | Path _ | F64 _ => False | _ => True end ->
  field_of_json io (json_of_field f) = Some g -> display P g = display P f.
Proof.
  intros P io f g K D B. apply (field_reads io f g K) in B. destruct B; try contradiction; try reflexivity.
  cbn [display]. unfold dec_z. destruct n; reflexivity.
Qed.
Print Assumptions C86_display.
Example C86_case : field_of_json exact_io (json_of_field (IP (V4 1))) = Some (Text "0.0.0.1")
  /\ field_of_json exact_io (json_of_field (I64 5)) = Some (U64 5)
  /\ field_of_json exact_io (json_of_field (I64 (-5))) = Some (I64 (-5))
  /\ field_of_json exact_io (json_of_field (F64 S754_nan)) = Some Null
  /\ field_ok (I64 (-5)).
Proof. splits; try (vm_compute; reflexivity). cbn. unfold i64_ok. lia. Qed.

(** * C87: logs *)
Definition log_good (l : log) : Prop := bt_wf (l_fields l) /\ Forall (fun e => field_ok (original (snd e))) (l_fields l).
Lemma log_new_good m r o : i64_ok r -> log_good (log_new m r o).
Proof.
  intros K. split; [apply log_new_wf|]. unfold log_new, put. cbn [l_fields].
  repeat (apply forall_insert; [exact K || exact I|]). constructor.
Qed.
(** What is written: the fields of the log, each under its name, in order, and nothing else. *)
Theorem C87_written : forall l, json_of_log l = JObj (map (fun e => (fst e, json_of_field (snd e))) (log_iter l)).
Proof. intros l. unfold json_of_log, json_of_map, log_iter. rewrite map_map. reflexivity. Qed.
Print Assumptions C87_written.
Definition log_roundtrip := forall io l, log_good l -> (forall x, float_reads io x x) ->
  exists l', log_of_json io (json_of_log l) = Some l' /\ log_iter l' = log_iter l.
(** Reading back needs every field to be a list of one text, and then gives that text. *)
Theorem C87_reads : forall io l l', log_good l -> log_of_json io (json_of_log l) = Some l' ->
  Forall2 (fun e e' => fst e' = fst e /\ exists s, snd e = Array [s] /\ snd e' = Text s) (log_iter l) (log_iter l')
  /\ log_tags l' = [] /\ ip_fields l' = [].
Proof.
  intros io l l' [W F] E. destruct (log_reads io l l' W F E) as (A & B & C). splits.
  - unfold log_iter. clear - A. induction A as [|e e' r r' [N (s & X & Y)] A IH]; simpl; constructor; auto. simpl. eauto.
  - unfold log_tags. rewrite B. reflexivity.
  - unfold ip_fields. rewrite C. reflexivity.
Qed.
Print Assumptions C87_reads.
(** Such a log is always read; and so is any object that gives each field as an object with the one entry [original]. *)
Theorem C87_readable : forall io l, log_good l -> (forall name f, In (name, f) (log_iter l) -> exists s, f = Array [s]) ->
  exists l', log_of_json io (json_of_log l) = Some l'.
Proof.
  intros io l [W _] H. apply log_readable; [exact W|]. intros [k i] I. apply (H k). unfold log_iter. apply (in_map (fun e => (fst e, original (snd e)))) in I. exact I.
Qed.
Print Assumptions C87_readable.
Theorem C87_accepts : forall io (es : bt string (json * field)), sorted es ->
  (forall name j f, In (name, (j, f)) es -> field_of_json io j = Some f) ->
  exists l, log_of_json io (JObj (map (fun e => (fst e, JObj [("original", fst (snd e))])) es)) = Some l
    /\ log_iter l = map (fun e => (fst e, snd (snd e))) es.
Proof.
  intros io es W H. apply log_given; [exact W|]. intros [k [j f]] I. exact (H k j f I).
Qed.
Print Assumptions C87_accepts.
Theorem C144_unreadable_refuted : forall io l name f, log_good l ->
  log_field name l = Some f -> (forall s, f <> Array [s]) -> log_of_json io (json_of_log l) = None.
Proof. intros io l name f [W F]. exact (log_fails io l name f W F). Qed.
Print Assumptions C144_unreadable_refuted.
(** In particular no log that was just made can be read back. *)
Theorem C144_new_log_refuted : forall io message received origin, i64_ok received ->
  log_of_json io (json_of_log (log_new message received origin)) = None.
Proof.
  intros io message received origin K. apply (C144_unreadable_refuted io _ "message" (Text message)); try discriminate.
  - apply log_new_good. exact K.
  - reflexivity.
Qed.
Print Assumptions C144_new_log_refuted.
Theorem C144_roundtrip_refuted : ~ log_roundtrip.
Proof.
  intros H. destruct (H exact_io (log_new "m" 0 "o")) as (l' & E & _).
  - apply log_new_good. unfold i64_ok. lia.
  - reflexivity.
  - rewrite C144_new_log_refuted in E by (unfold i64_ok; lia). discriminate.
Qed.
Print Assumptions C144_roundtrip_refuted.
Example C87_case : json_of_log (add_field "source.ip" (IP (V4 1)) (log_new "m" 5 "o"))
  = JObj [("event.created", JInt 5); ("event.received", JInt 5); ("message", JStr "m"); ("origin", JStr "o"); ("source.ip", JStr "0.0.0.1")].
Proof. vm_compute. reflexivity. Qed.

Definition one_text_log : log :=
  fold_left (fun l e => log_insert (fst e) (Array [snd e]) l)
    [("message", "m"); ("origin", "o"); ("event.created", "5"); ("event.received", "6")] (log_new "" 0 "").
Example C87_readable_case : (forall name f, In (name, f) (log_iter one_text_log) -> exists s, f = Array [s])
  /\ exists l', log_of_json exact_io (json_of_log one_text_log) = Some l'
     /\ log_iter l' = [("event.created", Text "5"); ("event.received", Text "6"); ("message", Text "m"); ("origin", Text "o")].
Proof.
  split.
  - intros name f I. vm_compute in I. repeat (destruct I as [[= <- <-]|I]; [eauto|]). destruct I.
  - eexists. split; vm_compute; reflexivity.
Qed.

(** * C88: commands *)
Definition call_roundtrip := forall c, call_ok c -> call_of_json (json_of_call c) = Some c.
(** Commands without an address come back as they were; those with one are never read. *)
Theorem C88_roundtrip : forall c, call_ok c -> (call_of_json (json_of_call c) = Some c <-> ~ carries_ip c).
Proof.
  intros c K. split.
  - intros E C. rewrite (call_ip_fails c C) in E. discriminate.
  - exact (call_rt c K).
Qed.
Print Assumptions C88_roundtrip.
Theorem C145_addresses_refuted : forall c, carries_ip c -> call_of_json (json_of_call c) = None.
Proof. exact call_ip_fails. Qed.
Print Assumptions C145_addresses_refuted.
Theorem C145_roundtrip_refuted : ~ call_roundtrip.
Proof.
  intros H. specialize (H (C_FILTER_IP (Commented (V4 1) "")) eq_refl). rewrite call_ip_fails in H; [discriminate|]. right. eauto.
Qed.
Print Assumptions C145_roundtrip_refuted.
(** Different commands are written differently. *)
Theorem C88_identifies : forall a b, call_ok a -> call_ok b -> json_of_call a = json_of_call b -> a = b.
Proof.
  intros a b A B E. assert (D : forall c, {carries_ip c} + {~ carries_ip c}).
  { intros c. destruct c; try (right; intros [(? & ?)|(? & ?)]; discriminate); left; [left|right]; eauto. }
  destruct (D a) as [Ca|Na].
  - destruct Ca as [(x & ->)|(x & ->)]; destruct b as [ | | |y| |y| | | | | | | | | | | | | | ]; try discriminate E;
      destruct x as [xa xc], y as [ya yc]; unfold json_of_call, tagged, json_of_commented, json_of_ip in E; cbn [what comment] in E;
      injection E as E1 E2; cbn in A, B; apply (ip_to_string_inj _ _ A B) in E1; subst; reflexivity.
  - pose proof (call_rt a A Na) as R. rewrite E in R. destruct (D b) as [Cb|Nb].
    + rewrite (call_ip_fails b Cb) in R. discriminate.
    + rewrite (call_rt b B Nb) in R. congruence.
Qed.
Print Assumptions C88_identifies.
(** The one key of the object is the name of the command's function. *)
Theorem C88_tag : forall c, exists payload, json_of_call c = JObj [(function_name (get_type c), payload)].
Proof. destruct c; eexists; reflexivity. Qed.
Print Assumptions C88_tag.
Theorem C88_function_types : forall f, function_of_json (json_of_function f) = Some f.
Proof. exact function_rt. Qed.
Print Assumptions C88_function_types.
Theorem C88_headers : forall h, header_ok h -> header_of_json (json_of_header h) = Some h.
Proof. exact header_rt. Qed.
Print Assumptions C88_headers.
Theorem C88_tasks : forall t, task_ok t -> task_of_json (json_of_task t) = Some t.
Proof. exact task_rt. Qed.
Print Assumptions C88_tasks.
Definition a_call : siem_command_call := C_OTHER "isolate" (bt_of_list [("b", "2"); ("a", "1")]).
Example C88_case : json_of_call a_call = JObj [("OTHER", JArr [JStr "isolate"; JObj [("a", JStr "1"); ("b", JStr "2")]])]
  /\ call_of_json (json_of_call a_call) = Some a_call /\ call_ok a_call /\ ~ carries_ip a_call
  /\ json_of_call (C_LIST_RULES (Pagination 0 10)) = JObj [("LIST_RULES", JObj [("offset", JInt 0); ("limit", JInt 10)])].
Proof.
  splits; try (vm_compute; reflexivity).
  - apply wf_of_list.
  - intros [(x & E)|(x & E)]; discriminate.
Qed.

(** * C89: responses *)
Definition response_roundtrip := forall io r, response_ok r -> (forall x, float_reads io x x) -> response_of_json io (json_of_response r) = Some r.
(** The rows of a query come back with their values changed as in C86, everything else as it was. *)
Theorem C89_becomes : forall io r r', response_ok r ->
  (response_of_json io (json_of_response r) = Some r' <-> response_becomes io r r').
Proof. exact response_reads. Qed.
Print Assumptions C89_becomes.
Theorem C89_roundtrip : forall io r, response_ok r -> (forall q rows, r <> R_LOG_QUERY q (Ok rows)) ->
  response_of_json io (json_of_response r) = Some r.
Proof. intros io r K N. apply (response_reads io r r K). apply RB_same. exact N. Qed.
Print Assumptions C89_roundtrip.
Theorem C146_rows_refuted : ~ response_roundtrip.
Proof.
  intros H. specialize (H exact_io (R_LOG_QUERY (query_new "q") (Ok [[("source.ip", IP (V4 1))]]))).
  assert (K : response_ok (R_LOG_QUERY (query_new "q") (Ok [[("source.ip", IP (V4 1))]]))).
  { split; [unfold query_ok, i64_ok, u64_ok; cbn; lia|]. constructor; [|constructor]. split; [repeat constructor|].
    constructor; [reflexivity|constructor]. }
  specialize (H K (fun _ => eq_refl)). vm_compute in H. discriminate.
Qed.
Print Assumptions C146_rows_refuted.
(** The result of a command: [ok] or [err] with its payload, and nothing else is read. *)
Theorem C89_results : forall (T : Type) (w : T -> json) (r : json -> option T) x,
  (forall a, x = Ok a -> r (w a) = Some a) -> command_result_of_json r (json_of_command_result w x) = Some x.
Proof. exact @result_rt. Qed.
Print Assumptions C89_results.
Example C89_case : json_of_response (R_START_TASK (Ok 7%N)) = JObj [("START_TASK", JObj [("ok", JInt 7)])]
  /\ json_of_response (R_GET_RULE (Err (NotFound "r"))) = JObj [("GET_RULE", JObj [("err", JObj [("NotFound", JStr "r")])])]
  /\ response_ok (R_START_TASK (Ok 7%N)).
Proof. splits; try reflexivity. Qed.

(** * C90: task definitions *)
(** Everything comes back but the function that runs the task, which becomes one that answers "OK". *)
Theorem C90_roundtrip : forall d, task_definition_ok d ->
  exists d', task_definition_of_json (json_of_task_definition d) = Some d' /\
    td_data d' = td_data d /\ td_name d' = td_name d /\ td_description d' = td_description d /\ td_permission d' = td_permission d
    /\ td_fire_mode d' = td_fire_mode d /\ td_max_duration d' = td_max_duration d
    /\ forall t, td_builder d' t = TaskResult (t_id t) (Some (Ok "OK")).
Proof. intros d K. eexists. split; [exact (task_definition_rt d K)|]. cbn. splits; reflexivity. Qed.
Print Assumptions C90_roundtrip.
Definition task_definition_roundtrip := forall d, task_definition_ok d ->
  exists d', task_definition_of_json (json_of_task_definition d) = Some d' /\ forall t, td_builder d' t = td_builder d t.
Theorem C147_behaviour_refuted : ~ task_definition_roundtrip.
Proof.
  intros H. destruct (H (TaskDef TD_UPDATE_GEOIP "" "" Analyst Inmediate 0 (fun t => TaskResult (t_id t) (Some (Err "failed"))))) as (d & E & B).
  - cbn. splits; auto. unfold task_definition_ok, u64_ok. cbn. splits; auto; lia.
  - vm_compute in E. injection E as <-. specialize (B (Task 0 0 "" 0 TD_UPDATE_GEOIP)). discriminate.
Qed.
Print Assumptions C147_behaviour_refuted.
(** An incomplete definition should be refused; instead what is missing is filled in, even the permission. *)
Definition refuses_incomplete := forall l key, In key ["data"; "name"; "description"; "min_permission"; "fire_mode"; "max_duration"] ->
  (forall v, ~ In (key, v) l) -> task_definition_of_json (JObj l) = None.
Theorem C147_incomplete_refuted : ~ refuses_incomplete.
Proof. intros H. specialize (H [] "name" (or_intror (or_introl eq_refl)) (fun _ x => x)). discriminate. Qed.
Print Assumptions C147_incomplete_refuted.
(** A key that is none of the six is always refused. *)
Theorem C90_unknown_key : forall l key v, In (key, v) l ->
  ~ In key ["data"; "name"; "description"; "min_permission"; "fire_mode"; "max_duration"] -> task_definition_of_json (JObj l) = None.
Proof.
  intros l key v I N. unfold task_definition_of_json. generalize (Some task_definition_start) as o.
  assert (Z : forall l, fold_left (fun (o : option task_definition) (e : string * json) => let? d := o in task_definition_entry d e) l None = None).
  { clear. induction l as [|e l IH]; [reflexivity|exact IH]. }
  induction l as [|e l IH]; intros o; [destruct I|]. cbn [fold_left]. destruct I as [->|I]; [|apply IH; exact I].
  destruct o as [[dt n ds p f m b]|]; [|apply Z]. unfold task_definition_entry.
  repeat match goal with |- context [String.eqb key ?k] => destruct (String.eqb_spec key k) as [->|]; [exfalso; apply N; cbn; tauto|] end.
  apply Z.
Qed.
Print Assumptions C90_unknown_key.
(** Each member of a definition that is read is what the last entry under its key reads as; without one it has a default. *)
Definition read_or {A} (r : json -> option A) (default : A) (o : option json) (a : A) : Prop :=
  match o with Some v => r v = Some a | None => a = default end.
Fixpoint last_value (key : string) (l : list (string * json)) : option json :=
  match l with
  | [] => None
  | (k, v) :: r => match last_value key r with Some w => Some w | None => if String.eqb k key then Some v else None end
  end.
Lemma last_value_snoc key l k v : last_value key (l ++ [(k, v)]) = if String.eqb k key then Some v else last_value key l.
Proof.
  induction l as [|[k' v'] l IH]; cbn [last_value app]; [reflexivity|]. rewrite IH. destruct (String.eqb k key); [reflexivity|]. reflexivity.
Qed.
Theorem C90_members : forall l d, task_definition_of_json (JObj l) = Some d ->
  read_or task_data_of_json TD_UPDATE_GEOIP (last_value "data" l) (td_data d)
  /\ read_or read_str "" (last_value "name" l) (td_name d)
  /\ read_or read_str "" (last_value "description" l) (td_description d)
  /\ read_or role_of_json Administrator (last_value "min_permission" l) (td_permission d)
  /\ read_or fire_mode_of_json Inmediate (last_value "fire_mode" l) (td_fire_mode d)
  /\ read_or (read_uint 64) 0%N (last_value "max_duration" l) (td_max_duration d).
Proof.
  intros l. unfold task_definition_of_json. induction l as [|[k v] l IH] using rev_ind; intros d E.
  - cbn in E. injection E as <-. cbn. splits; reflexivity.
  - rewrite fold_left_app in E. cbn [fold_left] in E.
    destruct (fold_left _ l _) as [d0|] eqn:E0; [|discriminate E]. specialize (IH d0 eq_refl). rewrite !last_value_snoc.
    destruct d0 as [dt n ds p f m b]. cbn [td_data td_name td_description td_permission td_fire_mode td_max_duration] in IH.
    destruct IH as (I1 & I2 & I3 & I4 & I5 & I6). unfold task_definition_entry in E.
    repeat match type of E with context [String.eqb k ?x] => destruct (String.eqb_spec k x) as [->|]; [
      match type of E with context [let? _ := ?r in _] => destruct r eqn:R; [|discriminate E] end;
      injection E as <-; cbn [td_data td_name td_description td_permission td_fire_mode td_max_duration String.eqb Ascii.eqb Bool.eqb]; splits; assumption|] end.
    discriminate E.
Qed.
Print Assumptions C90_members.
Example C90_case : exists d, task_definition_of_json (JObj [("name", JStr "t"); ("fire_mode", JObj [("Repetitive", JInt 60)])]) = Some d
  /\ td_name d = "t" /\ td_fire_mode d = Repetitive 60 /\ td_permission d = Administrator /\ td_data d = TD_UPDATE_GEOIP.
Proof. eexists. split; [vm_compute; reflexivity|]. splits; reflexivity. Qed.

(** * C91: rules *)
Definition rule_roundtrip := forall io compiles r, rule_ok r -> (forall x, float_reads io x x) -> (forall s, compiles s = true) ->
  exists r', rule_of_json io compiles (json_of_rule r) = Some r' /\ forall l ds, rule_matches r' l ds = rule_matches r l ds.
(** What a rule becomes: the same but for the values in comparisons, as in C86; an expression that does not compile, or a
    network test, makes it unreadable. *)
Theorem C91_becomes : forall io compiles r r', rule_ok r ->
  (rule_of_json io compiles (json_of_rule r) = Some r' <-> rule_becomes io compiles r r').
Proof. exact rule_reads. Qed.
Print Assumptions C91_becomes.
(** When it can be read it decides as before on every log. *)
Theorem C91_same_matches : forall io compiles r r', rule_ok r ->
  rule_of_json io compiles (json_of_rule r) = Some r' -> forall l ds, rule_matches r' l ds = rule_matches r l ds.
Proof. intros io compiles r r' K E l ds. apply (rule_reads io compiles r r' K) in E. exact (rule_same io compiles r r' l ds E). Qed.
Print Assumptions C91_same_matches.
Theorem C148_networks_refuted : forall io compiles r name s c ip bits, rule_ok r ->
  In (name, s) (ru_subrules r) -> In c (sr_conditions s) -> inside (OSameNet ip bits) (rc_op c) ->
  rule_of_json io compiles (json_of_rule r) = None.
Proof.
  intros io compiles r name s c ip bits K I J L. destruct (rule_of_json io compiles (json_of_rule r)) as [r'|] eqn:E; [|reflexivity].
  apply (rule_reads io compiles r r' K) in E. destruct E as (_ & _ & _ & _ & _ & _ & _ & E).
  destruct (Forall2_In_l _ _ _ _ E I) as (e & _ & _ & C & _). cbn [snd] in C. destruct (Forall2_In_l _ _ _ _ C J) as (c' & _ & _ & B).
  destruct (same_net_lost io compiles _ _ ip bits B L).
Qed.
Print Assumptions C148_networks_refuted.
Theorem C91_identity : forall io compiles r r', rule_ok r -> rule_of_json io compiles (json_of_rule r) = Some r' ->
  ru_id r' = ru_id r /\ ru_name r' = ru_name r /\ ru_description r' = ru_description r /\ ru_mitre r' = ru_mitre r
  /\ ru_needed_datasets r' = ru_needed_datasets r /\ ru_conditions r' = ru_conditions r /\ ru_alert r' = ru_alert r
  /\ map fst (ru_subrules r') = map fst (ru_subrules r).
Proof.
  intros io compiles r r' K E. apply (rule_reads io compiles r r' K) in E. destruct E as (A1 & A2 & A3 & A4 & A5 & A6 & A7 & E).
  splits; auto. clear - E. induction E as [|e e' l l' [N _] E IH]; simpl; congruence.
Qed.
Print Assumptions C91_identity.
Definition net_rule (o : rule_op) : siem_rule :=
  mkRule "id" "name" "text" (mkMitre [] []) [] [("sub", mkSub [mkCond "source.ip" o] None)] [["sub"]] (mkAlert [AText "t"] HIGH [] None).
Theorem C148_roundtrip_refuted : ~ rule_roundtrip.
Proof.
  intros H. destruct (H exact_io (fun _ => true) (net_rule (OSameNet (V4 1) 8))) as (r' & E & _); auto.
  - split; [repeat constructor|]. split; [|intros a [=]]. intros e c [<-|[]] [<-|[]] p J. inversion J; subst; cbn; auto.
  - reflexivity.
  - vm_compute in E. discriminate.
Qed.
Print Assumptions C148_roundtrip_refuted.
Example C91_case :
  let r := net_rule (OAny [OEquals (Domain "a.com"); OMatches "a+"; ONot (OIsLocalIp true)]) in
  rule_ok r /\ rule_of_json exact_io (fun _ => true) (json_of_rule r) = Some (net_rule (OAny [OEquals (Text "a.com"); OMatches "a+"; ONot (OIsLocalIp true)])).
Proof.
  cbv zeta. split; [|vm_compute; reflexivity]. split; [repeat constructor|]. split; [|intros a [=]].
  intros e c [<-|[]] [<-|[]] p J. cbn in J.
  repeat match goal with
  | H : inside _ (OAny _) |- _ => inversion H; subst; clear H
  | H : inside _ (ONot _) |- _ => inversion H; subst; clear H
  | H : inside _ (OEquals _) |- _ => inversion H; subst; clear H
  | H : inside _ (OMatches _) |- _ => inversion H; subst; clear H
  | H : inside _ (OIsLocalIp _) |- _ => inversion H; subst; clear H
  | H : In _ (_ :: _) |- _ => destruct H as [<-|H]
  | H : In _ [] |- _ => destruct H
  end; cbn; auto.
Qed.

(** * C92: messages *)
Definition message_ok (m : siem_message) : Prop :=
  match m with
  | MCommand h c => header_ok h /\ call_ok c
  | MResponse h r => header_ok h /\ response_ok r
  | MLog l => log_good l
  | MNotification n => notification_ok n
  | MDataset _ => True
  | MAlert a => log_good (a_log a)
  | MTask h t => header_ok h /\ task_ok t
  | MTaskResult h r => header_ok h /\ task_result_ok r
  end.
Definition message_through (io : float_io) (m : siem_message) : option siem_message :=
  let? j := json_of_message m in message_of_json io j.
Definition message_roundtrip := forall io m, message_ok m -> (forall x, float_reads io x x) -> message_through io m = Some m.
(** Notifications, tasks, their results and commands without an address arrive as they were sent. *)
Theorem C92_roundtrip : forall io m, message_ok m ->
  match m with
  | MCommand _ c => ~ carries_ip c
  | MResponse _ r => forall q rows, r <> R_LOG_QUERY q (Ok rows)
  | MNotification _ | MTask _ _ | MTaskResult _ _ => True
  | MLog _ | MDataset _ | MAlert _ => False
  end -> message_through io m = Some m.
Proof.
  intros io m K N. unfold message_through, message_of_json. destruct m; try contradiction; cbn [json_of_message message_ok] in *; choose.
  - destruct K as [H C]. cbn [pair_v read_pair]. rewrite (header_rt _ H), (call_rt _ C N). reflexivity.
  - destruct K as [H C]. cbn [pair_v read_pair]. rewrite (header_rt _ H), (C89_roundtrip io _ C N). reflexivity.
  - rewrite (notification_rt _ K). reflexivity.
  - destruct K as [H C]. cbn [pair_v read_pair]. rewrite (header_rt _ H), (task_rt _ C). reflexivity.
  - destruct K as [H C]. cbn [pair_v read_pair]. rewrite (header_rt _ H), (task_result_rt _ C). reflexivity.
Qed.
Print Assumptions C92_roundtrip.
(** A log arrives exactly when it can be read (C87), and an alert when its log can; everything else in it is as it was. *)
Theorem C92_logs_and_alerts : forall io,
  (forall l m, message_through io (@MLog siem_payloads l) = Some m <-> exists l', log_of_json io (json_of_log l) = Some l' /\ m = MLog l')
  /\ (forall a m, i64_ok (a_date a) -> (forall g, a_aggregation a = Some g -> aggregation_ok g) ->
      (message_through io (@MAlert siem_payloads a) = Some m <-> exists l', log_of_json io (json_of_log (a_log a)) = Some l'
         /\ m = @MAlert siem_payloads (Alert (a_title a) (a_description a) (a_severity a) (a_date a) (a_tags a) (a_techniques a) (a_rule a) l' (a_aggregation a)))).
Proof.
  intros io. split.
  - intros l m. unfold message_through, message_of_json. cbn [json_of_message]. choose.
    destruct (log_of_json io (json_of_log l)) as [l'|]; split; try (intros (x & Y & _); discriminate); try discriminate.
    + intros [= <-]. eauto.
    + intros (x & [= <-] & ->). reflexivity.
  - intros a m D G. unfold message_through, message_of_json. cbn [json_of_message]. choose. rewrite (alert_reads io a D G).
    destruct (log_of_json io (json_of_log (a_log a))) as [l'|]; split; try (intros (x & Y & _); discriminate); try discriminate.
    + intros [= <-]. eauto.
    + intros (x & [= <-] & ->). reflexivity.
Qed.
Print Assumptions C92_logs_and_alerts.
(** Datasets cannot be written, and logs and alerts cannot be read when their log has a field that is no list of one text. *)
Theorem C149_lost_refuted : forall io m, message_ok m ->
  match m with
  | MCommand _ c => carries_ip c
  | MLog l => exists name f, log_field name l = Some f /\ forall s, f <> Array [s]
  | MAlert a => exists name f, log_field name (a_log a) = Some f /\ forall s, f <> Array [s]
  | MDataset _ => True
  | _ => False
  end -> message_through io m = None.
Proof.
  intros io m K N. unfold message_through, message_of_json. destruct m; try contradiction; cbn [json_of_message message_ok] in *; choose.
  - destruct K as [H C]. cbn [pair_v read_pair]. rewrite (header_rt _ H), (call_ip_fails _ N). reflexivity.
  - destruct N as (name & f & E & N). rewrite (C144_unreadable_refuted io _ name f K E N). reflexivity.
  - reflexivity.
  - destruct N as (name & f & E & N). rewrite (alert_fails io _ (C144_unreadable_refuted io _ name f K E N)). reflexivity.
Qed.
Print Assumptions C149_lost_refuted.
Theorem C149_roundtrip_refuted : ~ message_roundtrip.
Proof.
  intros H. specialize (H exact_io (MLog (log_new "m" 0 "o"))). assert (K : log_good (log_new "m" 0 "o")).
  { apply log_new_good. unfold i64_ok. lia. }
  specialize (H K (fun _ => eq_refl)). rewrite C149_lost_refuted in H; [discriminate|exact K|]. exists "message", (Text "m"). split; [reflexivity|discriminate].
Qed.
Print Assumptions C149_roundtrip_refuted.
Definition a_task_result : siem_message := @MTaskResult siem_payloads (Header "u" 1 2) (TaskResult 3 (Some (Err "no"))).
Example C92_case : message_through exact_io a_task_result = Some a_task_result /\ message_ok a_task_result
  /\ message_through exact_io (MCommand (Header "u" 1 2) (C_FILTER_IP (Commented (V4 1) "why"))) = None.
Proof. splits; try (vm_compute; reflexivity). cbn. unfold header_ok, task_result_ok, u64_ok. cbn. lia. Qed.
