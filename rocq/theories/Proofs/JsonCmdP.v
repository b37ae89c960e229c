(** Reading back commands, responses, tasks, alerts and messages. *)
From Coq Require Import String Ascii NArith ZArith List Bool Lia.
From Verif Require Import Base.Arith Base.Ord Base.BTree Base.Str Base.Outcome Model.Ip Model.Field Model.Log
  Model.DatasetTypes Model.Mitre Model.Rule Model.Command Model.Component Model.Payloads Model.Json Model.JsonField Model.JsonCommand
  Spec.JsonSpec Proofs.JsonP.
Import ListNotations.
Local Open Scope string_scope.
Local Open Scope list_scope.

(** Compute the choice of fields and variants, whose names are all literals. *)
Ltac fields := lazy beta iota zeta delta [struct_fields mapM once entries map filter fst snd String.eqb Ascii.eqb Bool.eqb req].
Ltac choose := lazy beta iota zeta delta [read_enum read_unit_enum variant pick fst snd String.eqb Ascii.eqb Bool.eqb tagged newtype_v pair_v
  unit_v empty_v read_pair map].

Lemma role_rt r : role_of_json (json_of_role r) = Some r.
Proof. destruct r; reflexivity. Qed.
Lemma level_rt l : level_of_json (json_of_level l) = Some l.
Proof. destruct l; reflexivity. Qed.
Lemma severity_rt l : severity_of_json (json_of_severity l) = Some l.
Proof. destruct l; reflexivity. Qed.
Lemma tactic_rt t : tactic_of_json (json_of_tactic t) = Some t.
Proof. destruct t; vm_compute; reflexivity. Qed.
Lemma technique_rt t : technique_of_json (json_of_technique t) = Some t.
Proof. destruct t; vm_compute; reflexivity. Qed.
Lemma type_rt t : type_of_json (json_of_type t) = Some t.
Proof. destruct t; reflexivity. Qed.
Lemma function_rt f : function_of_json (json_of_function f) = Some f.
Proof. destruct f; reflexivity. Qed.
Lemma task_type_rt t : task_type_of_json (json_of_task_type t) = Some t.
Proof. destruct t; reflexivity. Qed.

Lemma task_data_rt d : task_data_ok d -> task_data_of_json (json_of_task_data d) = Some d.
Proof.
  destruct d; intros W; unfold task_data_of_json, json_of_task_data; choose; cbn [read_str];
    try reflexivity; rewrite (params_ok _ W); reflexivity.
Qed.
Lemma task_rt t : task_ok t -> task_of_json (json_of_task t) = Some t.
Proof.
  intros (A & B & C & D). destruct t as [c e o i d]. cbn in A, B, C, D. unfold task_of_json, json_of_task.
  cbn [t_created_at t_enqueued_at t_origin t_id t_data]. fields.
  rewrite (read_i64_ok _ A), (read_i64_ok _ B). cbn [read_str]. rewrite (read_u64_ok _ C), (task_data_rt _ D). reflexivity.
Qed.
Lemma pagination_rt p : pagination_ok p -> pagination_of_json (json_of_pagination p) = Some p.
Proof.
  intros (A & B). destruct p as [o l]. cbn in A, B. unfold pagination_of_json, json_of_pagination. cbn [pg_offset pg_limit]. fields.
  rewrite (read_u32_ok _ A), (read_u32_ok _ B). reflexivity.
Qed.
Lemma login_rt u : login_of_json (json_of_login u) = Some u.
Proof. destruct u; reflexivity. Qed.
Lemma query_rt q : query_ok q -> query_of_json (json_of_query q) = Some q.
Proof.
  intros (A & B & C & D & E). destruct q as [x1 x2 x3 x4 x5 x6 x7 x8 x9 x10]. cbn in A, B, C, D, E. unfold query_of_json, json_of_query.
  cbn [q_user q_is_native q_query_id q_from q_to q_limit q_offset q_ttl q_query q_fields]. fields.
  cbn [read_str read_bool]. rewrite opt_str_ok, (read_i64_ok _ A), (read_i64_ok _ B), (read_u64_ok _ C), (read_u64_ok _ D), (read_i64_ok _ E),
    read_strings_ok. reflexivity.
Qed.
Lemma commented_str_rt key (x : commented string) : key <> "comment" -> commented_of_json key read_str (json_of_commented key JStr x) = Some x.
Proof.
  intros N. destruct x as [x c]. unfold commented_of_json, json_of_commented, struct_fields. cbn [what comment mapM].
  unfold entries. cbn [filter fst]. rewrite String.eqb_refl. destruct (String.eqb_spec "comment" key); [congruence|].
  destruct (String.eqb_spec key "comment"); [congruence|]. reflexivity.
Qed.
Lemma commented_ip_fails key (x : commented siem_ip) : key <> "comment" -> commented_of_json key ip_of_json (json_of_commented key json_of_ip x) = None.
Proof.
  intros N. destruct x as [x c]. unfold commented_of_json, json_of_commented, struct_fields. cbn [what comment mapM].
  unfold entries. cbn [filter fst]. rewrite String.eqb_refl. destruct (String.eqb_spec "comment" key); [congruence|].
  destruct (String.eqb_spec key "comment"); [congruence|]. cbn [map snd once mapM req filter fst]. rewrite String.eqb_refl. cbn [map snd once req].
  rewrite ip_never. reflexivity.
Qed.

Lemma call_ip_fails c : carries_ip c -> call_of_json (json_of_call c) = None.
Proof.
  intros [(x & ->)|(x & ->)]; unfold call_of_json, json_of_call; choose; rewrite commented_ip_fails by discriminate; reflexivity.
Qed.
Lemma call_rt c : call_ok c -> ~ carries_ip c -> call_of_json (json_of_call c) = Some c.
Proof.
  intros K N. destruct c; cbn [call_ok] in K; try (exfalso; apply N; unfold carries_ip; eauto; fail);
    unfold call_of_json, json_of_call; choose; cbn [read_str]; try reflexivity.
  - rewrite (query_rt _ K). reflexivity.
  - rewrite commented_str_rt by discriminate. reflexivity.
  - rewrite commented_str_rt by discriminate. reflexivity.
  - rewrite commented_str_rt by discriminate. reflexivity.
  - rewrite (pagination_rt _ K). reflexivity.
  - rewrite (pagination_rt _ K). reflexivity.
  - rewrite (pagination_rt _ K). reflexivity.
  - rewrite (pagination_rt _ K). reflexivity.
  - rewrite (pagination_rt _ K). reflexivity.
  - rewrite login_rt. reflexivity.
  - rewrite (task_rt _ K). reflexivity.
  - rewrite (read_u64_ok _ K). reflexivity.
  - rewrite (params_ok _ K). reflexivity.
Qed.
Lemma header_rt h : header_ok h -> header_of_json (json_of_header h) = Some h.
Proof.
  intros (A & B). destruct h as [u a b]. cbn in A, B. unfold header_of_json, json_of_header. cbn [h_user h_comp_id h_comm_id]. fields.
  cbn [read_str]. rewrite (read_u64_ok _ A), (read_u64_ok _ B). reflexivity.
Qed.

(** * Responses *)
Lemma command_error_rt e : command_error_of_json (json_of_command_error e) = Some e.
Proof. destruct e; reflexivity. Qed.
Lemma result_rt {T} (w : T -> json) (r : json -> option T) (x : command_result T) :
  (forall a, x = Ok a -> r (w a) = Some a) -> command_result_of_json r (json_of_command_result w x) = Some x.
Proof.
  intros H. destruct x as [a|e]; unfold command_result_of_json, json_of_command_result, tagged.
  - change (String.eqb "ok" "ok") with true. cbv iota. rewrite (H a eq_refl). reflexivity.
  - change (String.eqb "err" "ok") with false. change (String.eqb "err" "err") with true. cbv iota.
    rewrite command_error_rt. reflexivity.
Qed.
Lemma text_result_rt (x : command_result string) : command_result_of_json read_str (json_of_command_result JStr x) = Some x.
Proof. apply result_rt. reflexivity. Qed.
Lemma named_rt n : named_of_json (json_of_named n) = Some n.
Proof. destruct n; reflexivity. Qed.
Lemma rule_definition_rt d : rule_definition_of_json (json_of_rule_definition d) = Some d.
Proof.
  destruct d as [n d [m1 m2] s]. unfold rule_definition_of_json, json_of_rule_definition. cbn [rd_name rd_description rd_mitre rd_service fst snd].
  fields. cbn [read_str read_pair]. rewrite (read_list_ok tactic_of_json json_of_tactic) by (intros; apply tactic_rt).
  rewrite (read_list_ok technique_of_json json_of_technique) by (intros; apply technique_rt). reflexivity.
Qed.
Lemma requirements_rt r : requirements_of_json (json_of_requirements r) = Some r.
Proof.
  destruct r as [p s c]. unfold requirements_of_json, json_of_requirements. cbn [rq_product rq_service rq_category]. fields.
  rewrite !opt_str_ok. reflexivity.
Qed.
Lemma use_case_rt u : use_case_of_json (json_of_use_case u) = Some u.
Proof.
  destruct u as [x1 x2 x3 x4 x5 x6]. unfold use_case_of_json, json_of_use_case. cbn [uc_name uc_description uc_case_logic uc_limitations uc_requirements uc_rule].
  fields. cbn [read_str]. rewrite requirements_rt. reflexivity.
Qed.
Lemma dataset_definition_rt d : dataset_definition_of_json (json_of_dataset_definition d) = Some d.
Proof.
  destruct d as [x1 x2 x3]. unfold dataset_definition_of_json, json_of_dataset_definition. cbn [dd_name dd_description dd_permission]. fields.
  cbn [read_str]. rewrite type_rt, role_rt. reflexivity.
Qed.
Lemma command_definition_rt d : command_definition_of_json (json_of_command_definition d) = Some d.
Proof.
  destruct d as [x1 x2 x3 x4]. unfold command_definition_of_json, json_of_command_definition. cbn [cd_class cd_name cd_description cd_permission]. fields.
  cbn [read_str]. rewrite function_rt, role_rt. reflexivity.
Qed.
Lemma logged_on_rt l : logged_on_of_json (json_of_logged_on l) = Some l.
Proof.
  destruct l as [x1 x2]. unfold logged_on_of_json, json_of_logged_on. cbn [lo_username lo_role]. fields. cbn [read_str]. rewrite role_rt. reflexivity.
Qed.
Lemma task_result_rt r : task_result_ok r -> task_result_of_json (json_of_task_result r) = Some r.
Proof.
  intros K. destruct r as [i d]. unfold task_result_ok in K. cbn in K. unfold task_result_of_json, json_of_task_result. cbn [tr_id tr_data]. fields.
  rewrite (read_u64_ok _ K). unfold opt. rewrite (read_option_ok result_of_json json_of_result d); [reflexivity|..].
  - intros []; discriminate.
  - intros [] _; reflexivity.
Qed.

Lemma row_reads io m m' : row_ok m -> (row_of_json io (json_of_row m) = Some m' <-> row_becomes io m m').
Proof.
  intros (W & F). unfold row_of_json, json_of_row, read_map, json_of_map, row_becomes.
  assert (G : forall es, mapM (fun e : string * json => let? a := field_of_json io (snd e) in Some (fst e, a))
      (map (fun e : string * field => (fst e, json_of_field (snd e))) m) = Some es
      <-> Forall2 (fun a b : string * field => fst a = fst b /\ becomes io (snd a) (snd b)) m es).
  { intros es. rewrite mapM_some. clear W. revert es. induction m as [|[k f] r IH]; intros es; cbn [map fst snd].
    - split; inversion 1; constructor.
    - inversion F as [|? ? K F']; subst. cbn [snd] in K. split; inversion 1 as [|? y ? ys E T]; subst; cbn [fst snd] in *; constructor; try (apply IH; assumption).
      + destruct (field_of_json io (json_of_field f)) as [g|] eqn:X; [|discriminate]. injection E as <-. simpl. split; auto. apply field_reads; auto.
      + destruct y as [k' g]. cbn [fst snd] in E. destruct E as [-> B]. apply field_reads in B; [|exact K]. cbn [fst snd]. rewrite B. reflexivity. }
  assert (S : forall es, Forall2 (fun a b : string * field => fst a = fst b /\ becomes io (snd a) (snd b)) m es -> bt_wf es).
  { clear G F. induction m as [|e r IH]; intros es T; inversion T as [|? y ? ys E T']; subst; [constructor|].
    inversion W as [|? ? W' F]; subst. constructor; [exact (IH W' _ T')|]. clear - E F T'. destruct E as [E _].
    revert F. induction T' as [|a b r ys [E2 _] T' IH]; intros F; constructor; inversion F; subst; auto.
    unfold key_lt in *. rewrite <- E, <- E2. assumption. }
  split.
  - destruct (mapM _ _) as [es|]; [|discriminate]. intros [= <-]. pose proof (proj1 (G es) eq_refl) as E. rewrite of_list_sorted; eauto.
  - intros T. pose proof (proj2 (G m') T) as E. rewrite E. rewrite of_list_sorted; eauto.
Qed.
Lemma rows_reads io l l' : Forall row_ok l ->
  (read_list (row_of_json io) (json_of_list json_of_row l) = Some l' <-> Forall2 (row_becomes io) l l').
Proof.
  intros F. unfold read_list, json_of_list. rewrite mapM_some. revert l'. induction l as [|m r IH]; intros l'; simpl.
  - split; inversion 1; constructor.
  - inversion F as [|? ? K F']; subst. split; inversion 1; subst; constructor; try (apply IH; assumption); apply row_reads; assumption.
Qed.

Lemma response_reads io r r' : response_ok r ->
  (response_of_json io (json_of_response r) = Some r' <-> response_becomes io r r').
Proof.
  intros K.
  assert (T : forall x : response, (forall q rows, r <> R_LOG_QUERY q (Ok rows)) ->
     response_of_json io (json_of_response r) = Some r -> (response_of_json io (json_of_response r) = Some r' <-> response_becomes io r r')).
  { intros x N E. rewrite E. split; [intros [= <-]; apply RB_same; exact N|]. inversion 1; subst; [|reflexivity].
    exfalso. eapply N. reflexivity. }
  destruct r as [x|x|q x|x|x|x|x|x|x|x|x|x|x|x|x|x|x|x|name x]; cbn [response_ok] in K;
    try (apply T; [exact (R_START_COMPONENT (Ok ""))|intros; discriminate|]; unfold response_of_json, json_of_response; choose;
         cbn [read_str];
         first [ rewrite text_result_rt; reflexivity
               | rewrite result_rt; [reflexivity|]; intros a ->;
                 first [ apply read_list_ok; intros; first [apply use_case_rt|apply rule_definition_rt|apply dataset_definition_rt|apply named_rt]
                       | apply use_case_rt | apply rule_definition_rt | apply logged_on_rt | apply read_u64_ok; exact K
                       | apply task_result_rt; exact K | apply params_ok; exact K ] ]; fail).
  destruct K as [Kq Kr]. destruct x as [rows|e].
  - unfold response_of_json, json_of_response. choose. rewrite (query_rt _ Kq).
    unfold command_result_of_json, json_of_command_result, tagged. change (String.eqb "ok" "ok") with true. cbv iota.
    cbn [result_ok] in Kr. split.
    + destruct (read_list (row_of_json io) (json_of_list json_of_row rows)) as [rows'|] eqn:E; [|discriminate].
      intros [= <-]. apply rows_reads in E; [|exact Kr]. constructor. exact E.
    + inversion 1 as [? ? rows' F|? N]; subst; [|exfalso; eapply N; reflexivity]. apply (rows_reads io _ _ Kr) in F. rewrite F. reflexivity.
  - apply T; [exact (R_START_COMPONENT (Ok ""))|intros; discriminate|]. unfold response_of_json, json_of_response. choose. rewrite (query_rt _ Kq).
    rewrite result_rt; [reflexivity|]. discriminate.
Qed.

(** * Task definitions *)
Lemma fire_mode_rt m : fire_mode_ok m -> fire_mode_of_json (json_of_fire_mode m) = Some m.
Proof.
  intros K. destruct m; cbn [fire_mode_ok] in K; unfold fire_mode_of_json, json_of_fire_mode; choose.
  - reflexivity.
  - destruct K as (A & B & C & D & E). unfold json_of_list. cbn [map]. unfold cron_of_json. cbn [mapM].
    rewrite (read_u32_ok _ A), (read_u32_ok _ B), (read_u32_ok _ C), (read_u32_ok _ D), (read_u32_ok _ E). reflexivity.
  - rewrite (read_u64_ok _ K). reflexivity.
  - rewrite (read_i64_ok _ K). reflexivity.
Qed.
Lemma task_definition_rt d : task_definition_ok d ->
  task_definition_of_json (json_of_task_definition d)
  = Some (TaskDef (td_data d) (td_name d) (td_description d) (td_permission d) (td_fire_mode d) (td_max_duration d) stub_builder).
Proof.
  intros (A & B & C). destruct d as [dt n ds p f m b]. cbn in A, B, C. unfold task_definition_of_json, json_of_task_definition.
  cbn [td_data td_name td_description td_permission td_fire_mode td_max_duration].
  lazy beta iota zeta delta [fold_left task_definition_entry task_definition_start String.eqb Ascii.eqb Bool.eqb].
  cbn [read_str]. rewrite (task_data_rt _ A), role_rt, (fire_mode_rt _ B), (read_u64_ok _ C). reflexivity.
Qed.

(** * Logs *)
Lemma ifield_reads io i i' : field_ok (original i) ->
  (ifield_of_json io (json_of_field (original i)) = Some i'
   <-> exists s, original i = Array [s] /\ i' = mkI (Text s) CNone CNone CNone CNone CNone CNone).
Proof.
  intros K. unfold ifield_of_json, struct_fields. split.
  - destruct (original i) as [|s|a|s|s|s|n|z|f|z|l|p]; try discriminate.
    + cbn [json_of_field]. unfold json_of_f64. destruct (is_finite f); discriminate.
    + cbn [json_of_field]. unfold json_of_strings, json_of_list. destruct l as [|s [|t r]]; try discriminate.
      cbn. intros [= <-]. eauto.
  - intros (s & -> & ->). reflexivity.
Qed.
Lemma log_reads io l l' : bt_wf (l_fields l) -> Forall (fun e => field_ok (original (snd e))) (l_fields l) ->
  log_of_json io (json_of_log l) = Some l' ->
  Forall2 (fun e e' => fst e' = fst e /\ exists s, original (snd e) = Array [s] /\ original (snd e') = Text s) (l_fields l) (l_fields l')
  /\ l_tags l' = [] /\ l_ip_fields l' = [].
Proof.
  intros W F. unfold log_of_json, json_of_log, read_map, json_of_map.
  destruct (mapM _ _) as [es|] eqn:E; [|discriminate]. intros [= <-]. simpl. split; [|split; reflexivity].
  apply mapM_some in E.
  assert (G : Forall2 (fun e e' => fst e' = fst e /\ exists s, original (snd e) = Array [s] /\ original (snd e') = Text s) (l_fields l) es).
  { revert es E. clear W. induction (l_fields l) as [|[k i] r IH]; intros es E; cbn [map fst snd] in E; inversion E as [|? y ? ys X T]; subst; constructor.
    - inversion F; subst. cbn [fst snd] in *. destruct (ifield_of_json io (json_of_field (original i))) as [i'|] eqn:Y; [|discriminate]. injection X as <-.
      apply ifield_reads in Y; [|assumption]. destruct Y as (s & A & ->). simpl. eauto.
    - inversion F; subst. apply IH; assumption. }
  rewrite of_list_sorted; [exact G|]. clear E F. revert es G W. generalize (l_fields l). intros m es G. induction G as [|e e' r r' [X _] G IH]; intros W; [constructor|].
  inversion W as [|? ? W' F]; subst. constructor; [exact (IH W')|]. clear - X F G. revert F. induction G as [|a b r r' [Y _] G IH]; intros F; constructor;
    inversion F; subst; auto. unfold key_lt in *. rewrite X, Y. assumption.
Qed.
Lemma log_fails io l name f : bt_wf (l_fields l) -> Forall (fun e => field_ok (original (snd e))) (l_fields l) ->
  log_field name l = Some f -> (forall s, f <> Array [s]) -> log_of_json io (json_of_log l) = None.
Proof.
  intros W F G N. destruct (log_of_json io (json_of_log l)) as [l'|] eqn:E; [|reflexivity].
  apply log_reads in E; [|exact W|exact F]. destruct E as [E _]. unfold log_field in G.
  destruct (bt_get name (l_fields l)) as [i|] eqn:X; [|discriminate]. injection G as <-. apply bt_get_In in X. exfalso.
  clear - E X N. induction E as [|e e' r r' [_ (s & A & _)] E IH]; [destruct X|]. destruct X as [->|X]; [|auto]. exact (N s A).
Qed.

Lemma log_readable io l : bt_wf (l_fields l) -> (forall e, In e (l_fields l) -> exists s, original (snd e) = Array [s]) ->
  exists l', log_of_json io (json_of_log l) = Some l'.
Proof.
  intros W H. unfold log_of_json, json_of_log.
  rewrite (read_map_some _ _ (fun i => mkI (match original i with Array [s] => Text s | f => f end) CNone CNone CNone CNone CNone CNone) _ W).
  - eauto.
  - intros e I. destruct (H e I) as (s & E). rewrite E. reflexivity.
Qed.
Lemma log_given io (es : bt string (json * field)) : bt_wf es -> (forall e, In e es -> field_of_json io (fst (snd e)) = Some (snd (snd e))) ->
  exists l, log_of_json io (JObj (map (fun e => (fst e, JObj [("original", fst (snd e))])) es)) = Some l
    /\ map (fun e => (fst e, original (snd e))) (l_fields l) = map (fun e => (fst e, snd (snd e))) es.
Proof.
  intros W H. unfold log_of_json, read_map.
  rewrite (mapM_map _ _ (fun e : string * (json * field) => (fst e, mkI (snd (snd e)) CNone CNone CNone CNone CNone CNone))).
  2: { intros [k [j f]] I. specialize (H _ I). cbn [fst snd] in *. unfold ifield_of_json, struct_fields, entries. cbn. rewrite H. reflexivity. }
  eexists. split; [reflexivity|]. cbn [l_fields]. rewrite of_list_sorted; [rewrite map_map; reflexivity|].
  clear H. induction es as [|e m IH]; [constructor|]. inversion W as [|? ? S F]; subst. simpl. constructor; [exact (IH S)|].
  rewrite Forall_map. eapply Forall_impl; [|exact F]. intros x L. exact L.
Qed.

(** * Alerts and messages *)
Lemma aggregation_rt a : aggregation_ok a -> aggregation_of_json (json_of_aggregation a) = Some a.
Proof.
  intros K. destruct a as [l k]. unfold aggregation_ok in K. cbn in K. unfold aggregation_of_json, json_of_aggregation. cbn [ag_limit ag_key]. fields.
  rewrite (read_i64_ok _ K). reflexivity.
Qed.
Lemma notification_rt n : notification_ok n -> notification_of_json (json_of_notification n) = Some n.
Proof.
  intros (A & B). destruct n as [x1 x2 x3 x4 x5]. cbn in A, B. unfold notification_of_json, json_of_notification.
  cbn [n_timestamp n_component n_component_name n_log n_level]. fields. cbn [read_str].
  rewrite (read_i64_ok _ A), (read_u64_ok _ B), level_rt. reflexivity.
Qed.
Lemma alert_fails io a : log_of_json io (json_of_log (a_log a)) = None -> alert_of_json io (json_of_alert a) = None.
Proof.
  intros H. destruct a as [x1 x2 x3 x4 x5 x6 x7 x8 x9]. cbn [a_log] in H. unfold alert_of_json, json_of_alert.
  cbn [a_title a_description a_severity a_date a_tags a_techniques a_rule a_log a_aggregation]. fields. cbn [read_str].
  rewrite severity_rt. destruct (read_i64 (JInt x4)); [|reflexivity]. rewrite read_strings_ok.
  rewrite (read_list_ok technique_of_json json_of_technique) by (intros; apply technique_rt). rewrite H. reflexivity.
Qed.

Lemma alert_reads io a : i64_ok (a_date a) -> (forall g, a_aggregation a = Some g -> aggregation_ok g) ->
  alert_of_json io (json_of_alert a) =
  match log_of_json io (json_of_log (a_log a)) with
  | Some l => Some (Alert (a_title a) (a_description a) (a_severity a) (a_date a) (a_tags a) (a_techniques a) (a_rule a) l (a_aggregation a))
  | None => None
  end.
Proof.
  intros D G. destruct a as [x1 x2 x3 x4 x5 x6 x7 x8 x9]. cbn [a_date a_aggregation] in D, G. unfold alert_of_json, json_of_alert.
  cbn [a_title a_description a_severity a_date a_tags a_techniques a_rule a_log a_aggregation]. fields. cbn [read_str].
  rewrite severity_rt, (read_i64_ok _ D), read_strings_ok.
  rewrite (read_list_ok technique_of_json json_of_technique) by (intros; apply technique_rt).
  destruct (log_of_json io (json_of_log x8)) as [l|]; [|reflexivity].
  destruct x9 as [g|]; [|reflexivity]. cbn [json_of_option].
  assert (E : read_option aggregation_of_json (json_of_aggregation g) = Some (Some g)).
  { unfold read_option. rewrite (aggregation_rt g (G g eq_refl)). reflexivity. }
  cbn [opt]. rewrite E. reflexivity.
Qed.

Lemma forall_insert {A} (P : string * A -> Prop) k v m : P (k, v) -> Forall P m -> Forall P (bt_insert k v m).
Proof.
  intros H F. induction F as [|[k' v'] r H' F IH]; cbn [bt_insert]; [repeat constructor; exact H|].
  destruct (cmp k k'); constructor; auto.
Qed.
