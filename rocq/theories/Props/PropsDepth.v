(** C187 and C188: how deeply what is written nests, and the limit of serde_json's reader. *)
From Coq Require Import String NArith ZArith List Bool Arith Lia.
From Verif Require Import Base.Arith Base.Ord Base.BTree Base.Outcome Model.Ip Model.Field Model.Log Model.DatasetTypes Model.Rule Model.Command
  Model.Component Model.Payloads Model.Sigma Model.Schema Model.Events Model.Json Model.JsonField Model.JsonCommand Model.JsonEvent
  Model.JsonMore Model.JsonRule Model.JsonSigma Model.Testing Model.GeoIp Model.JsonText Spec.DepthSpec Proofs.RuleP Props.PropsSigmaJson.
Import ListNotations.
Local Open Scope list_scope.

(** * The limit *)

Lemma max_le {A} (f : A -> nat) l n : fold_right Nat.max 0 (map f l) <= n <-> Forall (fun a => f a <= n) l.
Proof.
  induction l as [|a l IH]; cbn [map fold_right]; [split; [constructor|lia]|].
  rewrite Nat.max_lub_iff, Forall_cons_iff, IH. reflexivity.
Qed.
Section json_ind.
  Variable P : json -> Prop.
  Hypothesis HN : P JNull. Hypothesis HB : forall b, P (JBool b). Hypothesis HI : forall z, P (JInt z).
  Hypothesis HF : forall f, P (JFloat f). Hypothesis HS : forall s, P (JStr s).
  Hypothesis HA : forall l, Forall P l -> P (JArr l). Hypothesis HO : forall l, Forall (fun e => P (snd e)) l -> P (JObj l).
  Fixpoint json_ind' (j : json) : P j :=
    match j with
    | JNull => HN | JBool b => HB b | JInt z => HI z | JFloat f => HF f | JStr s => HS s
    | JArr l => HA l ((fix go l : Forall P l := match l with [] => Forall_nil _ | x :: r => Forall_cons x (json_ind' x) (go r) end) l)
    | JObj l => HO l ((fix go l : Forall (fun e => P (snd e)) l :=
                         match l with [] => Forall_nil _ | x :: r => Forall_cons x (json_ind' (snd x)) (go r) end) l)
    end.
End json_ind.

Lemma depth_nested j : forall n, nested n j <-> depth j <= n.
Proof.
  induction j as [| | | | |l IH|l IH] using json_ind'; intros n; try (split; [cbn; lia|constructor]).
  - cbn [depth]. split.
    + inversion 1; subst. apply le_n_S. apply max_le. rewrite Forall_forall in *. intros x I. apply IH; auto.
    + destruct n as [|n]; [lia|]. intros H%le_S_n. apply max_le in H. constructor. rewrite Forall_forall in *. intros x I. apply IH; auto.
  - cbn [depth]. split.
    + inversion 1; subst. apply le_n_S. apply max_le. rewrite Forall_forall in *. intros x I. apply (IH x I); auto.
    + destruct n as [|n]; [lia|]. intros H%le_S_n. apply max_le in H. constructor. rewrite Forall_forall in *. intros x I. apply (IH x I), (H x I).
Qed.
Lemma nested_more n m j : nested n j -> n <= m -> nested m j.
Proof. rewrite !depth_nested. lia. Qed.

(** A document is read from a text exactly as its tree is, if it has at most 127 arrays and objects inside each other, and
    refused otherwise *)
Theorem C187_limit : forall (A : Type) (r : json -> option A) j,
  (nested 127 j -> from_text r j = r j) /\ (~ nested 127 j -> from_text r j = None).
Proof.
  intros A r j. unfold from_text. rewrite depth_nested. destruct (Nat.ltb_spec (depth j) 128); split; intros; try reflexivity; lia.
Qed.
Example C187_limit_case : from_text read_bool (JBool true) = Some true
  /\ from_text (fun j => Some j) (Nat.iter 127 (fun j => JArr [j]) JNull) <> None /\ from_text (fun j => Some j) (Nat.iter 128 (fun j => JArr [j]) JNull) = None.
Proof. splits; [reflexivity|vm_compute; discriminate|vm_compute; reflexivity]. Qed.

(** * What is written *)

Lemma nested_option {A} (w : A -> json) n o : (forall a, nested n (w a)) -> nested n (json_of_option w o).
Proof. destruct o; cbn; [auto|constructor]. Qed.
Lemma nested_list {A} (w : A -> json) n l : (forall a, nested n (w a)) -> nested (S n) (json_of_list w l).
Proof. intros H. constructor. apply Forall_map, Forall_forall. auto. Qed.
Lemma nested_map {A} (w : A -> json) n m : (forall a, nested n (w a)) -> nested (S n) (json_of_map w m).
Proof. intros H. constructor. apply Forall_map, Forall_forall. cbn. auto. Qed.
Lemma nested_tagged tag n j : nested n j -> nested (S n) (tagged tag j).
Proof. intros H. constructor. repeat constructor. exact H. Qed.
Lemma nested_f64 n f : nested n (json_of_f64 f).
Proof. unfold json_of_f64. destruct is_finite; constructor. Qed.
Lemma nested_f32 t n f : nested n (json_of_f32 t f).
Proof. unfold json_of_f32. destruct is_finite; constructor. Qed.

Ltac nest :=
  repeat (cbn [fst snd]; first
    [ assumption
    | match goal with |- forall _, _ => intro end
    | apply nested_f64 | apply nested_f32 | apply nested_tagged | apply nested_option | apply nested_list | apply nested_map
    | match goal with |- Forall _ [] => constructor | |- Forall _ (_ :: _) => constructor
        | |- nested _ (JObj _) => constructor | |- nested _ (JArr _) => constructor | |- nested _ (JStr _) => constructor
        | |- nested _ (JInt _) => constructor | |- nested _ (JBool _) => constructor | |- nested _ JNull => constructor end ]).
Ltac more H := eapply nested_more; [apply H|lia].

Lemma d_field f : nested 1 (json_of_field f).
Proof. destruct f; unfold json_of_field, json_of_ip, json_of_n, json_of_strings; nest. Qed.
Lemma d_row m : nested 2 (json_of_row m).
Proof. unfold json_of_row. nest. apply d_field. Qed.
Lemma d_log l : nested 2 (json_of_log l).
Proof. unfold json_of_log. nest. apply d_field. Qed.
Lemma d_type t : nested 1 (json_of_type t).
Proof. destruct t; unfold json_of_type; nest. Qed.
Lemma d_function f : nested 1 (json_of_function f).
Proof. destruct f; unfold json_of_function; nest. Qed.
Lemma d_task_data d : nested 3 (json_of_task_data d).
Proof. destruct d; unfold json_of_task_data, json_of_params; nest. Qed.
Lemma d_task t : nested 4 (json_of_task t).
Proof. unfold json_of_task, json_of_n. nest. apply d_task_data. Qed.
Lemma d_query q : nested 2 (json_of_query q).
Proof. unfold json_of_query, json_of_n, json_of_strings. nest. Qed.
Lemma d_call c : nested 5 (json_of_call c).
Proof.
  destruct c; unfold json_of_call; apply nested_tagged; unfold json_of_commented, json_of_ip, json_of_pagination, json_of_n, json_of_params; nest.
  - more d_query.
  - destruct u; unfold json_of_login; nest.
  - more d_task.
Qed.
Lemma d_header h : nested 1 (json_of_header h).
Proof. unfold json_of_header, json_of_n. nest. Qed.
Lemma d_result {T} (w : T -> json) n r : (forall a, nested (S n) (w a)) -> nested (S (S n)) (json_of_command_result w r).
Proof. intros H. destruct r as [a|[s|s|s]]; unfold json_of_command_result; apply nested_tagged; [auto|..]; unfold json_of_command_error; nest. Qed.
Lemma d_use_case u : nested 2 (json_of_use_case u).
Proof. unfold json_of_use_case, json_of_requirements. nest. Qed.
Lemma d_rule_definition u : nested 3 (json_of_rule_definition u).
Proof. unfold json_of_rule_definition, json_of_tactic, json_of_technique. nest. Qed.
Lemma d_dataset_definition d : nested 2 (json_of_dataset_definition d).
Proof. unfold json_of_dataset_definition, json_of_role. nest. apply d_type. Qed.
Lemma d_command_definition d : nested 2 (json_of_command_definition d).
Proof. unfold json_of_command_definition, json_of_role. nest. apply d_function. Qed.
Lemma d_task_result r : nested 2 (json_of_task_result r).
Proof. unfold json_of_task_result, json_of_n, json_of_result. nest. destruct a; nest. Qed.
Lemma d_response r : nested 6 (json_of_response r).
Proof.
  destruct r; unfold json_of_response, json_of_params; apply nested_tagged;
    try (apply (d_result _ 3); intros; unfold json_of_logged_on, json_of_role, json_of_named, json_of_n; nest).
  1: { nest. more d_query. apply (d_result _ 2). nest. more d_field. }
  all: try (more d_use_case). all: try (more d_rule_definition). all: try (more d_dataset_definition). all: try (more d_task_result).
  nest. apply (d_result _ 2). nest.
Qed.
Lemma d_task_definition d : nested 4 (json_of_task_definition d).
Proof.
  unfold json_of_task_definition, json_of_role, json_of_n. nest; [apply d_task_data|].
  destruct (td_fire_mode d); unfold json_of_fire_mode, json_of_n; nest.
Qed.
Lemma d_aggregation a : nested 1 (json_of_aggregation a).
Proof. unfold json_of_aggregation. nest. Qed.
Lemma d_alert a : nested 3 (json_of_alert a).
Proof.
  unfold json_of_alert, json_of_severity, json_of_strings, json_of_technique. nest; [apply d_field|more d_aggregation].
Qed.
Lemma d_notification n : nested 1 (json_of_notification n).
Proof. unfold json_of_notification, json_of_n, json_of_level. nest. Qed.
Lemma d_message m j : json_of_message m = Some j -> nested 8 j.
Proof.
  destruct m; cbn [json_of_message]; try discriminate; intros [= <-]; apply nested_tagged.
  - nest; [more d_header|more d_call].
  - nest; [more d_header|more d_response].
  - more d_log.
  - more d_notification.
  - more d_alert.
  - nest; [more d_header|more d_task].
  - nest; [more d_header|more d_task_result].
Qed.
Lemma d_dictionary d : nested 3 (json_of_dictionary d).
Proof. unfold json_of_dictionary. nest. Qed.
Lemma d_geo t g : nested 1 (json_of_geo_info t g).
Proof. unfold json_of_geo_info, json_of_n. nest. Qed.
Lemma d_parsing_error e : nested 4 (json_of_parsing_error e).
Proof. destruct e; unfold json_of_parsing_error; nest; more d_field. Qed.

(** What components send each other, the definitions they announce, what they log and what the stores keep nest at most
    eight deep, whatever they hold *)
Theorem C187_nesting :
  (forall m j, json_of_message m = Some j -> nested 8 j) /\
  (forall c, nested 8 (json_of_call c)) /\ (forall r, nested 8 (json_of_response r)) /\ (forall t, nested 8 (json_of_task t)) /\
  (forall r, nested 8 (json_of_task_result r)) /\
  (forall d, nested 8 (json_of_task_definition d)) /\ (forall d, nested 8 (json_of_command_definition d)) /\
  (forall d, nested 8 (json_of_dataset_definition d)) /\ (forall u, nested 8 (json_of_use_case u)) /\
  (forall a, nested 8 (json_of_alert a)) /\ (forall n, nested 8 (json_of_notification n)) /\ (forall l, nested 8 (json_of_log l)) /\
  (forall e, nested 8 (json_of_parsing_error e)) /\ (forall d, nested 8 (json_of_dictionary d)) /\ (forall t g, nested 8 (json_of_geo_info t g)).
Proof.
  splits; intros; [eapply d_message; eassumption|more d_call|more d_response|more d_task|more d_task_result|more d_task_definition
    |more d_command_definition|more d_dataset_definition|more d_use_case|more d_alert|more d_notification|more d_log|more d_parsing_error
    |more d_dictionary|more d_geo].
Qed.

Lemma by_nesting {A} (r : json -> option A) n j : nested n j -> n <= 127 -> from_text r j = r j.
Proof. intros H L. apply C187_limit. eapply nested_more; eassumption. Qed.

(** So they are read as text exactly as their trees are *)
Theorem C187_read : forall io,
  (forall m j, json_of_message m = Some j -> from_text (message_of_json io) j = message_of_json io j) /\
  (forall c, from_text call_of_json (json_of_call c) = call_of_json (json_of_call c)) /\
  (forall r, from_text (response_of_json io) (json_of_response r) = response_of_json io (json_of_response r)) /\
  (forall t, from_text task_of_json (json_of_task t) = task_of_json (json_of_task t)) /\
  (forall r, from_text task_result_of_json (json_of_task_result r) = task_result_of_json (json_of_task_result r)) /\
  (forall d, from_text task_definition_of_json (json_of_task_definition d) = task_definition_of_json (json_of_task_definition d)) /\
  (forall a, from_text (alert_of_json io) (json_of_alert a) = alert_of_json io (json_of_alert a)) /\
  (forall n, from_text notification_of_json (json_of_notification n) = notification_of_json (json_of_notification n)) /\
  (forall l, from_text (log_of_json io) (json_of_log l) = log_of_json io (json_of_log l)) /\
  (forall e, from_text (parsing_error_of_json io) (json_of_parsing_error e) = parsing_error_of_json io (json_of_parsing_error e)) /\
  (forall d, from_text dictionary_of_json (json_of_dictionary d) = dictionary_of_json (json_of_dictionary d)) /\
  (forall t g, from_text (geo_info_of_json io) (json_of_geo_info t g) = geo_info_of_json io (json_of_geo_info t g)).
Proof.
  intros io. pose proof C187_nesting as (M & C & R & T & TR & D & _ & _ & _ & A & N' & L & E & DI & G).
  splits; intros; (eapply by_nesting; [first [eapply M; eassumption|apply C|apply R|apply T|apply TR|apply D|apply A|apply N'|apply L|apply E|apply DI|apply G]|lia]).
Qed.

(** * Events *)

Lemma d_net p j : json_of_net_protocol p = Some j -> nested 1 j.
Proof. destruct p; intros [= <-]; nest. Qed.
Lemma d_http m n : nested (S n) (json_of_http m).
Proof. destruct m; unfold json_of_http; nest. Qed.
Lemma d_web_protocol p n : nested (S n) (json_of_web_protocol p).
Proof. destruct p; unfold json_of_web_protocol; nest. Qed.
Lemma d_web_category p n : nested (S n) (json_of_web_category p).
Proof. destruct p; unfold json_of_web_category; nest. Qed.

(** Structured events nest at most three deep; an event that carries a JSON object nests as deeply as that *)
Theorem C187_events : forall io,
  (forall e j, json_of_event io (Ev e) = Some j -> from_text (event_of_json io) j = event_of_json io j) /\
  (forall v j, json_of_event io (EvJson v) = Some j -> nested 127 v -> from_text (event_of_json io) j = event_of_json io j).
Proof.
  intros io. split.
  - intros e j H. apply by_nesting with (n := 3); [|lia]. destruct e; cbn [json_of_event] in H.
    + unfold fw_entries in H. destruct (json_of_net_protocol _) eqn:E in H; [|discriminate]. injection H as <-.
      apply d_net in E. unfold tagged_event, json_of_ip, json_of_n. nest. eapply nested_more; [eassumption|lia].
    + unfold intrusion_entries in H. destruct (json_of_net_protocol _) eqn:E in H; [|discriminate]. injection H as <-.
      apply d_net in E. unfold tagged_event, json_of_ip, json_of_n, json_of_intrusion_category. nest. eapply nested_more; [eassumption|lia].
    + injection H as <-. unfold tagged_event, webproxy_entries, json_of_ip, json_of_n. nest; [apply d_http|apply d_web_protocol|apply d_web_category].
    + injection H as <-. unfold tagged_event, webserver_entries, json_of_ip, json_of_n. nest; [apply d_http|apply d_web_protocol].
    + injection H as <-. unfold tagged_event, dns_entries, json_of_ip. nest.
    + injection H as <-. unfold tagged_event, dhcp_entries, json_of_ip, json_of_n. nest.
    + injection H as <-. unfold tagged_event, auth_entries. nest. destruct (au_login_type e); unfold json_of_login_type; nest.
    + injection H as <-. unfold tagged_event. nest.
  - intros v j H V. apply by_nesting with (n := 127); [|lia]. destruct v; try discriminate; injection H as <-; unfold tagged_event.
    + nest.
    + inversion V; subst. constructor. constructor; [constructor|assumption].
Qed.

(** * Rules *)

Lemma list_max_map_le {A} (f : A -> nat) l n : list_max (map f l) <= n <-> Forall (fun a => f a <= n) l.
Proof. unfold list_max. apply max_le. Qed.
Lemma list_max_map_ge {A} (f : A -> nat) l a : In a l -> f a <= list_max (map f l).
Proof.
  intros I. assert (H : list_max (map f l) <= list_max (map f l)) by lia. apply list_max_map_le in H. rewrite Forall_forall in H. auto.
Qed.

Lemma arr_nested n l : nested (S n) (JArr l) <-> Forall (nested n) l.
Proof. split; [inversion 1; assumption|constructor; assumption]. Qed.
Lemma obj_nested n l : nested (S n) (JObj l) <-> Forall (fun e => nested n (snd e)) l.
Proof. split; [inversion 1; assumption|constructor; assumption]. Qed.

Lemma op_nested o : forall n, nested n (snd (op_entry o)) <-> op_levels o <= n.
Proof.
  assert (L : forall l, Forall (fun o => forall n, nested n (snd (op_entry o)) <-> op_levels o <= n) l -> forall n,
    nested n (JArr (map (fun o => JObj [op_entry o]) l)) <-> S (list_max (map (fun o => S (op_levels o)) l)) <= n).
  { intros l IH n. destruct n as [|n]; [split; [inversion 1|lia]|]. rewrite arr_nested, Forall_map, <- Nat.succ_le_mono, list_max_map_le.
    rewrite !Forall_forall. rewrite Forall_forall in IH. split; intros H p I; specialize (H p I).
    - inversion H as [| | | | | |k l' F]; subst. inversion F; subst. apply le_n_S, IH; assumption.
    - destruct n as [|n]; [lia|]. constructor. repeat constructor. apply IH; [assumption|lia]. }
  assert (O : forall o, (forall n, nested n (snd (op_entry o)) <-> op_levels o <= n) -> forall n,
    nested n (JObj [op_entry o]) <-> S (op_levels o) <= n).
  { intros o' IH n. destruct n as [|n]; [split; [inversion 1|lia]|]. rewrite obj_nested, Forall_cons_iff, IH. split; [lia|]. intros H. split; [lia|constructor]. }
  assert (F : forall f n, nested n (json_of_field f) <-> (match f with Array _ => 1 | _ => 0 end) <= n).
  { intros f n. destruct f; cbn [json_of_field]; unfold json_of_ip, json_of_n, json_of_strings; try (split; [lia|constructor]).
    - split; [lia|]. intros _. apply nested_f64.
    - destruct n; [split; [inversion 1|lia]|]. split; [lia|]. intros _. nest. }
  induction o using op_induction; intros n.
  - cbn [op_entry snd op_levels]. apply L. assumption.
  - cbn [op_entry snd op_levels]. apply L. assumption.
  - cbn [op_entry snd op_levels]. apply O. assumption.
  - cbn [op_entry snd op_levels]. apply O. assumption.
  - destruct o; try (exfalso; match goal with H : forall x, _ <> _ |- _ => eapply H; reflexivity end); cbn [op_entry snd]; try (rewrite F; destruct f; reflexivity); try (split; [cbn; lia|constructor]).
    + destruct n; [split; [inversion 1|cbn; lia]|]. split; [cbn; lia|]. intros _. unfold json_of_ip, json_of_n. nest.
    + destruct t; cbn [json_of_type op_levels]; try (split; [lia|constructor]);
        (destruct n; [split; [inversion 1|lia]|]; split; [lia|intros _; nest]).
    + destruct l as [|s l]; cbn [op_levels].
      * destruct n; [split; [inversion 1|lia]|]. split; [lia|]. intros _. do 2 constructor.
      * split.
        -- inversion 1 as [| | | | |k l' G|]; subst. apply Forall_inv in G. unfold json_of_state in G. inversion G as [| | | | | |k' l'' G']; subst.
           apply Forall_inv in G'. cbn in G'. destruct (states s); inversion G'; subst; lia.
        -- intros L3. apply (nested_more 3); [|assumption]. nest. unfold json_of_state. nest. destruct (states a); nest.
Qed.

(** the operators of a rule *)
Definition rule_ops (r : siem_rule) : list rule_op :=
  flat_map (fun e => map rc_op (sr_conditions (snd e))) (ru_subrules r).

Lemma rule_nested r n : 4 <= n -> nested (5 + n) (json_of_rule r) <-> Forall (fun o => op_levels o <= n) (rule_ops r).
Proof.
  intros B. cbn [Nat.add]. unfold rule_ops. rewrite Forall_flat_map.
  assert (C : forall c, nested (S n) (json_of_cond c) <-> op_levels (rc_op c) <= n).
  { intros c. unfold json_of_cond. rewrite obj_nested, !Forall_cons_iff, op_nested. cbn [snd]. split; [tauto|]. intros H; splits; nest. }
  assert (S1 : forall s, nested (S (S (S n))) (json_of_subrule s) <-> Forall (fun o => op_levels o <= n) (map rc_op (sr_conditions s))).
  { intros s. unfold json_of_subrule. rewrite obj_nested, Forall_cons_iff. cbn [snd]. unfold json_of_list. rewrite arr_nested, !Forall_map.
    assert (T : Forall (fun e => nested (S (S n)) (snd e)) match sr_state s with Some t => [("rule_state"%string, json_of_state t)] | None => [] end).
    { destruct (sr_state s) as [t|]; constructor; [|constructor]. apply (nested_more 2); [|lia]. cbn [snd]. unfold json_of_state. nest. destruct (states t); nest. }
    split.
    - intros (H & _). rewrite Forall_forall in *. intros c I. apply C, H, I.
    - intros H. split; [|exact T]. rewrite Forall_forall in *. intros c I. apply C, H, I. }
  assert (S2 : nested (S (S (S (S n)))) (json_of_map json_of_subrule (ru_subrules r)) <->
    Forall (fun e => Forall (fun o => op_levels o <= n) (map rc_op (sr_conditions (snd e)))) (ru_subrules r)).
  { unfold json_of_map. rewrite obj_nested, Forall_map. cbn [snd]. rewrite !Forall_forall. split; intros H e I; apply S1, H, I. }
  rewrite <- S2. unfold json_of_rule. rewrite obj_nested, !Forall_cons_iff. cbn [snd]. split; [tauto|]. intros H. splits; try (now constructor).
  - apply (nested_more 2); [|lia]. unfold json_of_mitre, json_of_tactic, json_of_technique. nest.
  - apply (nested_more 2); [|lia]. nest. apply d_type.
  - exact H.
  - apply (nested_more 2); [|lia]. unfold json_of_strings. nest.
  - apply (nested_more 4); [|lia]. unfold json_of_alert_gen, json_of_severity, json_of_strings. constructor.
    constructor; [|constructor; [nest|constructor; [nest|]]].
    + cbn [snd]. apply nested_list. intros a. destruct a; unfold json_of_content; nest.
    + destruct (al_aggregation (ru_alert r)); constructor; [|constructor]. more d_aggregation.
Qed.

Lemma nesting_levels o : op_nesting o <= op_levels o /\ op_levels o <= 2 * op_nesting o + 3.
Proof.
  assert (L : forall l, Forall (fun o => op_nesting o <= op_levels o /\ op_levels o <= 2 * op_nesting o + 3) l ->
    S (list_max (map op_nesting l)) <= S (list_max (map (fun o => S (op_levels o)) l)) /\
    S (list_max (map (fun o => S (op_levels o)) l)) <= 2 * S (list_max (map op_nesting l)) + 3).
  { intros l IH. rewrite Forall_forall in IH. split; [apply le_n_S|cut (list_max (map (fun o => S (op_levels o)) l) <= 2 * list_max (map op_nesting l) + 4); [lia|]];
      apply list_max_map_le, Forall_forall; intros p I; specialize (IH p I).
    - pose proof (list_max_map_ge (fun o => S (op_levels o)) l p I). cbn beta in *. lia.
    - pose proof (list_max_map_ge op_nesting l p I). lia. }
  induction o using op_induction; [apply L; assumption|apply L; assumption|cbn [op_nesting op_levels]; lia|cbn [op_nesting op_levels]; lia|].
  destruct o; try (exfalso; match goal with H : forall x, _ <> _ |- _ => eapply H; reflexivity end); cbn [op_nesting op_levels]; try lia;
    try (destruct f; lia).
  - destruct t; lia.
  - destruct l; lia.
Qed.

(** A rule whose operators are at most 59 inside each other is read as a text exactly as its tree is *)
Theorem C187_rules : forall io compiles r,
  (forall name s c, In (name, s) (ru_subrules r) -> In c (sr_conditions s) -> op_nesting (rc_op c) <= 59) ->
  from_text (rule_of_json io compiles) (json_of_rule r) = rule_of_json io compiles (json_of_rule r).
Proof.
  intros io compiles r H. apply C187_limit. apply (rule_nested r 122); [lia|]. apply Forall_forall. intros o I.
  apply in_flat_map in I as ((k & s) & I & J). apply in_map_iff in J as (c & <- & J). specialize (H k s c I J).
  pose proof (nesting_levels (rc_op c)). lia.
Qed.

(** Exactly: one whose operators are written with at most 122 levels *)
Theorem C188_exact : forall io compiles r,
  let fits := forall name s c, In (name, s) (ru_subrules r) -> In c (sr_conditions s) -> op_levels (rc_op c) <= 122 in
  (fits -> from_text (rule_of_json io compiles) (json_of_rule r) = rule_of_json io compiles (json_of_rule r)) /\
  (~ fits -> from_text (rule_of_json io compiles) (json_of_rule r) = None).
Proof.
  intros io compiles r fits. assert (E : fits <-> nested 127 (json_of_rule r)).
  { change 127 with (5 + 122). rewrite rule_nested by lia. unfold rule_ops, fits. rewrite Forall_forall. split.
    - intros H o I. apply in_flat_map in I as ((k & s) & I & J). apply in_map_iff in J as (c & <- & J). exact (H k s c I J).
    - intros H k s c I J. apply H. apply in_flat_map. exists (k, s). split; [assumption|]. apply in_map. assumption. }
  rewrite E. apply C187_limit.
Qed.

(** Hence a rule with 123 operators inside each other is not read, whatever it was written from *)
Theorem C188_refuted : forall io compiles r name s c, In (name, s) (ru_subrules r) -> In c (sr_conditions s) -> 123 <= op_nesting (rc_op c) ->
  from_text (rule_of_json io compiles) (json_of_rule r) = None.
Proof.
  intros io compiles r name s c I J L. apply C188_exact. intros H. specialize (H name s c I J). pose proof (nesting_levels (rc_op c)). lia.
Qed.

(** * Sigma rules *)

Lemma value_nested v : forall n, nested n (json_of_value v) <-> value_nesting v <= n.
Proof.
  induction v as [s|z|x|l IH|] using value_induction; intros n; cbn [json_of_value value_nesting]; try (split; [lia|constructor]).
  - split; [lia|]. intros _. apply nested_f64.
  - destruct n as [|n]; [split; [inversion 1|lia]|]. rewrite arr_nested, Forall_map, <- Nat.succ_le_mono, list_max_map_le, !Forall_forall.
    rewrite Forall_forall in IH. split; intros H v I; apply (IH v I); auto.
Qed.
Lemma condition_nested c n : nested (S n) (json_of_condition c) <->
  match c with
  | SMap m => Forall (fun e => value_nesting (snd e) <= n) m
  | SList [] => True
  | SList l => 1 <= n /\ Forall (fun m => Forall (fun e => value_nesting (snd e) <= n - 1) m) l
  | SNoCondition => True
  end.
Proof.
  assert (M : forall m k, nested (S k) (json_of_map json_of_value m) <-> Forall (fun e => value_nesting (snd e) <= k) m).
  { intros m k. unfold json_of_map. rewrite obj_nested, Forall_map. cbn [snd]. rewrite !Forall_forall. split; intros H e I; apply value_nested; auto. }
  destruct c as [m|[|m l]|]; cbn [json_of_condition].
  - apply M.
  - split; [trivial|]. intros _. do 2 constructor.
  - unfold json_of_list. rewrite arr_nested, Forall_map. destruct n as [|n].
    + split; [|lia]. intros H. apply Forall_inv in H. inversion H.
    + replace (S n - 1) with n by lia. rewrite !Forall_forall. split.
      * intros H. split; [lia|]. intros x I. apply M, H, I.
      * intros (_ & H) x I. apply M, H, I.
  - split; [trivial|intros _; nest].
Qed.
Lemma sigma_nested r n : 2 <= n -> nested (3 + n) (json_of_sigma r) <->
  forall k c, In (k, c) (search_identifiers (sg_detection r)) -> nested (S n) (json_of_condition c).
Proof.
  intros B. unfold json_of_sigma. cbn [Nat.add]. rewrite obj_nested. rewrite !Forall_app, !Forall_cons_iff. cbn [snd].
  unfold json_of_detection. rewrite obj_nested, Forall_app, Forall_map. cbn [snd].
  assert (T : forall k (A : Type) (w : A -> json) (o : option A), (forall a, nested (S (S n)) (w a)) -> Forall (fun e => nested (S (S n)) (snd e)) (skip_none k w o)).
  { intros k A w o H. unfold skip_none. destruct o; nest. apply H. }
  split.
  - intros H k c I. assert (F : Forall (fun e => nested (S n) (json_of_condition (snd e))) (search_identifiers (sg_detection r))) by tauto.
    rewrite Forall_forall in F. exact (F (k, c) I).
  - intros H. splits; try (apply T; intros; unfold json_of_strings; nest); try (now constructor).
    + apply (nested_more 1); [|lia]. unfold json_of_logsource. constructor. rewrite !Forall_app. splits; unfold skip_none;
        match goal with |- Forall _ (match ?o with _ => _ end) => destruct o end; nest.
    + apply Forall_forall. intros (k, c) I. exact (H k c I).
    + nest.
Qed.

(** A Sigma rule is read from a JSON text as its tree is, exactly if its values are lists inside each other at most 124 deep,
    123 in a list of alternatives *)
Theorem C188_sigma : forall io r,
  let fits := forall id c, In (id, c) (search_identifiers (sg_detection r)) ->
    (forall m key v, c = SMap m -> In (key, v) m -> value_nesting v <= 124) /\
    (forall l m key v, c = SList l -> In m l -> In (key, v) m -> value_nesting v <= 123) in
  (fits -> from_text (sigma_of_json io) (json_of_sigma r) = sigma_of_json io (json_of_sigma r)) /\
  (~ fits -> from_text (sigma_of_json io) (json_of_sigma r) = None).
Proof.
  intros io r fits. assert (E : fits <-> nested 127 (json_of_sigma r)).
  { change 127 with (3 + 124). rewrite sigma_nested by lia. unfold fits. split; intros H k c I; specialize (H k c I).
    - apply condition_nested. destruct H as (H1 & H2). destruct c as [m|[|m l]|]; [|trivial| |trivial].
      + apply Forall_forall. intros (key, v) J. exact (H1 m key v eq_refl J).
      + split; [lia|]. apply Forall_forall. intros m' J. apply Forall_forall. intros (key, v) J'. apply (H2 _ m' key v eq_refl J J').
    - apply condition_nested in H. split.
      + intros m key v -> J. rewrite Forall_forall in H. exact (H (key, v) J).
      + intros [|m0 l] m key v -> J J'; [contradiction|]. destruct H as (_ & H). rewrite Forall_forall in H. specialize (H m J).
        rewrite Forall_forall in H. exact (H (key, v) J'). }
  rewrite E. apply C187_limit.
Qed.

(** * Cases *)

Definition rule_with (o : rule_op) : siem_rule :=
  mkRule "r"%string "r"%string "d"%string (mkMitre [] []) [] [("s"%string, mkSub [mkCond "f"%string o] None)] [["s"%string]]
    (mkAlert [AText "t"%string] LOW [] None).
Definition negated (n : nat) (o : rule_op) : rule_op := Nat.iter n ONot o.
Definition sigma_with (v : sigma_value) : sigma_rule :=
  mkSigma "t"%string None None None None None None None (mkSource None None None None)
    (mkDetection [("sel"%string, SMap [("f"%string, v)])] "sel"%string) None None None None.

(** 122 negations of an operator are read, one more is not, nor is one more of a list of texts; 59 pairs of lists around states are *)
Example C188_cases : let read o := from_text (rule_of_json {| reread := Some; big_int := fun _ => None |} (fun _ => true)) (json_of_rule (rule_with o)) in
  read (negated 122 (OExists true)) = Some (rule_with (negated 122 (OExists true))) /\ read (negated 123 (OExists true)) = None
  /\ read (negated 122 (OEquals (Array []))) = None
  /\ read (Nat.iter 59 (fun o => OAll [o]) (OExistsRuleState [mkState (SV_Text "x"%string)])) <> None
  /\ read (Nat.iter 60 (fun o => OAll [o]) (OExistsRuleState [mkState (SV_Text "x"%string)])) = None
  /\ op_nesting (negated 123 (OExists true)) = 123.
Proof. cbv zeta. splits; vm_compute; try reflexivity; discriminate. Qed.
Example C188_sigma_cases : let read v := from_text (sigma_of_json {| reread := Some; big_int := fun _ => None |}) (json_of_sigma (sigma_with v)) in
  read (Nat.iter 124 (fun v => SArray [v]) (SInt 1)) = Some (sigma_with (Nat.iter 124 (fun v => SArray [v]) (SInt 1)))
  /\ read (Nat.iter 125 (fun v => SArray [v]) (SInt 1)) = None.
Proof. cbv zeta. splits; vm_compute; reflexivity. Qed.
Example C187_case : exists j, json_of_message (MCommand (Header "kernel"%string 0 1) (C_START_TASK (Task 1 2 "o"%string 3 (TD_OTHER "n"%string [("k"%string, "v"%string)])))) = Some j
  /\ nested 8 j /\ ~ nested 6 j.
Proof.
  eexists. split; [reflexivity|]. rewrite !depth_nested. split; [vm_compute; lia|]. vm_compute. lia.
Qed.

Print Assumptions C187_limit.
Print Assumptions C187_nesting.
Print Assumptions C187_read.
Print Assumptions C187_events.
Print Assumptions C187_rules.
Print Assumptions C188_exact.
Print Assumptions C188_refuted.
Print Assumptions C188_sigma.
