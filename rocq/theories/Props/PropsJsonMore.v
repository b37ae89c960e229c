(** Properties C93, C94: what metrics, datasets, use cases and capabilities write as JSON. *)
From Coq Require Import String NArith ZArith List Bool Floats.SpecFloat Lia.
From Verif Require Import Base.Arith Base.Sched Base.Outcome Model.Field Model.Metrics Model.Datasets Model.DatasetTypes Model.Command Model.Component
  Model.Payloads Model.Json Model.JsonCommand Model.JsonMore Spec.FieldSpec Spec.MetricsSpec Spec.JsonSpec Spec.JsonMoreSpec
  Proofs.MetricsP Proofs.JsonP Proofs.JsonCmdP Proofs.FiniteP.
Import ListNotations.
Local Open Scope string_scope.
Local Open Scope list_scope.

(** * C93: metrics *)

Ltac key0 := eexists [], _; split; [reflexivity|cbn; intuition discriminate].
Ltac key1 := eexists [_], _; split; [reflexivity|cbn; intuition discriminate].
Ltac key2 := eexists [_; _], _; split; [reflexivity|cbn; intuition discriminate].
Ltac key3 := eexists [_; _; _], _; split; [reflexivity|cbn; intuition discriminate].
Ltac key := first [key0|key1|key2|key3].
Lemma each_map {A B} (P : json -> B -> Prop) (w : A -> json) (g : A -> B) l :
  (forall a, In a l -> P (w a) (g a)) -> each P (JArr (map w l)) (map g l).
Proof.
  intros H. exists (map w l). split; [reflexivity|]. induction l as [|a r IH]; constructor; [apply H; left; reflexivity|].
  apply IH. intros b I. apply H. right. exact I.
Qed.
Lemma labels_written ls : is_labels (json_of_labels ls) ls.
Proof.
  unfold is_labels, json_of_labels, json_of_list. rewrite <- (map_id ls) at 2. apply each_map. intros [n v] _. reflexivity.
Qed.
Lemma float_written x : is_float (json_of_f64 x) x.
Proof. destruct x; reflexivity. Qed.
Lemma finite_written x : finite x -> json_of_f64 x = JFloat x.
Proof. intros H. unfold json_of_f64. apply is_finite_iff in H. rewrite H. reflexivity. Qed.
Lemma hist_written ls h : i64_ok (h_sum h) -> is_hist (json_of_hist ls h) (HistSeen ls (get_sample_count h) (get_sample_sum h) (h_buckets h)).
Proof.
  intros K. exists (json_of_labels ls), (json_of_n (get_sample_count h)), (json_of_list json_of_bucket (h_buckets h)). unfold json_of_hist.
  splits; try key; try reflexivity.
  - apply labels_written.
  - cbn [hs_sum]. rewrite <- (finite_written (get_sample_sum h) (normalize_finite _ K)). key2.
  - cbn [hs_buckets]. unfold json_of_list. rewrite <- (map_id (h_buckets h)) at 2. apply each_map. intros [le n] _.
    exists (json_of_f64 le), (json_of_n n). unfold json_of_bucket. cbn [fst snd]. splits; try key; try reflexivity. apply float_written.
Qed.

Lemma nth_combine {A} (d : Z) (l : list A) (c : list Z) i a : length c = length l -> nth_error l i = Some a ->
  nth_error (combine l c) i = Some (a, nth i c d).
Proof.
  revert c i. induction l as [|x r IH]; intros [|z c] [|i] L E; try discriminate.
  - cbn in *. congruence.
  - cbn in *. apply IH; [lia|exact E].
Qed.
Lemma act_i64 m tr : (forall i v, In (AStore i v) tr -> i64_ok v) -> Forall i64_ok m -> Forall i64_ok (act_run m tr).
Proof.
  revert m. induction tr as [|a tr IH]; intros m S F; [exact F|]. unfold act_run in *. cbn [fold_left].
  apply IH; [intros i v I; apply (S i v); right; exact I|].
  assert (U : forall i f (l : list Z), (forall x, i64_ok (f x)) -> Forall i64_ok l -> Forall i64_ok (upd i f l)).
  { clear. intros i f l H F. revert i. induction F as [|x r X F IH]; intros i; [destruct i; constructor|].
    destruct i; cbn [upd]; constructor; auto. }
  destruct a as [i v|i v]; cbn [act_step]; apply U; auto.
  - intros x. exact (proj1 (wrap_i64_is _)).
  - intros _. apply (S i v). left. reflexivity.
Qed.
Lemma f64_as_i64_ok x : i64_ok (f64_as_i64 x).
Proof.
  unfold i64_ok. destruct x as [b|b| |b m e]; cbn [f64_as_i64]; [lia|destruct b; lia|lia|].
  assert (0 <= trunc_mag m e)%Z by (unfold trunc_mag; destruct (0 <=? e)%Z eqn:E; [apply Z.mul_nonneg_nonneg; lia|apply Z.div_pos; [lia|apply Z.pow_pos_nonneg; lia]]).
  destruct b; lia.
Qed.

(** A definition shows its name, its description and its metric. *)
Theorem C93_definition : forall name description m d, metric_def_new name description m = Ok d ->
  is_definition (json_of_metric_def d) name description (json_of_metric m).
Proof.
  intros name description m d. unfold metric_def_new. destruct (negb _); [discriminate|]. destruct (negb _); [discriminate|].
  intros [= <-]. unfold json_of_metric_def, is_definition. cbn [d_name d_description d_metric]. splits; key.
Qed.
Print Assumptions C93_definition.
(** After any accesses the JSON of a counter gives, for each series in order, its labels and what [get] returns. *)
Theorem C93_counter : forall lss v tr, counter_vec_new lss = Val v ->
  let cells := act_run (mv_cells v) tr in
  exists l, kinded "metric_type" "valuess" is_counter (json_of_metric (MCounter (mkVec (mv_labels v) cells))) "Counter" l
    /\ length l = length lss
    /\ forall i ls, nth_error lss i = Some ls -> nth_error l i = Some (ls, counter_get cells i).
Proof.
  intros lss v tr H cells. unfold counter_vec_new in H. destruct (counter_vec_labels lss) as [x| |] eqn:E; try discriminate.
  injection H as <-. apply counter_vec_labels_id in E. subst x. cbn [mv_labels mv_cells] in *.
  assert (L : length cells = length lss) by (unfold cells; rewrite act_len; apply map_length).
  exists (combine lss cells). splits.
  - unfold json_of_metric, json_of_counter_vec, kinded. cbn [mv_labels mv_cells]. split; [key|]. eexists. split; [key|].
    rewrite <- (map_id (combine lss cells)) at 2. apply each_map. intros [ls z] _. exists (json_of_labels ls). unfold json_of_counter.
    cbn [fst snd]. splits; try key. apply labels_written.
  - rewrite combine_length. lia.
  - intros i ls I. apply nth_combine; assumption.
Qed.
Print Assumptions C93_counter.
(** The same of a gauge under any schedule of the threads that use it; what [get] returns is always a number. *)
Theorem C93_gauge : forall lss (ths : list (list gcall)) tr, interleaves (map (flat_map (gcall_acts (length lss))) ths) tr ->
  let cells := act_run (mv_cells (gauge_vec_new lss)) tr in
  exists l, kinded "metric_type" "values" is_gauge (json_of_metric (MGauge (mkVec (mv_labels (gauge_vec_new lss)) cells))) "Gauge" l
    /\ length l = length lss
    /\ forall i ls, nth_error lss i = Some ls -> nth_error l i = Some (ls, gauge_get cells i).
Proof.
  intros lss ths tr H cells. cbn [gauge_vec_new mv_labels mv_cells] in *.
  assert (L : length cells = length lss) by (unfold cells; rewrite act_len; apply map_length).
  assert (F : Forall i64_ok cells).
  { unfold cells. apply act_i64.
    - intros i v I. apply (Permutation.Permutation_in _ (interleaves_perm _ _ H)) in I. apply in_concat in I. destruct I as (x & A & B).
      apply in_map_iff in A. destruct A as (th & <- & _). apply in_flat_map in B. destruct B as (c & _ & B).
      destruct c; cbn [gcall_acts] in B; try (destruct B as [B|[]]; try discriminate; injection B as <- <-; [apply f64_as_i64_ok|unfold i64_ok; lia]).
      all: try (destruct B as [B|[]]; try discriminate; injection B as <- <-; first [apply f64_as_i64_ok|unfold i64_ok; lia]).
      apply in_map_iff in B. destruct B as (k & B & _). injection B as <- <-. unfold i64_ok. lia.
    - apply Forall_forall. intros z I. apply in_map_iff in I. destruct I as (? & <- & _). unfold i64_ok. lia. }
  exists (map (fun p => (fst p, normalize_i64 (snd p))) (combine lss cells)). splits.
  - unfold json_of_metric, json_of_gauge_vec, kinded. cbn [mv_labels mv_cells]. split; [key|]. eexists. split; [key|].
    apply each_map. intros [ls z] I. exists (json_of_labels ls). unfold json_of_gauge. cbn [fst snd].
    rewrite Forall_forall in F. rewrite (finite_written _ (normalize_finite z (F z (in_combine_r _ _ _ _ I)))).
    splits; try key. apply labels_written.
  - rewrite map_length, combine_length. lia.
  - intros i ls I. erewrite map_nth_error by (apply (nth_combine 0%Z); eassumption). reflexivity.
Qed.
Print Assumptions C93_gauge.
(** Histograms, each in a state some accesses lead to. *)
Theorem C93_histogram : forall ms, (forall ls h, In (ls, h) ms -> exists le tr, h = hact_run (hist_new le) tr) ->
  kinded "type" "value" is_hist (json_of_metric (MHistogram ms)) "Histogram"
    (map (fun p => HistSeen (fst p) (get_sample_count (snd p)) (get_sample_sum (snd p)) (h_buckets (snd p))) ms).
Proof.
  intros ms H. unfold json_of_metric, json_of_hist_vec, kinded. split; [key|]. eexists. split; [key|]. apply each_map.
  intros [ls h] I. destruct (H ls h I) as (le & tr & ->). apply hist_written.
  assert (Z0 : is_i64_of (h_sum (hist_new le)) 0) by (unfold is_i64_of; cbn [hist_new h_sum]; split; [lia|reflexivity]).
  exact (proj1 (HistP.hact_run_sum (hist_new le) tr 0 Z0)).
Qed.
Print Assumptions C93_histogram.
(** A reader cannot find the series of all kinds by one key, nor the kind. *)
Theorem C150_uniform_refuted :
  ~ (exists k, forall m, exists kind, at_key k (json_of_metric m) (JStr kind))
  /\ ~ (exists k, forall m, exists l, at_key k (json_of_metric m) (JArr l)).
Proof.
  assert (K : forall k l v, at_key k (JObj l) v -> In (k, v) l).
  { intros k l v (a & b & [= ->] & _). apply in_or_app. right. left. reflexivity. }
  split; intros (k & H).
  - destruct (H (MCounter (mkVec [] []))) as (x & A). destruct (H (MHistogram [])) as (y & B). apply K in A, B.
    destruct A as [A|[A|[]]]; destruct B as [B|[B|[]]]; congruence.
  - destruct (H (MCounter (mkVec [] []))) as (x & A). destruct (H (MGauge (mkVec [] []))) as (y & B). apply K in A, B.
    destruct A as [A|[A|[]]]; destruct B as [B|[B|[]]]; congruence.
Qed.
Print Assumptions C150_uniform_refuted.
Example C93_case : exists v d, counter_vec_new [[("src", "a")]; []] = Val v
  /\ metric_def_new "my_counter" "Some counter" (MCounter (mkVec (mv_labels v) (act_run (mv_cells v) [AAdd 1 7]))) = Ok d
  /\ json_of_metric_def d = JObj [("metric", JObj [("metric_type", JStr "Counter"); ("valuess", JArr
       [JObj [("labels", JArr [JArr [JStr "src"; JStr "a"]]); ("value", JInt 0)]; JObj [("labels", JArr []); ("value", JInt 7)]])]);
       ("name", JStr "my_counter"); ("description", JStr "Some counter")].
Proof.
  exists (mkVec [[("src", "a")]; []] [0%Z; 0%Z]). exists (mkDef "my_counter" "Some counter" (MCounter (mkVec [[("src", "a")]; []] [0%Z; 7%Z]))).
  splits; vm_compute; reflexivity.
Qed.
Example C93_gauge_case : interleaves (map (flat_map (gcall_acts 1)) [[GInc 0]; [GDec 0]]) [AAdd 0 (-100000); AAdd 0 100000]
  /\ json_of_metric (MGauge (mkVec [[]] (act_run [0%Z] [AAdd 0 (-100000)])))
     = JObj [("metric_type", JStr "Gauge"); ("values", JArr [JObj [("labels", JArr []); ("value", JFloat (int_as_f64 (-1)))]])].
Proof.
  split; [|vm_compute; reflexivity].
  apply (il_step [_] (AAdd 0 (-100000)) [] []). apply (il_step [] (AAdd 0 100000) [] [_]). apply il_done. repeat constructor.
Qed.

(** * C94: datasets, use cases and capabilities *)

(** The JSON of a dataset shows its type as the type's own JSON names it, and its name if it has one. *)
Theorem C94_dataset_type : forall d,
  match json_of_type (type_of d) with
  | JStr typ => json_of_dataset d = JObj [("type", JStr typ)]
  | JObj [(typ, JStr name)] => at_key "type" (json_of_dataset d) (JStr typ) /\ at_key "name" (json_of_dataset d) (JStr name)
  | _ => False
  end.
Proof. destruct d; cbn [type_of json_of_type tagged json_of_dataset]; try reflexivity; split; key. Qed.
Print Assumptions C94_dataset_type.
(** Nothing else is shown: datasets of one type are written alike, whatever they hold (secrets for instance). *)
Theorem C94_dataset_only_type : forall a b, json_of_dataset a = json_of_dataset b <-> type_of a = type_of b.
Proof.
  intros a b. split; intros H.
  - pose proof (C94_dataset_type a) as A. pose proof (C94_dataset_type b) as B.
    pose proof (type_rt (type_of a)) as RA. pose proof (type_rt (type_of b)) as RB. rewrite H in A.
    assert (U : forall k x y, at_key k (json_of_dataset b) x -> at_key k (json_of_dataset b) y -> x = y).
    { intros k x y (p & q & E & N) (p' & q' & E' & N'). rewrite E in E'. injection E' as E'.
      assert (I : In (k, x) (p' ++ (k, y) :: q')) by (rewrite <- E'; apply in_or_app; right; left; reflexivity).
      apply in_app_or in I. destruct I as [I|[I|I]]; [|congruence|];
        exfalso; apply N'; apply in_map_iff; exists (k, x); (split; [reflexivity|]); apply in_or_app; auto. }
    assert (E : json_of_type (type_of a) = json_of_type (type_of b)).
    { destruct (json_of_type (type_of a)) as [| | | |s| |la]; try contradiction.
      - destruct (json_of_type (type_of b)) as [| | | |t| |lb]; try contradiction; [congruence|].
        destruct lb as [|[k [| | | |n| |]] [|]]; try contradiction. rewrite A in B. destruct B as [_ (p & q & E & _)].
        destruct p as [|? [|]]; discriminate.
      - destruct la as [|[k [| | | |n| |]] [|]]; try contradiction. destruct A as [A1 A2].
        destruct (json_of_type (type_of b)) as [| | | |t| |lb]; try contradiction.
        + rewrite B in A2. destruct A2 as (p & q & E & _). destruct p as [|? [|]]; discriminate.
        + destruct lb as [|[k' [| | | |n'| |]] [|]]; try contradiction. destruct B as [B1 B2].
          pose proof (U _ _ _ A1 B1). pose proof (U _ _ _ A2 B2). congruence. }
    rewrite E, RB in RA. congruence.
  - destruct a, b; cbn [type_of] in H; try discriminate; cbn [json_of_dataset]; try reflexivity; injection H as ->; reflexivity.
Qed.
Print Assumptions C94_dataset_only_type.

(** A use case reads as the definition components exchange. *)
Theorem C94_use_case_reads : forall u, use_case_of_json (json_of_siem_use_case u)
  = Some (UseCaseDef (u_name u) (u_description u) (u_case_logic u) (u_limitations u) (u_requirements u) (u_rule u)).
Proof.
  intros [n d c l q r a]. unfold use_case_of_json, json_of_siem_use_case.
  cbn [u_name u_description u_case_logic u_limitations u_requirements u_rule u_actions]. fields. cbn [read_str].
  rewrite requirements_rt. reflexivity.
Qed.
Print Assumptions C94_use_case_reads.
(** Its steps are shown in order, but of an automated step not the action it starts. *)
Definition same_step (s t : playbook_step) : Prop :=
  match s, t with
  | Manual n d, Manual n' d' => n = n' /\ d = d'
  | Automated a, Automated b => as_min_role a = as_min_role b /\ as_name a = as_name b /\ as_description a = as_description b
  | _, _ => False
  end.
Theorem C94_use_case_shown : forall a b, json_of_siem_use_case a = json_of_siem_use_case b <->
  u_name a = u_name b /\ u_description a = u_description b /\ u_case_logic a = u_case_logic b /\ u_limitations a = u_limitations b
  /\ u_requirements a = u_requirements b /\ u_rule a = u_rule b /\ Forall2 same_step (u_actions a) (u_actions b).
Proof.
  intros [n d c l q r a] [n' d' c' l' q' r' b]. unfold json_of_siem_use_case.
  cbn [u_name u_description u_case_logic u_limitations u_requirements u_rule u_actions]. unfold json_of_list.
  assert (S : forall x y, json_of_step x = json_of_step y <-> same_step x y).
  { intros [x1 x2|[x1 x2 x3 x4]] [y1 y2|[y1 y2 y3 y4]]; cbn [json_of_step same_step as_min_role as_name as_description];
      unfold tagged, json_of_automated; cbn [as_min_role as_name as_description]; split; intros H; try discriminate; try contradiction.
    - injection H as -> ->. auto.
    - destruct H as [-> ->]. reflexivity.
    - injection H as E -> ->. splits; auto. destruct x1, y1; try discriminate; reflexivity.
    - destruct H as (-> & -> & ->). reflexivity. }
  assert (L : map json_of_step a = map json_of_step b <-> Forall2 same_step a b).
  { clear - S. revert b. induction a as [|x r IH]; intros [|y t]; cbn [map]; split; intros H; try discriminate; try inversion H; subst; auto.
    - constructor; [apply S; congruence|]. apply IH. congruence.
    - f_equal; [apply S; assumption|]. apply IH. assumption. }
  split.
  - intros [= -> -> -> -> -> A R1 R2 R3]. splits; auto; [|apply L; exact A].
    destruct q as [q1 q2 q3], q' as [q1' q2' q3']. cbn [rq_product rq_service rq_category] in *.
    f_equal; [destruct q1, q1'|destruct q2, q2'|destruct q3, q3']; cbn in *; congruence.
  - intros (-> & -> & -> & -> & -> & -> & F). apply L in F. rewrite F. reflexivity.
Qed.
Print Assumptions C94_use_case_shown.
(** The steps are under "actions", one by one and in order. *)
Theorem C94_steps : forall u, exists a, at_key "actions" (json_of_siem_use_case u) a /\ each is_step a (u_actions u).
Proof.
  intros u. eexists. split; [unfold json_of_siem_use_case; eexists [_; _; _; _; _], _; split; [reflexivity|cbn; intuition discriminate]|]. eexists. split; [reflexivity|].
  induction (u_actions u) as [|x r IH]; cbn [map]; constructor; [|exact IH]. destruct x as [n d|a]; [reflexivity|].
  eexists. splits; [reflexivity|key|key|]. unfold json_of_automated. destruct (as_min_role a); key.
Qed.
Print Assumptions C94_steps.
Theorem C151_action_refuted : ~ (forall a b, json_of_siem_use_case a = json_of_siem_use_case b -> a = b).
Proof.
  intros H.
  specialize (H (UseCase "u" "" "" "" (Requirements None None None) "" [Automated (AutoStep Analyst "FILTER_IP" "s" "")])
                (UseCase "u" "" "" "" (Requirements None None None) "" [Automated (AutoStep Analyst "ISOLATE_IP" "s" "")]) eq_refl).
  discriminate.
Qed.
Print Assumptions C151_action_refuted.

(** Capabilities: each part is shown under its name and reads as it was; of a task not the code that runs it. *)
Theorem C94_capabilities : forall c, Forall task_definition_ok (cap_tasks c) ->
  let j := json_of_capabilities c in
  shows "name" read_str j (cap_name c) /\ shows "description" read_str j (cap_description c) /\ shows "view" read_str j (cap_view c)
  /\ shows "datasets" (read_list dataset_definition_of_json) j (cap_datasets c)
  /\ shows "commands" (read_list command_definition_of_json) j (cap_commands c)
  /\ shows "tasks" (read_list task_definition_of_json) j
       (map (fun d => TaskDef (td_data d) (td_name d) (td_description d) (td_permission d) (td_fire_mode d) (td_max_duration d) stub_builder)
            (cap_tasks c))
  /\ at_key "metrics" j (JArr (map json_of_metric_def (cap_metrics c))).
Proof.
  intros c K j. unfold j, json_of_capabilities, shows. splits.
  1-6: eexists; split; [first [key|eexists [_; _; _; _], _; split; [reflexivity|cbn; intuition discriminate]
                               |eexists [_; _; _; _; _], _; split; [reflexivity|cbn; intuition discriminate]]|]; try reflexivity.
  - apply read_list_ok. intros x _. apply dataset_definition_rt.
  - apply read_list_ok. intros x _. apply command_definition_rt.
  - unfold read_list, json_of_list. apply mapM_map. intros x I. rewrite Forall_forall in K. exact (task_definition_rt x (K x I)).
  - eexists [_; _; _; _; _; _], _. split; [reflexivity|cbn; intuition discriminate].
Qed.
Print Assumptions C94_capabilities.
Definition a_use_case : siem_use_case :=
  UseCase "scan" "Port scan" "many ports" "slow scans" (Requirements (Some "fw") None None) "r1"
    [Manual "Check" "Look at it"; Automated (AutoStep Analyst "FILTER_IP" "Block" "Blocks the address")].
Example C94_case :
  json_of_dataset (D_Secrets "aws" (Handle (Syn 0 0))) = JObj [("name", JStr "aws"); ("type", JStr "Secrets")]
  /\ json_of_siem_use_case a_use_case = JObj [("name", JStr "scan"); ("description", JStr "Port scan"); ("case_logic", JStr "many ports");
       ("limitations", JStr "slow scans"); ("rule", JStr "r1");
       ("actions", JArr [JObj [("Manual", JArr [JStr "Check"; JStr "Look at it"])];
          JObj [("Automated", JObj [("min_role", JStr "Analyst"); ("name", JStr "Block"); ("description", JStr "Blocks the address")])]]);
       ("requirements", JObj [("product", JStr "fw"); ("service", JNull); ("category", JNull)])]
  /\ use_case_of_json (json_of_siem_use_case a_use_case)
     = Some (UseCaseDef "scan" "Port scan" "many ports" "slow scans" (Requirements (Some "fw") None None) "r1").
Proof. splits; reflexivity. Qed.
Definition some_capabilities : capabilities :=
  Capabilities "Parser" "Parses" "" [DatasetDef T_GeoIp "geo" Analyst] [CommandDef F_START_COMPONENT "start" "Starts" Administrator]
    [TaskDef TD_UPDATE_GEOIP "geo" "Updates" Administrator (Repetitive 5000) 100 stub_builder] [].
Example C94_capabilities_case : Forall task_definition_ok (cap_tasks some_capabilities)
  /\ read_list dataset_definition_of_json (JArr [JObj [("name", JStr "GeoIp"); ("description", JStr "geo"); ("required_permission", JStr "Analyst")]])
     = Some (cap_datasets some_capabilities).
Proof.
  split; [|reflexivity]. constructor; [|constructor]. unfold task_definition_ok, u64_ok. cbn [td_data td_fire_mode td_max_duration task_data_ok fire_mode_ok].
  unfold u64_ok. splits; auto; lia.
Qed.
