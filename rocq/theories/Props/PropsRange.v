(** C175: whatever the JSON, what is read fits its type. *)
From Coq Require Import String Ascii NArith ZArith List Bool Lia Floats.SpecFloat.
From Verif Require Import Base.Arith Base.Ord Base.BTree Base.Str Base.Outcome Model.Ip Model.Field Model.Log Model.DatasetTypes Model.Mitre Model.Rule
  Model.Command Model.EventEnums Model.Events Model.Component Model.Payloads Model.Json Model.JsonField Model.JsonCommand Model.JsonRule Model.JsonEvent
  Spec.FieldSpec Spec.JsonSpec Spec.RangeSpec Proofs.JsonP Proofs.JsonCmdP Proofs.JsonRuleP Proofs.RuleP Props.PropsJson.
Import ListNotations.
Local Open Scope string_scope.
Local Open Scope list_scope.

(** *** readers and what they guarantee *)
Definition reads {A} (r : json -> option A) (P : A -> Prop) : Prop := forall j a, r j = Some a -> P a.
Definition reads_v {A} (r : option json -> option A) (P : A -> Prop) : Prop := forall p a, r p = Some a -> P a.
Lemma reads_any {A} (r : json -> option A) : reads r (fun _ => True).
Proof. intros j a _. exact I. Qed.
Lemma pick_in {A} k (l : list (string * A)) a : pick k l = Some a -> In (k, a) l.
Proof.
  induction l as [|[k' b] l IH]; cbn; [discriminate|]. destruct (String.eqb_spec k' k) as [->|]; [intros E; injection E as <-; auto | auto].
Qed.
Lemma reads_enum {A} (vs : list (string * (option json -> option A))) P : Forall (fun v => reads_v (snd v) P) vs -> reads (read_enum vs) P.
Proof.
  intros F j a E. unfold read_enum in E. destruct (variant j) as [[k p]|]; [|discriminate]. cbn in E.
  destruct (pick k vs) as [r|] eqn:K; [|discriminate]. rewrite Forall_forall in F. exact (F _ (pick_in _ _ _ K) _ _ E).
Qed.
Lemma reads_unit {A} (a : A) (P : A -> Prop) : P a -> reads_v (unit_v a) P.
Proof. intros H p b E. destruct p as [[]|]; cbn in E; congruence. Qed.
Lemma reads_empty {A} (a : A) (P : A -> Prop) : P a -> reads_v (empty_v a) P.
Proof. intros H p b E. destruct p as [[| | | | |[]|]|]; cbn in E; congruence. Qed.
Lemma reads_newtype {A B} (r : json -> option A) (f : A -> B) Q (P : B -> Prop) : reads r Q -> (forall a, Q a -> P (f a)) -> reads_v (newtype_v r f) P.
Proof. intros R H p b E. destruct p as [j|]; [|discriminate]. cbn in E. destruct (r j) as [a|] eqn:K; [|discriminate]. injection E as <-. eauto. Qed.
Lemma reads_pair_v {A B C} (ra : json -> option A) (rb : json -> option B) (f : A -> B -> C) Q R (P : C -> Prop) :
  reads ra Q -> reads rb R -> (forall a b, Q a -> R b -> P (f a b)) -> reads_v (pair_v ra rb f) P.
Proof.
  intros A' B' H p c E. destruct p as [j|]; [|discriminate]. cbn in E. unfold read_pair in E.
  destruct j as [| | | | |[|x [|y [|? ?]]]|]; try discriminate. destruct (ra x) as [a|] eqn:K; [|discriminate].
  destruct (rb y) as [b|] eqn:L; [|discriminate]. cbn in E. injection E as <-. eauto.
Qed.
Lemma reads_list {A} (r : json -> option A) P : reads r P -> reads (read_list r) (Forall P).
Proof.
  intros R j l E. destruct j as [| | | | |js|]; try discriminate. cbn in E. apply mapM_some in E. induction E; constructor; eauto.
Qed.
Lemma forall_of_list {A} (P : A -> Prop) (l : list (string * A)) : Forall (fun e => P (snd e)) l -> Forall (fun e => P (snd e)) (bt_of_list l).
Proof.
  unfold bt_of_list. intros F. enough (G : forall m : bt string A, Forall (fun e => P (snd e)) m ->
    Forall (fun e => P (snd e)) (fold_left (fun m e => bt_insert (fst e) (snd e) m) l m)) by (apply G; constructor).
  induction l as [|e l IH]; intros m M; [exact M|]. inversion F; subst. cbn. apply IH; [assumption|]. apply forall_insert; assumption.
Qed.
Lemma reads_map {A} (r : json -> option A) P : reads r P -> reads (read_map r) (fun m => sorted m /\ Forall (fun e => P (snd e)) m).
Proof.
  intros R j m E. destruct j as [| | | | | |l]; try discriminate. cbn in E.
  destruct (mapM _ l) as [es|] eqn:K; [|discriminate]. injection E as <-. split; [apply wf_of_list|].
  apply forall_of_list. apply mapM_some in K. induction K as [|[k j] e l es E _ IH]; constructor; [|exact IH].
  cbn in E. destruct (r j) as [a|] eqn:Q; [|discriminate]. injection E as <-. cbn. eauto.
Qed.
Lemma reads_req {A} (r : json -> option A) P o a : reads r P -> req r o = Some a -> P a.
Proof. intros R. destruct o as [j|]; [apply R | discriminate]. Qed.
Lemma reads_opt {A} (r : json -> option A) P o a : reads r P -> opt r o = Some a -> forall x, a = Some x -> P x.
Proof.
  intros R E x ->. destruct o as [j|]; [|discriminate]. cbn in E. unfold read_option in E.
  destruct j; try discriminate; match type of E with (match ?e with _ => _ end) = _ => destruct e eqn:K end; try discriminate; injection E as <-; eauto.
Qed.
Lemma reads_uint bits : (0 <= bits)%Z -> reads (read_uint bits) (fun n => (n < 2 ^ Z.to_N bits)%N).
Proof.
  intros B j n E. destruct j; try discriminate. cbn in E. destruct (_ && _) eqn:K; [|discriminate]. injection E as <-.
  apply andb_true_iff in K as [K1 K2]. apply Z.leb_le in K1. apply Z.ltb_lt in K2.
  apply N2Z.inj_lt. rewrite Z2N.id, N2Z.inj_pow, Z2N.id by assumption. exact K2.
Qed.
Lemma reads_u64 : reads (read_uint 64) u64_ok. Proof. exact (reads_uint 64 ltac:(lia)). Qed.
Lemma reads_u32 : reads (read_uint 32) u32_ok. Proof. exact (reads_uint 32 ltac:(lia)). Qed.
Lemma reads_u16 : reads (read_uint 16) u16_ok. Proof. exact (reads_uint 16 ltac:(lia)). Qed.
Lemma reads_u8 : reads (read_uint 8) u8_ok. Proof. exact (reads_uint 8 ltac:(lia)). Qed.
Lemma reads_i64 : reads read_i64 i64_ok.
Proof.
  intros j z E. destruct j; try discriminate. cbn [read_i64] in E. destruct (_ && _) eqn:K; [|discriminate]. injection E as <-.
  apply andb_true_iff in K as [K1 K2]. apply Z.leb_le in K1. apply Z.ltb_lt in K2. split; assumption.
Qed.
Ltac variants := apply reads_enum; repeat (apply Forall_cons || apply Forall_nil); cbn [snd];
  try (apply reads_unit; exact I); try (eapply reads_newtype; [apply reads_any | intros; exact I]).
(** break a reader of a struct *)
Ltac struct E := repeat match type of E with
  | (match ?e with _ => _ end) = Some _ => let K := fresh "K" in destruct e eqn:K; try discriminate E end; injection E as <-.

Lemma reads_ip : reads ip_of_json ip_ok.
Proof.
  unfold ip_of_json. variants; [eapply reads_newtype; [apply reads_u32 | intros a H; exact H]|].
  eapply reads_newtype; [exact (reads_uint 128 ltac:(lia)) | intros a H; exact H].
Qed.
Lemma reads_ip_content : reads ip_of_content ip_ok.
Proof.
  unfold ip_of_content. variants; [eapply reads_newtype; [apply reads_u32 | intros a H; exact H]|]. intros p a E. discriminate.
Qed.
Lemma reads_field io : reads (field_of_json io) field_ok.
Proof.
  intros j f E. destruct j as [|b|z|x|s|l|l]; cbn [field_of_json] in E; try discriminate.
  - injection E as <-. exact I.
  - destruct (read_number io (JInt z)) as [n|] eqn:K; [|discriminate]. cbn [read_number] in K.
    destruct ((0 <=? z)%Z && (z <? 2 ^ 64)%Z) eqn:C; [|destruct ((- 2 ^ 63 <=? z)%Z && (z <? 0)%Z) eqn:D].
    + injection K as <-. injection E as <-. apply andb_true_iff in C as [C1 C2]. apply Z.leb_le in C1. apply Z.ltb_lt in C2.
      cbn [field_ok]. unfold u64_ok. apply N2Z.inj_lt. rewrite Z2N.id by assumption. exact C2.
    + injection K as <-. injection E as <-. apply andb_true_iff in D as [C1 C2]. apply Z.leb_le in C1. apply Z.ltb_lt in C2.
      cbn [field_ok]. unfold i64_ok. split; [exact C1|]. eapply Z.lt_le_trans; [exact C2|]. apply Z.pow_nonneg. lia.
    + destruct (big_int io z); [|discriminate]. injection K as <-. injection E as <-. exact I.
  - destruct (read_number io (JFloat x)) as [n|] eqn:K; [|discriminate]. cbn [read_number] in K. destruct (reread io x); [|discriminate].
    injection K as <-. injection E as <-. exact I.
  - injection E as <-. exact I.
  - destruct (read_list _ _) as [l'|]; [|discriminate]. injection E as <-. exact I.
  - destruct (ip_of_content (JObj l)) as [a|] eqn:K; [|discriminate]. injection E as <-. exact (reads_ip_content _ _ K).
Qed.
Lemma reads_log io : reads (log_of_json io) log_fits.
Proof.
  intros j l E. unfold log_of_json in E. destruct (read_map _ j) as [m|] eqn:K; [|discriminate]. injection E as <-.
  assert (R : reads (ifield_of_json io) (fun i => field_ok (original i))).
  { intros j' i E. unfold ifield_of_json in E. struct E. cbn. eapply reads_req; [apply reads_field | eassumption]. }
  destruct (reads_map _ _ R _ _ K) as [S F]. split; [exact S|]. cbn. rewrite Forall_forall in F. intros n i H. exact (F _ H).
Qed.
Lemma reads_params : reads params_of_json sorted.
Proof. intros j m E. exact (proj1 (reads_map _ _ (reads_any _) _ _ E)). Qed.
Lemma reads_task_data : reads task_data_of_json task_data_ok.
Proof.
  unfold task_data_of_json. variants.
  - eapply reads_pair_v; [apply reads_any | apply reads_params | intros; assumption].
  - eapply reads_newtype; [apply reads_params | intros; assumption].
  - eapply reads_newtype; [apply reads_params | intros; assumption].
  - eapply reads_pair_v; [apply reads_any | apply reads_params | intros; assumption].
Qed.
Ltac use r := eapply reads_req; [apply r | eassumption].
Lemma reads_task : reads task_of_json task_ok.
Proof. intros j t E. unfold task_of_json in E. struct E. unfold task_ok, pagination_ok, query_ok, header_ok, alert_fits, notification_ok; splits; cbn; [use reads_i64 | use reads_i64 | use reads_u64 | use reads_task_data]. Qed.
Lemma reads_pagination : reads pagination_of_json pagination_ok.
Proof. intros j t E. unfold pagination_of_json in E. struct E. unfold task_ok, pagination_ok, query_ok, header_ok, alert_fits, notification_ok; splits; cbn; use reads_u32. Qed.
Lemma reads_commented key {A} (r : json -> option A) P : reads r P -> reads (commented_of_json key r) (fun c => P (what A c)).
Proof. intros R j c E. unfold commented_of_json in E. struct E. cbn. eapply reads_req; eassumption. Qed.
Lemma reads_query : reads query_of_json query_ok.
Proof. intros j t E. unfold query_of_json in E. struct E. unfold task_ok, pagination_ok, query_ok, header_ok, alert_fits, notification_ok; splits; cbn; [use reads_i64 | use reads_i64 | use reads_u64 | use reads_u64 | use reads_i64]. Qed.
Lemma reads_header : reads header_of_json header_ok.
Proof. intros j t E. unfold header_of_json in E. struct E. unfold task_ok, pagination_ok, query_ok, header_ok, alert_fits, notification_ok; splits; cbn; use reads_u64. Qed.
Lemma reads_call : reads call_of_json call_ok.
Proof.
  unfold call_of_json. variants; try (eapply reads_newtype; [apply reads_pagination | intros a H; exact H]);
    try (eapply reads_newtype; [apply (reads_commented "ip"), reads_ip | intros a H; exact H]).
  - eapply reads_newtype; [apply reads_query | intros a H; exact H].
  - apply reads_empty. exact I.
  - eapply reads_newtype; [apply reads_task | intros a H; exact H].
  - eapply reads_newtype; [apply reads_u64 | intros a H; exact H].
  - eapply reads_pair_v; [apply reads_any | apply reads_params | intros a b _ H; exact H].
Qed.
Lemma reads_result {A} (r : json -> option A) P : reads r P -> reads (command_result_of_json r) (result_ok P).
Proof.
  intros R j x E. destruct j as [| | | | | |[|[k v] [|? ?]]]; try discriminate. cbn [command_result_of_json] in E.
  destruct (String.eqb k "ok"); [|destruct (String.eqb k "err"); [|discriminate]].
  - destruct (r v) as [a|] eqn:K; [|discriminate]. injection E as <-. exact (R _ _ K).
  - destruct (command_error_of_json v); [|discriminate]. injection E as <-. exact I.
Qed.
Lemma reads_row io : reads (row_of_json io) row_ok.
Proof. exact (reads_map _ _ (reads_field io)). Qed.
Lemma reads_task_result : reads task_result_of_json task_result_ok.
Proof. intros j t E. unfold task_result_of_json in E. struct E. unfold task_result_ok. cbn. use reads_u64. Qed.
Lemma reads_response io : reads (response_of_json io) response_ok.
Proof.
  unfold response_of_json. cbv zeta. variants.
  - eapply reads_pair_v; [apply reads_query | apply reads_result, reads_list, reads_row | intros a b H K; exact (conj H K)].
  - eapply reads_newtype; [apply reads_result, reads_u64 | intros a H; exact H].
  - eapply reads_newtype; [apply reads_result, reads_task_result | intros a H; exact H].
  - eapply reads_pair_v; [apply reads_any | apply reads_result, reads_params | intros a b _ H; exact H].
Qed.
Lemma reads_fire_mode : reads fire_mode_of_json fire_mode_ok.
Proof.
  unfold fire_mode_of_json. variants.
  - intros p m E. unfold cron_of_json in E. struct E.
    match goal with H : mapM _ _ = Some _ |- _ => apply mapM_some in H end.
    repeat match goal with H : Forall2 _ (_ :: _) _ |- _ => inversion H; clear H; subst end. unfold fire_mode_ok. splits; eapply reads_u32; eassumption.
  - eapply reads_newtype; [apply reads_u64 | intros a H; exact H].
  - eapply reads_newtype; [apply reads_i64 | intros a H; exact H].
Qed.
Lemma reads_task_definition : reads task_definition_of_json task_definition_ok.
Proof.
  intros j d E. destruct j as [| | | | | |l]; try discriminate. cbn [task_definition_of_json] in E.
  assert (G : forall l o d, (forall x, o = Some x -> task_definition_ok x) ->
    fold_left (fun o e => let? d := o in task_definition_entry d e) l o = Some d -> task_definition_ok d).
  { clear. induction l as [|[k v] l IH]; intros o d H E; [exact (H _ E)|]. cbn [fold_left] in E. revert E. apply IH.
    intros x E. destruct o as [y|]; [|discriminate]. specialize (H y eq_refl). destruct y as [dt n ds p f m b]. destruct H as (H1 & H2 & H3).
    cbn in H1, H2, H3. unfold task_definition_entry in E.
    repeat match type of E with (if ?c then _ else _) = _ => destruct c end; try discriminate E; struct E; unfold task_definition_ok; splits; cbn; try assumption;
      first [eapply reads_fire_mode | eapply reads_u64 | eapply reads_task_data]; eassumption. }
  refine (G _ _ _ _ E). intros x X. injection X as <-. unfold task_definition_ok. splits; try exact I; cbn. unfold u64_ok. lia.
Qed.
Lemma reads_aggregation : reads aggregation_of_json aggregation_ok.
Proof. intros j t E. unfold aggregation_of_json in E. struct E. unfold aggregation_ok. cbn. use reads_i64. Qed.
Lemma reads_alert io : reads (alert_of_json io) alert_fits.
Proof.
  intros j t E. unfold alert_of_json in E. struct E. unfold task_ok, pagination_ok, query_ok, header_ok, alert_fits, notification_ok; splits; cbn; [use reads_i64 | use reads_log |].
  eapply reads_opt; [apply reads_aggregation | eassumption].
Qed.
Lemma reads_notification : reads notification_of_json notification_ok.
Proof. intros j t E. unfold notification_of_json in E. struct E. unfold task_ok, pagination_ok, query_ok, header_ok, alert_fits, notification_ok; splits; cbn; [use reads_i64 | use reads_u64]. Qed.
Lemma reads_message io : reads (message_of_json io) message_fits.
Proof.
  unfold message_of_json. variants.
  - eapply reads_pair_v; [apply reads_header | apply reads_call | intros a b H K; exact (conj H K)].
  - eapply reads_pair_v; [apply reads_header | apply reads_response | intros a b H K; exact (conj H K)].
  - eapply reads_newtype; [apply reads_log | intros a H; exact H].
  - eapply reads_newtype; [apply reads_notification | intros a H; exact H].
  - eapply reads_newtype; [apply reads_alert | intros a H; exact H].
  - eapply reads_pair_v; [apply reads_header | apply reads_task | intros a b H K; exact (conj H K)].
  - eapply reads_pair_v; [apply reads_header | apply reads_task_result | intros a b H K; exact (conj H K)].
Qed.

(** *** rules *)
Lemma json_induction (P : json -> Prop) :
  P JNull -> (forall b, P (JBool b)) -> (forall z, P (JInt z)) -> (forall x, P (JFloat x)) -> (forall s, P (JStr s)) ->
  (forall l, (forall x, In x l -> P x) -> P (JArr l)) -> (forall l, (forall k x, In (k, x) l -> P x) -> P (JObj l)) -> forall j, P j.
Proof.
  intros H1 H2 H3 H4 H5 H6 H7. fix IH 1. intros [|b|z|x|s|l|l]; [exact H1 | apply H2 | apply H3 | apply H4 | apply H5 | |].
  - apply H6. induction l as [|y l IL]; [intros x []|]. intros x [E|E].
    + rewrite <- E. exact (IH y).
    + exact (IL x E).
  - apply H7. induction l as [|[k' y] l IL]; [intros k x []|]. intros k x [E|E].
    + change (P (snd (k, x))). rewrite <- E. exact (IH y).
    + exact (IL k x E).
Qed.
(** the kinds of field that are read *)
Definition read_kind (f : field) : Prop :=
  match f with Null | Text _ | Array _ | U64 _ | F64 _ | IP _ => True | I64 z => (z < 0)%Z | Domain _ | User _ | AssetID _ | Date _ | Path _ => False end.
Lemma field_kind io : reads (field_of_json io) read_kind.
Proof.
  intros j f E. destruct j as [|b|z|x|s|l|l]; cbn [field_of_json] in E; try discriminate; try (injection E as <-; exact I).
  - destruct (read_number io (JInt z)) as [n|] eqn:K; [|discriminate]. cbn [read_number] in K.
    destruct ((0 <=? z)%Z && (z <? 2 ^ 64)%Z) eqn:C; [|destruct ((- 2 ^ 63 <=? z)%Z && (z <? 0)%Z) eqn:D].
    + injection K as <-. injection E as <-. exact I.
    + injection K as <-. injection E as <-. apply andb_true_iff in D as [_ C2]. apply Z.ltb_lt in C2. exact C2.
    + destruct (big_int io z); [|discriminate]. injection K as <-. injection E as <-. exact I.
  - destruct (read_number io (JFloat x)) as [n|] eqn:K; [|discriminate]. cbn [read_number] in K. destruct (reread io x); [|discriminate].
    injection K as <-. injection E as <-. exact I.
  - destruct (read_list _ _) as [l'|]; [|discriminate]. injection E as <-. exact I.
  - destruct (ip_of_content (JObj l)) as [a|] eqn:K; [|discriminate]. injection E as <-. exact I.
Qed.
Definition leaf_good (compiles : string -> bool) (p : rule_op) : Prop :=
  match p with
  | OEquals f | OGT f | OLT f | OGTE f | OLTE f => field_ok f /\ read_kind f
  | OSameNet a bits => ip_ok a /\ u8_ok bits
  | OMatches re => compiles re = true
  | _ => True
  end.
Definition op_good (compiles : string -> bool) (o : rule_op) : Prop := forall p, inside p o -> leaf_good compiles p.
Lemma op_good_fits compiles o : op_good compiles o -> op_fits o.
Proof.
  intros G p H. specialize (G p H). split; [destruct p; cbn in *; try exact I; apply G | intros a bits ->; exact G].
Qed.
Lemma op_good_list compiles (l : list rule_op) : Forall (op_good compiles) l -> op_good compiles (OAll l) /\ op_good compiles (OAny l).
Proof.
  intros F. rewrite Forall_forall in F. split; intros p H; inversion H; subst; try exact I;
    match goal with K : In ?q l, J : inside p ?q |- _ => exact (F q K p J) end.
Qed.
Lemma op_good_one compiles o : op_good compiles o -> op_good compiles (ONot o) /\ op_good compiles (OB64 o).
Proof. intros F. split; intros p H; inversion H; subst; try exact I; apply F; assumption. Qed.
Lemma op_good_leaf compiles o : (forall p, inside p o -> p = o) -> leaf_good compiles o -> op_good compiles o.
Proof. intros L C p H. rewrite (L p H). exact C. Qed.
Ltac leaf := apply op_good_leaf; [let p := fresh in let Q := fresh in intros p Q; inversion Q; reflexivity | first [exact I | assumption | split; assumption]].
Lemma op_unfold io compiles k v : op_of_json io compiles (JObj [(k, v)]) =
  (if String.eqb k "all" then match v with JArr l => let? l := mapM (op_of_json io compiles) l in Some (OAll l) | _ => None end
   else if String.eqb k "any" then match v with JArr l => let? l := mapM (op_of_json io compiles) l in Some (OAny l) | _ => None end
   else if String.eqb k "not" then let? o := op_of_json io compiles v in Some (ONot o)
   else if String.eqb k "b64" then let? o := op_of_json io compiles v in Some (OB64 o)
   else let? r := pick k [
          ("equals", newtype_v (field_of_json io) OEquals);
          ("starts_with", newtype_v read_str OStartsWith);
          ("ends_with", newtype_v read_str OEndsWith);
          ("contains", newtype_v read_str OContains);
          ("g_t", newtype_v (field_of_json io) OGT);
          ("l_t", newtype_v (field_of_json io) OLT);
          ("g_t_e", newtype_v (field_of_json io) OGTE);
          ("l_t_e", newtype_v (field_of_json io) OLTE);
          ("matches", newtype_v (regex_of_json compiles) OMatches);
          ("same_net", pair_v ip_of_content (read_uint 8) OSameNet);
          ("is_local_ip", newtype_v read_bool OIsLocalIp);
          ("is_external_ip", newtype_v read_bool OIsExternalIp);
          ("exists", newtype_v read_bool OExists);
          ("is_null", newtype_v read_bool OIsNull);
          ("in_dataset", newtype_v type_of_json OInDataset);
          ("exists_rule_state", newtype_v (read_list state_of_json) OExistsRuleState);
          ("in_country", newtype_v read_str OInCountry)] in r (Some v)).
Proof. reflexivity. Qed.
Lemma reads_op io compiles : reads (op_of_json io compiles) (op_good compiles).
Proof.
  assert (G : forall j, (forall o, op_of_json io compiles j = Some o -> op_good compiles o) /\ 
    (forall l, j = JArr l -> forall x, In x l -> forall o, op_of_json io compiles x = Some o -> op_good compiles o)).
  { apply json_induction; try (intros; split; [intros o E; discriminate E | intros l E; discriminate E]).
    - intros l IH. split; [intros o E; discriminate E|]. intros l' E. injection E as <-. intros x Hx. exact (proj1 (IH x Hx)).
    - intros l IH. split; [|intros l' E; discriminate E]. intros o E. destruct l as [|[k v] [|? ?]]; try discriminate E.
      destruct (IH k v (or_introl eq_refl)) as [IH1 IH2]. rewrite op_unfold in E.
      assert (M : forall l ops, v = JArr l -> mapM (op_of_json io compiles) l = Some ops -> Forall (op_good compiles) ops).
      { intros l ops -> M. apply mapM_some in M. specialize (IH2 l eq_refl). clear E IH IH1. induction M; constructor.
        - apply (IH2 x (or_introl eq_refl)). assumption.
        - apply IHM. intros z Hz. apply IH2. right. exact Hz. }
      destruct (String.eqb k "all"); [|destruct (String.eqb k "any"); [|destruct (String.eqb k "not"); [|destruct (String.eqb k "b64")]]].
      + destruct v; try discriminate E. destruct (mapM _ l) eqn:K; [|discriminate E]. injection E as <-. apply op_good_list. eapply M; eauto.
      + destruct v; try discriminate E. destruct (mapM _ l) eqn:K; [|discriminate E]. injection E as <-. apply op_good_list. eapply M; eauto.
      + destruct (op_of_json io compiles v) eqn:K; [|discriminate E]. injection E as <-. apply op_good_one. auto.
      + destruct (op_of_json io compiles v) eqn:K; [|discriminate E]. injection E as <-. apply op_good_one. auto.
      + destruct (pick k _) as [r|] eqn:K; [|discriminate E]. apply pick_in in K. revert E. generalize (Some v) as w. intros w E.
        enough (R : reads_v r (op_good compiles)) by exact (R _ _ E). clear E IH IH1 IH2 M.
        assert (NT : forall A (rd : json -> option A) f, (forall a, op_good compiles (f a)) -> reads_v (newtype_v rd f) (op_good compiles))
          by (intros A rd f H; eapply reads_newtype; [apply reads_any | intros; apply H]).
        assert (NF : forall f, (forall a, field_ok a /\ read_kind a -> op_good compiles (f a)) -> reads_v (newtype_v (field_of_json io) f) (op_good compiles))
          by (intros f H; eapply reads_newtype; [exact (fun j a E => conj (reads_field io j a E) (field_kind io j a E)) | exact H]).
        assert (NR : reads_v (newtype_v (regex_of_json compiles) OMatches) (op_good compiles)).
        { eapply reads_newtype; [|intros a H; apply (op_good_leaf compiles (OMatches a)); [intros p Q; inversion Q; reflexivity | exact H]].
          intros j a E. destruct j; try discriminate E. cbn in E. destruct (compiles s) eqn:C; [|discriminate E]. injection E as <-. exact C. }
        repeat (destruct K as [K|K]; [injection K as _ <-; first [exact NR | apply NF; intros; leaf | apply NT; intros; leaf |
          eapply reads_pair_v; [apply reads_ip_content | apply reads_u8 | intros; leaf]] |]). destruct K. }
  intros j o E. exact (proj1 (G j) o E).
Qed.
Lemma reads_cond io compiles : reads (cond_of_json io compiles) (fun c => op_good compiles (rc_op c)).
Proof.
  intros j c E. unfold cond_of_json in E. destruct j; try discriminate E. struct E. cbn. eapply reads_op. eassumption.
Qed.
Lemma reads_subrule io compiles : reads (subrule_of_json io compiles) (fun s => Forall (fun c => op_good compiles (rc_op c)) (sr_conditions s)).
Proof. intros j c E. unfold subrule_of_json in E. struct E. cbn. eapply reads_req; [apply reads_list, reads_cond | eassumption]. Qed.
Lemma reads_alert_gen : reads alert_gen_of_json (fun g => forall a, al_aggregation g = Some a -> aggregation_ok a).
Proof. intros j c E. unfold alert_gen_of_json in E. struct E. cbn. eapply reads_opt; [apply reads_aggregation | eassumption]. Qed.
Definition rule_good compiles (r : siem_rule) : Prop :=
  sorted (ru_subrules r)
  /\ (forall e c, In e (ru_subrules r) -> In c (sr_conditions (snd e)) -> op_good compiles (rc_op c))
  /\ (forall a, al_aggregation (ru_alert r) = Some a -> aggregation_ok a).
Lemma rule_read io compiles : reads (rule_of_json io compiles) (rule_good compiles).
Proof.
  intros j r E. unfold rule_of_json in E. struct E. unfold rule_good. cbn.
  match goal with H : req (read_map _) _ = Some ?m |- _ => pose proof (reads_req _ _ _ _ (reads_map _ _ (reads_subrule io compiles)) H) as M end.
  destruct M as [S F]. splits; [exact S | |].
  2: { match goal with H : req alert_gen_of_json _ = Some _ |- _ => exact (reads_req _ _ _ _ reads_alert_gen H) end. }
  intros e c He Hc. rewrite Forall_forall in F. specialize (F _ He). rewrite Forall_forall in F. exact (F _ Hc).
Qed.

Lemma reads_rule io compiles : reads (rule_of_json io compiles) rule_fits.
Proof.
  intros j r E. destruct (rule_read io compiles j r E) as (A & B & C). unfold rule_fits. splits; [exact A | | exact C].
  intros e c He Hc. exact (op_good_fits compiles _ (B e c He Hc)).
Qed.

(** *** events *)
Lemma json_f64_fits x : value_fits (json_of_f64 x).
Proof. unfold json_of_f64. destruct x; cbn; constructor; split; discriminate || (intros; discriminate). Qed.
Lemma reads_value io : reads (value_of_json io) value_fits.
Proof.
  intros j. pattern j. apply json_induction; clear j.
  - intros a E. injection E as <-. constructor.
  - intros b a E. injection E as <-. constructor.
  - intros z a E. cbn [value_of_json] in E. destruct (read_number io (JInt z)) as [n|] eqn:K; [|discriminate]. cbn [read_number] in K.
    destruct ((0 <=? z)%Z && (z <? 2 ^ 64)%Z) eqn:C; [|destruct ((- 2 ^ 63 <=? z)%Z && (z <? 0)%Z) eqn:D].
    + injection K as <-. injection E as <-. apply andb_true_iff in C as [C1 C2]. apply Z.leb_le in C1. apply Z.ltb_lt in C2.
      constructor. rewrite Z2N.id by assumption. split; [|exact C2]. lia.
    + injection K as <-. injection E as <-. apply andb_true_iff in D as [C1 C2]. apply Z.leb_le in C1. apply Z.ltb_lt in C2.
      constructor. split; [exact C1|]. eapply Z.lt_le_trans; [exact C2|]. apply Z.pow_nonneg. lia.
    + destruct (big_int io z); [|discriminate]. injection K as <-. injection E as <-. apply json_f64_fits.
  - intros x a E. cbn [value_of_json] in E. destruct (read_number io (JFloat x)) as [n|] eqn:K; [|discriminate]. cbn [read_number] in K.
    destruct (reread io x); [|discriminate]. injection K as <-. injection E as <-. apply json_f64_fits.
  - intros s a E. injection E as <-. constructor.
  - intros l IH a E. cbn [value_of_json] in E.
    destruct ((fix go l := match l with [] => Some [] | x :: r => let? y := value_of_json io x in let? ys := go r in Some (y :: ys) end) l) as [l'|] eqn:K;
      [|discriminate]. injection E as <-. constructor. revert l' K. induction l as [|x l IL]; intros l' K.
    + injection K as <-. intros ? [].
    + destruct (value_of_json io x) as [y|] eqn:X; [|discriminate].
      match type of K with (match ?e with _ => _ end) = _ => destruct e as [ys|] eqn:Y end; [|discriminate]. injection K as <-.
      intros z [<-|Z]; [exact (IH x (or_introl eq_refl) _ X)|]. refine (IL _ _ eq_refl z Z). intros w W. apply IH. right. exact W.
  - intros l IH a E. cbn [value_of_json] in E.
    destruct ((fix go l := match l with [] => Some [] | (k, x) :: r => let? y := value_of_json io x in let? ys := go r in Some ((k, y) :: ys) end) l) as [l'|] eqn:K;
      [|discriminate]. injection E as <-. constructor; [apply wf_of_list|].
    assert (F : Forall (fun e => value_fits (snd e)) l').
    { revert l' K. induction l as [|[k x] l IL]; intros l' K.
      + injection K as <-. constructor.
      + destruct (value_of_json io x) as [y|] eqn:X; [|discriminate].
        match type of K with (match ?e with _ => _ end) = _ => destruct e as [ys|] eqn:Y end; [|discriminate]. injection K as <-.
        constructor; [exact (IH k x (or_introl eq_refl) _ X)|]. refine (IL _ _ eq_refl). intros k' w W. apply (IH k'). right. exact W. }
    apply (forall_of_list value_fits) in F. rewrite Forall_forall in F. intros k x H. exact (F _ H).
Qed.
Lemma reads_event io : reads (event_of_json io) event_fits.
Proof.
  intros j e E. unfold event_of_json in E. destruct (tag_and_rest _ j) as [[tag rest]|]; [|discriminate].
  repeat match type of E with (if String.eqb tag ?k then _ else _) = _ => destruct (String.eqb tag k) end;
    try (match type of E with (match ?e with _ => _ end) = _ => destruct e eqn:K end; [|discriminate]; injection E as <-).
  - unfold fw_of_json in K. struct K. cbn. splits; first [use reads_ip_content | use reads_u16 | use reads_u32].
  - unfold intrusion_of_json in K. struct K. cbn. splits; first [use reads_ip_content | use reads_u16 | use reads_u32].
  - unfold webproxy_of_json in K. struct K. cbn. splits; first [use reads_ip_content | use reads_u16 | use reads_u32].
  - unfold webserver_of_json in K. struct K. cbn. splits; first [use reads_ip_content | use reads_u16 | use reads_u32 |
      eapply reads_opt; [apply reads_ip_content | eassumption]].
  - unfold dns_of_json in K. struct K. cbn. splits; use reads_ip_content.
  - unfold dhcp_of_json in K. struct K. exfalso. match goal with H : req read_u128_content ?o = Some _ |- _ => destruct o; discriminate H end.
  - exact I.
  - exact (reads_value _ _ _ K).
  - apply andb_true_iff in K as [K _].
    apply existsb_exists in K as (v & V & K). apply String.eqb_eq in K as ->. exact V.
Qed.

(** *** C175 *)
Theorem C175_fields : forall io j f, field_of_json io j = Some f -> field_ok f.
Proof. exact reads_field. Qed.
Print Assumptions C175_fields.
Theorem C175_logs : forall io j l, log_of_json io j = Some l -> log_fits l.
Proof. exact reads_log. Qed.
Print Assumptions C175_logs.
Theorem C175_events : forall io j e, event_of_json io j = Some e -> event_fits e.
Proof. exact reads_event. Qed.
Print Assumptions C175_events.
Theorem C175_rules : forall io compiles j r, rule_of_json io compiles j = Some r -> rule_fits r.
Proof. exact reads_rule. Qed.
Print Assumptions C175_rules.
Theorem C175_task_definitions : forall j d, task_definition_of_json j = Some d -> task_definition_ok d.
Proof. exact reads_task_definition. Qed.
Print Assumptions C175_task_definitions.
Theorem C175_messages : forall io j m, message_of_json io j = Some m -> message_fits m.
Proof. exact reads_message. Qed.
Print Assumptions C175_messages.

(** *** C176: what was received can be passed on: read, written and read again, it is the same. *)
Lemma read_value_kept io f : field_ok f -> read_kind f -> (forall x, float_reads io x x) -> kept_value f -> becomes io f f.
Proof.
  intros K R F [A B]. destruct f; cbn in R; try contradiction; try constructor; auto.
  exfalso. exact (A ip eq_refl).
Qed.
Definition rows_kinds (r : response) : Prop :=
  match r with R_LOG_QUERY _ (Ok rows) => Forall (fun m => Forall (fun e => read_kind (snd e)) m) rows | _ => True end.
Lemma reads_rows_kinds io : reads (response_of_json io) rows_kinds.
Proof.
  unfold response_of_json. cbv zeta. variants; try (eapply reads_pair_v; [apply reads_any | apply reads_any | intros; exact I]).
  eapply reads_pair_v; [apply reads_any | apply reads_result, reads_list, (reads_map _ _ (field_kind io)) |].
  intros q [rows|e] _ H; [|exact I]. cbn in H. cbn. induction H as [|m l [_ H] _ IH]; constructor; assumption.
Qed.
Lemma reads_message_kinds io : reads (message_of_json io) (fun m => match m with MResponse _ r => rows_kinds r | _ => True end).
Proof.
  unfold message_of_json. variants; try (eapply reads_pair_v; [apply reads_any | apply reads_any | intros; exact I]).
  eapply reads_pair_v; [apply reads_any | apply reads_rows_kinds | intros a b _ H; exact H].
Qed.
Theorem C176_messages : forall io j m, (forall x, float_reads io x x) -> message_of_json io j = Some m -> message_kept m ->
  exists j', json_of_message m = Some j' /\ message_of_json io j' = Some m.
Proof.
  intros io j m F E K. pose proof (reads_message io j m E) as M. pose proof (reads_message_kinds io j m E) as MK.
  destruct m as [h c|h r|l|n|d|a|h t|h r]; cbn in M; try contradiction; eexists; (split; [reflexivity|]).
  - destruct M as [H C]. unfold message_of_json. choose. rewrite (header_rt _ H), (call_rt _ C K). reflexivity.
  - destruct M as [H C]. unfold message_of_json. choose. rewrite (header_rt _ H).
    assert (R : response_of_json io (json_of_response r) = Some r); [|rewrite R; reflexivity].
    apply C89_becomes; [exact C|]. destruct r; try (apply RB_same; intros; discriminate).
    destruct r as [rows|e]; [|apply RB_same; intros; discriminate]. apply RB_rows. cbn in C, K, MK. destruct C as [_ C].
    clear E H. induction rows as [|row rows IH]; constructor.
    + inversion C as [|? ? [_ C1] C2]; subst. inversion MK as [|? ? MK1 MK2]; subst. specialize (fun n f => K row n f (or_introl eq_refl)) as K1.
      clear - F C1 MK1 K1. unfold row_becomes. induction row as [|[n f] row IH]; constructor.
      * split; [reflexivity|]. inversion C1; inversion MK1; subst. apply read_value_kept; auto. apply (K1 n). left. reflexivity.
      * inversion C1; inversion MK1; subst. apply IH; auto. intros n' f' H. apply (K1 n'). right. exact H.
    + inversion C; inversion MK; subst. apply IH; auto. intros row' n f H. apply (K row' n). right. exact H.
  - unfold message_of_json. choose. rewrite (notification_rt _ M). reflexivity.
  - destruct M as [H C]. unfold message_of_json. choose. rewrite (header_rt _ H), (task_rt _ C). reflexivity.
  - destruct M as [H C]. unfold message_of_json. choose. rewrite (header_rt _ H), (task_result_rt _ C). reflexivity.
Qed.
Print Assumptions C176_messages.
Lemma op_kept_becomes io compiles : (forall x, float_reads io x x) -> forall o, op_good compiles o -> op_kept o -> op_becomes io compiles o o.
Proof.
  intros F. induction o using op_induction; intros G K.
  - constructor. assert (A : forall p, In p l -> op_good compiles p /\ op_kept p)
      by (intros p Hp; split; intros q Hq; [apply G | apply K]; eapply In_all; eassumption).
    clear G K. induction l as [|p l IL]; constructor; inversion H; subst.
    + destruct (A p (or_introl eq_refl)). auto.
    + apply IL; auto. intros q Hq. apply A. right. exact Hq.
  - constructor. assert (A : forall p, In p l -> op_good compiles p /\ op_kept p)
      by (intros p Hp; split; intros q Hq; [apply G | apply K]; eapply In_any; eassumption).
    clear G K. induction l as [|p l IL]; constructor; inversion H; subst.
    + destruct (A p (or_introl eq_refl)). auto.
    + apply IL; auto. intros q Hq. apply A. right. exact Hq.
  - constructor. apply IHo; intros q Hq; [apply G | apply K]; apply In_not; exact Hq.
  - constructor. apply IHo; intros q Hq; [apply G | apply K]; apply In_b64; exact Hq.
  - pose proof (G _ (In_self _)) as G0. pose proof (K _ (In_self _)) as K0.
    destruct o; cbn in G0, K0; try contradiction; try (exfalso; eapply H; reflexivity); try (constructor; fail);
      try (constructor; destruct G0; apply read_value_kept; assumption); try (constructor; assumption).
    all: exfalso; match goal with X : context [_ <> _] |- _ => eapply X; reflexivity end.
Qed.
Theorem C176_rules : forall io compiles j r, (forall x, float_reads io x x) -> rule_of_json io compiles j = Some r ->
  (forall e c, In e (ru_subrules r) -> In c (sr_conditions (snd e)) -> op_kept (rc_op c)) ->
  rule_of_json io compiles (json_of_rule r) = Some r.
Proof.
  intros io compiles j r F E K. destruct (rule_read io compiles j r E) as (S & G & A).
  apply C91_becomes.
  - unfold rule_ok. splits; [exact S | | exact A]. intros e c He Hc p Hp. specialize (G e c He Hc p Hp).
    destruct p; cbn in *; try exact I; apply G.
  - unfold rule_becomes. splits; try reflexivity.
    assert (X : forall e c, In e (ru_subrules r) -> In c (sr_conditions (snd e)) -> op_becomes io compiles (rc_op c) (rc_op c))
      by (intros e c He Hc; apply op_kept_becomes; eauto).
    clear - X. induction (ru_subrules r) as [|e l IH]; constructor.
    + split; [reflexivity|]. unfold subrule_becomes. split; [|reflexivity]. specialize (fun c => X e c (or_introl eq_refl)) as Y. clear - Y.
      induction (sr_conditions (snd e)) as [|c l IH]; constructor; [split; [reflexivity | apply Y; left; reflexivity] |].
      apply IH. intros c' H. apply Y. right. exact H.
    + apply IH. intros e' c He Hc. apply (X e'); [right; exact He | exact Hc].
Qed.
Print Assumptions C176_rules.

(** *** Numbers that do not fit are refused, and the largest that fit are read. *)
Example C175_example :
  call_of_json (JObj [("LIST_TASKS", JObj [("offset", JInt 0); ("limit", JInt (2 ^ 32))])]) = None /\
  call_of_json (JObj [("LIST_TASKS", JArr [JInt 0; JInt (2 ^ 32 - 1)])]) = Some (C_LIST_TASKS (Pagination 0 4294967295)) /\
  field_of_json {| reread := Some; big_int := fun _ => None |} (JInt (2 ^ 64)) = None.
Proof. vm_compute. splits; reflexivity. Qed.

(** A document with members in another order, unknown and ignored ones: the rule it is read as is read again from its own JSON. *)
Definition a_rule_document : json :=
  JObj [("alert", JObj [("tags", JArr []); ("severity", JStr "HIGH"); ("content", JArr [JObj [("Text", JStr "found ")]; JObj [("Field", JStr "f")]])]);
        ("subrules", JObj [("b", JObj [("whatever", JNull);
                             ("conditions", JArr [JObj [("any", JArr [JObj [("is_null", JBool true)]; JObj [("g_t", JInt 7)]]); ("field", JStr "f"); ("not", JNull)]])]);
                           ("a", JObj [("conditions", JArr [])])]);
        ("conditions", JArr [JArr [JStr "a"; JStr "b"]]); ("id", JStr "r"); ("name", JStr "n"); ("description", JStr "d");
        ("mitre", JObj [("techniques", JArr []); ("tactics", JArr [])]); ("needed_datasets", JArr [])].
Definition a_rule_read : siem_rule :=
  mkRule "r" "n" "d" (mkMitre [] []) [] [("a", mkSub [] None); ("b", mkSub [mkCond "f" (OAny [OIsNull true; OGT (U64 7)])] None)]
    [["a"; "b"]] (mkAlert [AText "found "; AField "f"] HIGH [] None).
Example C176_case : rule_of_json exact_io (fun _ => true) a_rule_document = Some a_rule_read
  /\ json_of_rule a_rule_read <> a_rule_document
  /\ rule_of_json exact_io (fun _ => true) (json_of_rule a_rule_read) = Some a_rule_read.
Proof. splits; [vm_compute; reflexivity | intros E; vm_compute in E; discriminate E | vm_compute; reflexivity]. Qed.
Example C176_hypotheses : (forall x, float_reads exact_io x x)
  /\ forall e c, In e (ru_subrules a_rule_read) -> In c (sr_conditions (snd e)) -> op_kept (rc_op c).
Proof.
  split; [intros x; reflexivity|]. intros e c [<-|[<-|[]]] Hc; cbn in Hc; [contradiction|]. destruct Hc as [<-|[]].
  intros p J. cbn in J. inversion J; subst; [exact I|].
  match goal with X : In _ [_; _] |- _ => destruct X as [<-|[<-|[]]] end; match goal with X : inside _ _ |- _ => inversion X; subst end; [exact I|].
  split; [intros a Q | intros x Q]; discriminate Q.
Qed.
Example C176_refused : forall d, json_of_message (@MDataset siem_payloads d) = None.
Proof. reflexivity. Qed.
