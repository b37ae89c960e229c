(** Properties C19-C21 (and the schema side of C16): src/events/schema.rs, base_schema.rs. *)
From Coq Require Import String List ZArith NArith Sorted.
From Verif Require Import Base.Arith Base.Ord Base.BTree Base.Str Base.Outcome Model.Ip Model.Field Model.Log Model.Schema Model.BaseSchema
  Spec.LogSpec Proofs.LogP Proofs.SchemaP.
Import ListNotations.
Local Open Scope string_scope.
(** A field is declared when [get_field] knows it. *)
Local Notation declared n s := (get_field n s <> None).

(** C19. *)
Theorem C19_apply : forall s l n,
  (declared n s -> log_field n (apply_schema s l) = log_field n l) /\
  (~ declared n s -> log_field n (apply_schema s l) = None).
Proof.
  intros s l n. rewrite apply_field. change (declared n s) with (SchemaP.declared n s). rewrite <- has_declared.
  destruct (bt_has n (s_fields s)); split; auto; congruence.
Qed.
Print Assumptions C19_apply.
Theorem C19_idempotent : forall s l, apply_schema s (apply_schema s l) = apply_schema s l.
Proof. exact apply_idem. Qed.
Print Assumptions C19_idempotent.
(** The remaining fields keep their order, and nothing but fields is touched. *)
Theorem C19_iteration : forall s l, exists keep, (forall n, keep n = true <-> declared n s) /\
  log_iter (apply_schema s l) = filter (fun p => keep (fst p)) (log_iter l) /\ log_tags (apply_schema s l) = log_tags l.
Proof.
  intros s l. exists (fun n => bt_has n (s_fields s)). split; [intros n; apply has_declared|]. split; [apply apply_iter|reflexivity].
Qed.
Print Assumptions C19_iteration.
(** Typed reads after a schema application still convert the current value, on every reachable log. *)
Theorem C19_typed_reads : forall P h m r o l s n, run P h (log_new m r o) = Val l ->
  exists l', u64_field n (apply_schema s l) =
    Val (match log_field n (apply_schema s l) with Some f => match to_u64 f with Ok v => Some v | Err _ => None end | None => None end, l').
Proof.
  intros P h m r o l s n E. pose proof (r_caches _ _ _ _ (reach_of_run _ _ _ _ _ _ E)) as C.
  assert (C' : caches_ok P (apply_schema s l)).
  { intros k f. rewrite apply_get. destruct (bt_has k (s_fields s)); [apply C|discriminate]. }
  destruct (u64_spec P n _ C') as (l' & E' & _). exists l'. rewrite E'. destruct (log_field n (apply_schema s l)); reflexivity.
Qed.
Print Assumptions C19_typed_reads.
Example C19_nonvacuous : declared "message" schema_new /\ ~ declared "user.name" schema_new /\
  log_iter (apply_schema schema_new (log_insert "user.name" (User "u") (log_new "m" 1 "o"))) = [("message", Text "m"); ("origin", Text "o")].
Proof. splits; vm_compute; congruence. Qed.

(** C16 with schemas: a schema that drops one IP field hides the ones after it although they are still there. *)
Theorem C104_after_schema_refuted : 
  let l := log_insert "source.ip" (IP (V4 1%N)) (log_insert "attacker.ip" (IP (V4 2%N)) (log_new "" 0 "")) in
  log_field "source.ip" (apply_schema get_default_schema l) = Some (IP (V4 1%N)) /\
  ip_fields (apply_schema get_default_schema l) = [].
Proof. split; vm_compute; reflexivity. Qed.
Print Assumptions C104_after_schema_refuted.

(** What ip_fields reports after a schema, on every reachable log: the fields it reported before, up to the first one the
    schema does not declare.  So nothing is lost if the schema declares all of them. *)
Fixpoint until_undeclared (s : schema) (l : list (string * field)) : list (string * field) :=
  match l with
  | [] => []
  | (n, v) :: r => match get_field n s with Some _ => (n, v) :: until_undeclared s r | None => [] end
  end.
Theorem C16_after_schema : forall P h m r o l s, run P h (log_new m r o) = Val l ->
  ip_fields (apply_schema s l) = until_undeclared s (ip_fields l).
Proof.
  intros P h m r o l s E. pose proof (r_has _ _ _ _ (reach_of_run _ _ _ _ _ _ E)) as H. unfold ip_fields.
  change (l_ip_fields (apply_schema s l)) with (l_ip_fields l).
  induction (bset_elems (l_ip_fields l)) as [|n ns IH]; [reflexivity|]. cbn [ip_iter].
  pose proof (H n (or_introl eq_refl)) as Hn. unfold has_field, bt_has in Hn. rewrite apply_get.
  destruct (bt_get n (l_fields l)) as [f|] eqn:G; [|discriminate]. cbn [until_undeclared].
  unfold bt_has, get_field at 1. destruct (bt_get n (s_fields s)); [|reflexivity].
  rewrite IH by (intros k K; apply H; right; exact K). reflexivity.
Qed.
Print Assumptions C16_after_schema.
Theorem C16_schema_keeps_declared : forall P h m r o l s, run P h (log_new m r o) = Val l ->
  (forall n v, In (n, v) (ip_fields l) -> declared n s) -> ip_fields (apply_schema s l) = ip_fields l.
Proof.
  intros P h m r o l s E H. rewrite (C16_after_schema _ _ _ _ _ _ s E). clear E.
  induction (ip_fields l) as [|[n v] r' IH]; [reflexivity|]. cbn [until_undeclared].
  destruct (get_field n s) eqn:G; [|exfalso; exact (H n v (or_introl eq_refl) G)]. rewrite IH; [reflexivity|]. intros k w K. apply (H k w). right; exact K.
Qed.
Print Assumptions C16_schema_keeps_declared.

(** C107. Full property: message, origin, event_created and event_received survive the default schema. *)
Theorem C107_timestamps_refuted : forall m r o,
  (event_created (log_new m r o) = r /\ event_received (log_new m r o) = r) /\
  event_created (apply_schema schema_new (log_new m r o)) = 0%Z /\
  event_received (apply_schema schema_new (log_new m r o)) = 0%Z /\
  event_created (apply_schema get_default_schema (log_new m r o)) = 0%Z /\
  event_received (apply_schema get_default_schema (log_new m r o)) = 0%Z.
Proof. intros. splits; reflexivity. Qed.
Print Assumptions C107_timestamps_refuted.
Theorem C20_header : forall l h s,
  header_get h (apply_schema schema_new (header_set h s l)) = s /\
  header_get h (apply_schema get_default_schema (header_set h s l)) = s /\
  log_message (apply_schema schema_new l) = log_message l /\ log_origin (apply_schema schema_new l) = log_origin l.
Proof.
  assert (G : forall S h l, bt_has (header_name h) (s_fields S) = true -> header_get h (apply_schema S l) = header_get h l).
  { intros S h l H. rewrite !header_get_text. unfold get_text. rewrite apply_field, H. reflexivity. }
  assert (R : forall h s l, header_get h (header_set h s l) = s).
  { intros h s l. rewrite header_set_put, header_get_text. unfold get_text. rewrite field_put, keqb_refl. reflexivity. }
  intros l h s. splits.
  - rewrite G; [apply R|]. destruct h; vm_compute; reflexivity.
  - rewrite G; [apply R|]. destruct h; vm_compute; reflexivity.
  - apply (G schema_new HMessage). vm_compute; reflexivity.
  - apply (G schema_new HOrigin). vm_compute; reflexivity.
Qed.
Print Assumptions C20_header.

(** What a new schema declares: no field but these, unknown fields are not allowed and nothing is protected. *)
Theorem C20_new_schema : (forall n t, get_field n schema_new = Some t <-> In (n, t) [
    ("origin", FTIp "IP or Hostname of the server that sent the log");
    ("tenant", FTText "Customer name for SOC environments. Ex: Contoso");
    ("product", FTText "Name of the product for wich the log belongs. Ex: ASA");
    ("service", FTText "Subset of the product logs. Like a OS that can have multiple programs running inside generating multiple logs.");
    ("category", FTText "Category of the device: Firewall, web, antivirus");
    ("vendor", FTText "Company that created the product. Ex: Cisco");
    ("event.type", FTText "uSIEM log type: SiemEvent");
    ("tags", FTText "Tags to better describe the event");
    ("message", FTText "Original log message including syslog header");
    ("event_received", FTDate "Timestamp at witch the log arrived  ");
    ("event_created", FTDate "Timestamp at witch the log was generated")]) /\
  s_allow_unknown schema_new = false /\ s_gdpr schema_new = None.
Proof.
  split; [|split; reflexivity]. intros n t. unfold get_field, schema_new. cbn [s_fields].
  rewrite bt_get_of_list, last_assoc_nodup; [reflexivity|]. cbn [map fst]. repeat constructor; cbn [In]; intuition discriminate.
Qed.
Print Assumptions C20_new_schema.

(** C21. The schemas that occur: those built from the constructors by the API. *)
Inductive built : schema -> Prop :=
| b_new : built schema_new
| b_default : built get_default_schema
| b_empty a : built (mkSchema [] a None)
| b_insert k v s : built s -> built (schema_insert k v s)
| b_gdpr g s : built s -> built (set_gdpr g s)
| b_remove ks s : built s -> built (remove_fields ks s)
| b_add s t : built s -> built t -> built (add_schema s t).
Lemma built_wf s : built s -> bt_wf (s_fields s).
Proof.
  induction 1; cbn [s_fields schema_insert set_gdpr remove_fields add_schema].
  - apply wf_of_list.
  - apply wf_of_list.
  - constructor.
  - apply wf_insert; assumption.
  - assumption.
  - apply remove_fields_wf; assumption.
  - apply fold_add_wf; assumption.
Qed.
Theorem C21_names : forall s t n, built s -> built t ->
  (declared n (add_schema s t) <-> declared n s \/ declared n t) /\
  (In n (field_names s) <-> declared n s) /\ StronglySorted (fun a b => String.compare a b = Lt) (field_names s).
Proof.
  intros s t n Bs Bt. split; [rewrite add_schema_get by apply built_wf, Bt; apply merged_none|].
  split; [apply names_declared|apply names_sorted, built_wf, Bs].
Qed.
Print Assumptions C21_names.
(** Conflicts: the merged-in definition wins, but two option lists are united (the merged-in text winning). *)
Theorem C21_conflicts : forall s t n, built s -> built t ->
  (get_field n t = None -> get_field n (add_schema s t) = get_field n s) /\
  (forall e, get_field n t = Some e -> (forall o d, e <> FTTextOptions o d) \/ (forall o d, get_field n s <> Some (FTTextOptions o d)) ->
     get_field n (add_schema s t) = Some e) /\
  (forall ot dt os ds, get_field n t = Some (FTTextOptions ot dt) -> get_field n s = Some (FTTextOptions os ds) -> bt_wf ot ->
     exists o, get_field n (add_schema s t) = Some (FTTextOptions o ds) /\
       forall x, bt_get x o = match bt_get x ot with Some v => Some v | None => bt_get x os end).
Proof.
  intros s t n Bs Bt. rewrite add_schema_get by apply built_wf, Bt. splits.
  - intros ->. reflexivity.
  - intros e -> H. cbn [merged]. destruct e; try reflexivity. destruct (get_field n s) as [[]|]; try reflexivity.
    exfalso. destruct H as [H|H]; eapply H; reflexivity.
  - intros ot dt os ds -> -> W. exists (merge_options ot os). split; [reflexivity|]. intros x. apply merge_options_get, W.
Qed.
Print Assumptions C21_conflicts.
Theorem C21_edits : forall s n, built s ->
  (forall k v, get_field n (schema_insert k v s) = if keqb n k then Some v else get_field n s) /\
  (forall ks, In n ks -> get_field n (remove_fields ks s) = None) /\
  (forall ks, ~ In n ks -> get_field n (remove_fields ks s) = get_field n s).
Proof.
  intros s n B. splits.
  - intros k v. unfold get_field, schema_insert. cbn [s_fields]. apply bt_get_insert.
  - intros ks H. unfold get_field, remove_fields. cbn [s_fields]. rewrite remove_fields_get.
    replace (existsb (keqb n) ks) with true; [reflexivity|]. symmetry. apply existsb_exists. exists n. split; [exact H|apply keqb_refl].
  - intros ks H. unfold get_field, remove_fields. cbn [s_fields]. rewrite remove_fields_get.
    destruct (existsb (keqb n) ks) eqn:E; [|reflexivity]. apply existsb_exists in E as (x & Hx & E). apply keqb_eq in E. subst x. contradiction.
Qed.
Print Assumptions C21_edits.
(** GDPR marks are those last set on the schema; merging, inserting or removing definitions does not change them. *)
Theorem C21_gdpr : forall s t n k v ks, 
  protected_field n (set_gdpr None s) = false /\
  (forall g, protected_field n (set_gdpr (Some g) s) = true <-> In n (bset_elems (g_fields g))) /\
  protected_field n (add_schema s t) = protected_field n s /\ protected_field n (schema_insert k v s) = protected_field n s /\
  protected_field n (remove_fields ks s) = protected_field n s.
Proof. intros. splits; try reflexivity. intros g. apply mem_elems. Qed.
Print Assumptions C21_gdpr.
Example C21_nonvacuous : let s := schema_insert "a" (FTTextOptions (bt_of_list [("x", "1"); ("y", "1")]) "d") (mkSchema [] false None) in
  let t := schema_insert "a" (FTTextOptions (bt_of_list [("x", "2")]) "e") schema_new in
  built s /\ built t /\ get_field "a" (add_schema s t) = Some (FTTextOptions [("x", "2"); ("y", "1")] "d").
Proof. intros s t. splits; [repeat constructor|repeat constructor|vm_compute; reflexivity]. Qed.
