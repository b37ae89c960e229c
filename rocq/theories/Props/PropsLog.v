(** Properties C14-C18: the log (src/events/log.rs, ifield.rs).
    Histories ([op], [step], [run], [written], [untouched]) are defined in Spec/LogSpec.v;
    [P] is the pair of std/chrono text functions, arbitrary. *)
From Coq Require Import String List ZArith NArith Sorted.
From Verif Require Import Base.Arith Base.Str Base.Outcome Model.Ip Model.Field Model.Log Spec.LogSpec Proofs.LogP.
Import ListNotations.
Local Open Scope string_scope.

(** C14. No history of calls aborts; a name that was written reads as the last value written,
    a name that was not reads as in the fresh log; has_field and the iterator agree with [field]. *)
Theorem C14_last_write_wins : forall P h m r o, exists l, run P h (log_new m r o) = Val l /\
  (forall n v, written h n v -> log_field n l = Some v) /\
  (forall n, untouched h n -> log_field n l = log_field n (log_new m r o)) /\
  (forall n, untouched h n \/ exists v, written h n v).
Proof.
  intros P h m r o. destruct (reach_run P h m r o) as (l & E & R). exists l. split; [exact E|].
  split; [exact (r_written _ _ _ _ R)|split; [exact (r_untouched _ _ _ _ R)|exact (r_touched _ _ _ _ R)]].
Qed.
Print Assumptions C14_last_write_wins.
Theorem C14_iteration : forall P h m r o l, run P h (log_new m r o) = Val l ->
  (forall n v, In (n, v) (log_iter l) <-> log_field n l = Some v) /\
  NoDup (map fst (log_iter l)) /\
  (forall n, has_field n l = true <-> exists v, log_field n l = Some v).
Proof.
  intros P h m r o l E. pose proof (reach_of_run _ _ _ _ _ _ E) as R.
  split; [intros n v; apply iter_field, (r_wf _ _ _ _ R)|]. split; [apply iter_nodup, (r_wf _ _ _ _ R)|].
  intros n. rewrite has_field_field. destruct (log_field n l); split; eauto; [discriminate|intros [v [=]]].
Qed.
Print Assumptions C14_iteration.
(** One insertion on ANY log: the name reads back, the others are unchanged. *)
Theorem C14_insert : forall l n v, log_field n (log_insert n v l) = Some v /\
  forall n', n' <> n -> log_field n' (log_insert n v l) = log_field n' l.
Proof.
  intros l n v. split; [rewrite field_insert, Ord.keqb_refl; reflexivity|].
  intros n' Hn. rewrite field_insert. destruct (Ord.keqb_spec n' n); [contradiction|reflexivity].
Qed.
Print Assumptions C14_insert.
Theorem C14_fresh_log : forall m r o, log_iter (log_new m r o) =
  [("event.created", Date r); ("event.received", Date r); ("message", Text m); ("origin", Text o)].
Proof. reflexivity. Qed.
Print Assumptions C14_fresh_log.
Example C14_nonvacuous : written [OInsert "a" (U64 1); ORead KText "a"; OInsert "a" Null; OInsert "b" (U64 2)] "a" Null.
Proof.
  apply (w_later [OInsert "a" (U64 1); ORead KText "a"; OInsert "a" Null]); [|discriminate].
  apply (w_insert [OInsert "a" (U64 1); ORead KText "a"]).
Qed.

(** C103. Full property: typed reads return the conversion of the current value on every history that may
    also edit fields in place. In-place edits do not invalidate the caches: *)
Theorem C103_in_place_edit_refuted : let l := field_mut_set "n" (U64 2) (log_insert "n" (U64 1) (log_new "" 0 "")) in
  log_field "n" l = Some (U64 2) /\ exists l', u64_field "n" l = Val (Some 1%N, l').
Proof. split; [reflexivity|eexists; reflexivity]. Qed.
Print Assumptions C103_in_place_edit_refuted.
Theorem C103_iter_mut_refuted : let l := iter_mut_map (fun _ _ => I64 7) (log_insert "n" (I64 1) (log_new "" 0 "")) in
  log_field "n" l = Some (I64 7) /\ exists l', i64_field "n" l = Val (Some 1%Z, l').
Proof. split; [reflexivity|eexists; reflexivity]. Qed.
Print Assumptions C103_iter_mut_refuted.
(** Without in-place edits it holds, after any history. [conv] is what the field's own conversion gives. *)
Definition conv {T} (c : field -> result T string) (f : option field) : option T :=
  match f with Some f => match c f with Ok v => Some v | Err _ => None end | None => None end.
Definition reads {T} (o : outcome (option T * log)) (v : option T) (l : log) : Prop :=
  exists l', o = Val (v, l') /\ forall m, log_field m l' = log_field m l.
Theorem C15_typed_reads : forall P h m r o l n, run P h (log_new m r o) = Val l ->
  reads (i64_field n l) (conv to_i64 (log_field n l)) l /\
  reads (u64_field n l) (conv to_u64 (log_field n l)) l /\
  reads (f64_field n l) (conv to_f64 (log_field n l)) l /\
  reads (txt_field n l) (conv to_logstring (log_field n l)) l /\
  reads (array_field P n l) (conv (to_array P) (log_field n l)) l /\
  (exists v, match log_field n l with Some f => exists x, to_ip f = Val x /\ v = match x with Ok a => Some a | Err _ => None end
             | None => v = None end /\ reads (ip_field n l) v l).
Proof.
  intros P h m r o l n E. pose proof (r_caches _ _ _ _ (reach_of_run _ _ _ _ _ _ E)) as C.
  assert (G : forall T (c : field -> result T string) ro, read_ok P (fun f => Val (c f)) n l ro -> reads ro (conv c (log_field n l)) l).
  { intros T c ro (l' & -> & H & _). exists l'. split; [|exact H]. destruct (log_field n l); reflexivity. }
  split; [apply G, i64_spec, C|]. split; [apply G, u64_spec, C|]. split; [apply G, f64_spec, C|].
  split; [apply G, txt_spec, C|]. split; [apply G, arr_spec, C|].
  destruct (ip_spec P n l C) as (l' & -> & H & _).
  destruct (log_field n l) as [f|]; [|exists None; split; [reflexivity|exists l'; auto]].
  destruct (to_ip_val f) as [x Ex]. exists (match x with Ok a => Some a | Err _ => None end). split; [eauto|].
  exists l'. split; [|exact H]. rewrite Ex. destruct x; reflexivity.
Qed.
Print Assumptions C15_typed_reads.
(** Reading does not disturb later reads: the same read twice, with any reads between, gives the same answer. *)
Theorem C15_reads_commute : forall P h ks m r o l l', run P h (log_new m r o) = Val l ->
  (forall x, In x ks -> exists k n, x = ORead k n) -> run P ks l = Val l' ->
  forall n, log_field n l' = log_field n l.
Proof.
  intros P h ks m r o l l' E Hk E' n. pose proof (reach_of_run _ _ _ _ _ _ E) as R.
  assert (R' : reach P (log_new m r o) (h ++ ks) l').
  { apply reach_of_run. rewrite run_app, E. exact E'. }
  assert (U : untouched ks n).
  { apply Forall_forall. intros x Hx. destruct (Hk x Hx) as (k & n' & ->). exact I. }
  destruct (r_touched _ _ _ _ R n) as [Un|[v W]].
  - rewrite (r_untouched _ _ _ _ R n Un). apply (r_untouched _ _ _ _ R'). unfold untouched. apply Forall_app. auto.
  - rewrite (r_written _ _ _ _ R n v W). apply (r_written _ _ _ _ R'). clear E' R'.
    induction ks as [|x ks IH] using rev_ind; [rewrite app_nil_r; exact W|]. rewrite app_assoc.
    apply w_later.
    + apply IH; [intros y Hy; apply Hk, in_or_app; auto|]. unfold untouched in U. apply Forall_app in U. apply U.
    + destruct (Hk x) as (k & n' & ->); [apply in_or_app; right; left; reflexivity|exact I].
Qed.
Print Assumptions C15_reads_commute.
Example C15_nonvacuous : forall P, exists l l', run P [OInsert "n" (Text "12"); ORead KU64 "n"; OInsert "n" (Text "x")] (log_new "m" 1 "o") = Val l /\
  u64_field "n" l = Val (None, l').
Proof. intros P. eexists _, _. split; reflexivity. Qed.

(** C104. Full property: [In (n, v) (ip_fields l) <-> log_field n l = Some v /\ v is an IP]. *)
Theorem C104_only_ips_refuted : forall P, exists l,
  run P [OInsert "src" (IP (V4 1%N)); OInsert "src" (Text "none")] (log_new "" 0 "") = Val l /\ ip_fields l = [("src", Text "none")].
Proof. intros P. eexists. split; reflexivity. Qed.
Print Assumptions C104_only_ips_refuted.
(** Every field that holds an IP is reported; what is reported is the current value of every field that ever
    received an IP; so a field that never receives anything but IPs is reported correctly. *)
Theorem C16_ips_are_reported : forall P h m r o l n a, run P h (log_new m r o) = Val l ->
  log_field n l = Some (IP a) -> In (n, IP a) (ip_fields l).
Proof. intros P h m r o l n a E. exact (ip_fields_complete P m r o h l n a (reach_of_run _ _ _ _ _ _ E)). Qed.
Print Assumptions C16_ips_are_reported.
Theorem C16_exact : forall P h m r o l n v, run P h (log_new m r o) = Val l ->
  (In (n, v) (ip_fields l) <-> (exists a, In (OInsert n (IP a)) h) /\ log_field n l = Some v).
Proof. intros P h m r o l n v E. exact (ip_fields_reach P m r o h l n v (reach_of_run _ _ _ _ _ _ E)). Qed.
Print Assumptions C16_exact.
Theorem C16_only_ips : forall P h m r o l n v, run P h (log_new m r o) = Val l ->
  (forall w, In (OInsert n w) h -> exists a, w = IP a) -> (forall k s, In (OHeader k s) h -> header_name k <> n) ->
  n <> "event.created" -> n <> "tags" -> In (n, v) (ip_fields l) -> exists a, v = IP a.
Proof. intros P h m r o l n v E. exact (ip_fields_sound P m r o h l n v (reach_of_run _ _ _ _ _ _ E)). Qed.
Print Assumptions C16_only_ips.
Example C16_nonvacuous : forall P, exists l, run P [OInsert "b" (IP (V4 1%N)); OInsert "a" (IP (V6 2%N)); OInsert "c" Null] (log_new "" 0 "") = Val l /\
  ip_fields l = [("a", IP (V6 2%N)); ("b", IP (V4 1%N))].
Proof. intros P. eexists. split; reflexivity. Qed.

(** C105. Full property: after [add_tag t l], [has_tag t] holds. Tags are stored in lower case: *)
Theorem C105_has_tag_refuted : has_tag "Malware" (add_tag "Malware" (log_new "" 0 "")) = false.
Proof. reflexivity. Qed.
Print Assumptions C105_has_tag_refuted.
(** The log has exactly the lower-cased tags that were added; the text as given is found iff it is lower case
    (or was also added in another spelling). *)
Theorem C17_tags : forall P h m r o l t, run P h (log_new m r o) = Val l ->
  (has_tag t l = true <-> exists t', In (OTag t') h /\ to_lower t' = t) /\
  lists (added_tags h) (log_tags l) /\ NoDup (log_tags l).
Proof.
  intros P h m r o l t E. pose proof (reach_of_run _ _ _ _ _ _ E) as R. split.
  - rewrite (has_tag_reach _ _ _ _ _ R). clear. induction h as [|x h IH]; cbn [added_tags In].
    + split; [intros []|intros (t' & [] & _)].
    + destruct x; cbn [added_tags In]; rewrite ?IH; split.
      all: try (intros (t' & H & <-); exists t'; auto; fail).
      all: try (intros (t' & [H|H] & <-); [discriminate|exists t'; auto]).
      * intros [<-|(t' & H & <-)]; eauto.
      * intros (t' & [[= <-]|H] & <-); eauto.
  - pose proof (tags_lists_lists _ _ (r_tags _ _ _ _ R)) as L. split; [exact L|exact (lists_nodup _ _ L)].
Qed.
Print Assumptions C17_tags.
(** Right after add_tag the "tags" field is the list of the log's tags, and nothing else changed. *)
Theorem C17_tags_field : forall P h m r o l t, run P h (log_new m r o) = Val l ->
  log_field "tags" (add_tag t l) = Some (Array (log_tags (add_tag t l))) /\
  (forall n, n <> "tags" -> log_field n (add_tag t l) = log_field n l) /\
  (forall x, In x (log_tags (add_tag t l)) <-> x = to_lower t \/ In x (log_tags l)).
Proof.
  intros P h m r o l t E. pose proof (reach_of_run _ _ _ _ _ _ E) as R. split; [exact (tags_field _ _ _ _ t _ R eq_refl)|]. split.
  - intros n Hn. rewrite field_add_tag. destruct (Ord.keqb_spec n "tags"); [contradiction|reflexivity].
  - intros x. unfold log_tags, add_tag. cbn [l_tags]. apply elems_add.
Qed.
Print Assumptions C17_tags_field.
Example C17_nonvacuous : log_tags (add_tag "Low" (add_tag "high" (add_tag "LOW" (log_new "" 0 "")))) = ["high"; "low"].
Proof. reflexivity. Qed.

(** C18. *)
Theorem C18_headers : forall l h s, header_get h (header_set h s l) = s /\
  (forall k, k <> h -> header_get k (header_set h s l) = header_get k l) /\
  event_created (header_set h s l) = event_created l /\ event_received (header_set h s l) = event_received l.
Proof.
  intros l h s. rewrite header_set_put. splits.
  - rewrite header_get_text. unfold get_text. rewrite field_put, Ord.keqb_refl. reflexivity.
  - intros k Hk. rewrite !header_get_text. unfold get_text. rewrite field_put.
    destruct (Ord.keqb_spec (header_name k) (header_name h)) as [E|]; [exfalso; apply Hk, header_name_inj, E|reflexivity].
  - unfold event_created. rewrite field_put. destruct h; reflexivity.
  - unfold event_received. rewrite field_put. destruct h; reflexivity.
Qed.
Print Assumptions C18_headers.
(** A setter's value is also what [field] returns under the documented name. *)
Theorem C18_header_fields : forall l h s, log_field (header_name h) (header_set h s l) = Some (Text s).
Proof. intros. rewrite header_set_put, field_put, Ord.keqb_refl. reflexivity. Qed.
Print Assumptions C18_header_fields.
Theorem C18_new : forall m r o, log_message (log_new m r o) = m /\ log_origin (log_new m r o) = o /\
  event_created (log_new m r o) = r /\ event_received (log_new m r o) = r /\
  forall h, h <> HMessage -> h <> HOrigin -> header_get h (log_new m r o) = "".
Proof. intros. splits; try reflexivity. intros [] H1 H2; try reflexivity; congruence. Qed.
Print Assumptions C18_new.
(** C106. Full property: [event_created (set_event_created z l) = z]. The setter stores an I64, the getter reads a Date: *)
Theorem C106_set_event_created_refuted : forall z l, event_created (set_event_created z l) = 0%Z.
Proof. intros z l. unfold event_created, set_event_created. rewrite field_put. reflexivity. Qed.
Print Assumptions C106_set_event_created_refuted.
Theorem C18_set_event_created : forall z l, log_field "event.created" (set_event_created z l) = Some (I64 z) /\
  event_received (set_event_created z l) = event_received l /\
  forall h, header_get h (set_event_created z l) = header_get h l.
Proof.
  intros z l. unfold set_event_created. splits.
  - rewrite field_put. reflexivity.
  - unfold event_received. rewrite field_put. reflexivity.
  - intros h. rewrite !header_get_text. unfold get_text. rewrite field_put. destruct h; reflexivity.
Qed.
Print Assumptions C18_set_event_created.
Example C18_nonvacuous : header_get HVendor (header_set HVendor "acme" (log_new "m" 5 "o")) = "acme".
Proof. reflexivity. Qed.
