From Coq Require Import String List ZArith Sorted.
From Verif Require Import Base.Arith Base.Ord Base.BTree Base.Str Base.Outcome Model.Ip Model.Field Model.Log Model.Schema
  Spec.LogSpec Spec.LogEditSpec Proofs.LogP Proofs.SchemaP Proofs.LogEditP.
Import ListNotations.
Local Open Scope string_scope.

(** * C193 What typed reads answer when fields are also edited in place and schemas applied *)

(** No history aborts; every typed read of every name is told by [stands], and [stands] tells only one answer. The read changes no value. *)
Theorem C193_reads : forall P h m r o k n, exists l a l',
  edits P h (log_new m r o) = Val l /\ typed_read P k n l = Val (a, l') /\ (forall i, log_field i l' = log_field i l) /\
  stands P (log_new m r o) k n h a /\ (forall b, stands P (log_new m r o) k n h b -> b = a).
Proof.
  intros P h m r o k n. destruct (edits_total P h (log_new m r o)) as [l L]. destruct (stands_total P m r o k n h) as [a S].
  destruct (holds_read P k n a l (stands_holds _ _ _ _ _ _ _ _ S l L)) as (l' & R & _ & F). exists l, a, l'. splits; auto.
  intros b B. destruct (holds_read P k n b l (stands_holds _ _ _ _ _ _ _ _ B l L)) as (l2 & R2 & _). rewrite R in R2. injection R2 as <- _. reflexivity.
Qed.
Print Assumptions C193_reads.

(** The values themselves: a write, an in-place edit and a schema do what they say, to that field only; nothing else changes a value. *)
Theorem C193_values : forall P l l' n, 
  (forall m v, edit_step P (EMut m v) l = Val l' ->
    log_field n l' = if string_dec n m then match log_field n l with Some _ => Some v | None => None end else log_field n l) /\
  (forall g, edit_step P (EMutAll g) l = Val l' -> log_field n l' = option_map (g n) (log_field n l)) /\
  (forall s, edit_step P (ESchema s) l = Val l' -> log_field n l' = match get_field n s with Some _ => log_field n l | None => None end) /\
  (forall k m, edit_step P (ECall (ORead k m)) l = Val l' -> log_field n l' = log_field n l).
Proof.
  intros P l l' n. splits.
  - intros m v [= <-]. unfold field_mut_set, log_field. destruct (string_dec n m) as [->|D].
    + destruct (bt_get m (l_fields l)) eqn:G; cbn [option_map l_fields]; [rewrite bt_get_insert_eq; reflexivity|rewrite G; reflexivity].
    + destruct (bt_get m (l_fields l)); cbn [l_fields]; [rewrite bt_get_insert_ne by exact D|]; reflexivity.
  - intros g [= <-]. unfold log_field, iter_mut_map. cbn [l_fields]. rewrite get_map. destruct (bt_get n (l_fields l)); reflexivity.
  - intros s [= <-]. rewrite apply_field. unfold bt_has, get_field. destruct (bt_get n (s_fields s)); reflexivity.
  - intros k m E. destruct (read_spec P k m l) as (a & l1 & R & _ & _ & _ & F & _). rewrite (read_step _ _ _ _ _ _ R) in E. injection E as <-. apply F.
Qed.
Print Assumptions C193_values.

(** ip_fields after any such history: of the names that ever received an address, in order, those before the first one that is gone,
    each with its current value. *)
Theorem C193_ip_fields : forall P h m r o l, edits P h (log_new m r o) = Val l ->
  exists names rest, StronglySorted (fun a b => String.compare a b = Lt) names /\
    (forall n, In n names <-> exists a, In (ECall (OInsert n (IP a))) h) /\
    names = (map fst (ip_fields l) ++ rest)%list /\
    (forall n v, In (n, v) (ip_fields l) -> log_field n l = Some v) /\
    (forall n r, rest = n :: r -> log_field n l = None).
Proof.
  intros P h m r o l L. destruct (edits_ips P m r o h l L) as [Wf I]. destruct (ip_iter_prefix (bset_elems (l_ip_fields l)) (l_fields l)) as (rest & E & A & B).
  exists (bset_elems (l_ip_fields l)), rest. split; [apply (bt_keys_sorted _ Wf)|]. split; [exact I|]. split; [exact E|]. split; [exact A|].
  intros n r' R. unfold log_field. rewrite (B n r' R). reflexivity.
Qed.
Print Assumptions C193_ip_fields.

(** C103, for every value and every history: once a typed read was answered, the same read gives the same answer until the field is
    written again, whatever it is changed to in place ... *)
Theorem C103_after_read_refuted : forall P h m r o k n h2 l l1 l2 a,
  edits P h (log_new m r o) = Val l -> typed_read P k n l = Val (a, l1) -> unwritten n h2 -> edits P h2 l1 = Val l2 ->
  exists l3, typed_read P k n l2 = Val (a, l3).
Proof.
  intros P h m r o k n h2 l l1 l2 a L R U L2.
  destruct (C193_reads P h m r o k n) as (l' & a' & l1' & L' & R' & _ & S & _). rewrite L in L'. injection L' as <-. rewrite R in R'. injection R' as <- <-.
  assert (E : edits P (h ++ ECall (ORead k n) :: h2) (log_new m r o) = Val l2).
  { rewrite edits_app, L. cbn [obind]. cbn [edits]. rewrite (read_step _ _ _ _ _ _ R). exact L2. }
  assert (S2 : stands P (log_new m r o) k n (h ++ ECall (ORead k n) :: h2) a).
  { apply St_read; [exact S|exact U]. }
  destruct (holds_read P k n a l2 (stands_holds _ _ _ _ _ _ _ _ S2 l2 E)) as (l3 & R3 & _). eauto.
Qed.
Print Assumptions C103_after_read_refuted.
(** ... and so does, from the start, the read of the kind of the value that was written. *)
Theorem C103_after_write_refuted : forall P h m r o k n v w a l, of_kind k v -> converts P k v a ->
  edits P (h ++ [ECall (OInsert n v); EMut n w]) (log_new m r o) = Val l ->
  log_field n l = Some w /\ exists l', typed_read P k n l = Val (a, l').
Proof.
  intros P h m r o k n v w a l K C L.
  assert (S : stands P (log_new m r o) k n (h ++ [ECall (OInsert n v); EMut n w]) a).
  { destruct (edits_total P (h ++ [ECall (OInsert n v)]) (log_new m r o)) as [l1 L1].
    assert (F : log_field n l1 = Some v).
    { rewrite edits_app in L1. destruct (edits P h _) as [l0| |]; try discriminate. cbn [obind edits edit_step step] in L1. injection L1 as <-.
      rewrite field_insert, keqb_refl. reflexivity. }
    eapply St_written; eauto; [reflexivity|]. constructor; [intros []|constructor]. }
  split.
  - rewrite edits_app in L. destruct (edits P h _) as [l0| |]; try discriminate. cbn [obind edits edit_step step] in L. injection L as <-.
    destruct (C193_values P (log_insert n v l0) (field_mut_set n w (log_insert n v l0)) n) as (V & _). rewrite (V n w eq_refl).
    destruct (string_dec n n); [|congruence]. rewrite field_insert, keqb_refl. reflexivity.
  - destruct (holds_read P k n a l (stands_holds _ _ _ _ _ _ _ _ S l L)) as (l3 & R3 & _). eauto.
Qed.
Print Assumptions C103_after_write_refuted.

(** A signed number read as an unsigned one, then edited, still reads as the old number; as a text it reads as the new one. *)
Example C193_case : forall P, let h := [ECall (OInsert "n" (I64 12)); ECall (ORead KU64 "n"); EMut "n" (Text "x")] in
  exists l l1 l2, edits P h (log_new "m" 1 "o") = Val l /\ typed_read P KU64 "n" l = Val (Some (AU64 12), l1) /\
    typed_read P KText "n" l = Val (Some (AText "x"), l2) /\ unwritten "n" [EMut "n" (Text "x")] /\
    stands P (log_new "m" 1 "o") KU64 "n" h (Some (AU64 12)).
Proof.
  intros P h. eexists _, _, _. split; [reflexivity|]. split; [reflexivity|]. split; [reflexivity|]. split; [repeat constructor; intros []|].
  apply (St_read P _ KU64 "n" [ECall (OInsert "n" (I64 12))] (Some (AU64 12)) [EMut "n" (Text "x")]); [|repeat constructor; intros []].
  eapply (St_now P _ KU64 "n" [] (ECall (OInsert "n" (I64 12))) _ []); [reflexivity|reflexivity| |constructor|intros []|reflexivity|].
  - intros v [= <-] F. inversion F.
  - exact (Cv_u64 P (I64 12)).
Qed.
