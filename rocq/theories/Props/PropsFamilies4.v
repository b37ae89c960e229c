(** More refuted properties, for whole families of inputs: C171. *)
From Coq Require Import ZArith List Bool Lia.
From Verif Require Import Base.Arith Base.Sched Base.Outcome Model.Field Model.Metrics Spec.MetricsSpec Proofs.MetricsP Props.PropsMetrics.
Import ListNotations.

Lemma interleaves_after {A} (ths : list (list A)) tr l : interleaves ths tr -> interleaves (ths ++ [l]) (tr ++ l).
Proof.
  induction 1 as [ths F|pre a t post tr I IH].
  - assert (E : concat (ths ++ [l]) = l).
    { rewrite concat_app. cbn [concat]. rewrite app_nil_r. replace (concat ths) with (@nil A); [reflexivity|]. symmetry.
      induction F as [|t ths -> F IHF]; [reflexivity|exact IHF]. }
    cbn [app]. pose proof (interleaves_seq (ths ++ [l])) as I. rewrite E in I. exact I.
  - cbn [app]. rewrite <- app_assoc in IH |- *. cbn [app] in IH |- *. apply il_step. exact IH.
Qed.
Lemma added n tr i v : (i < n)%nat ->
  counter_get (act_run (zeros n) (tr ++ ccall_acts n (CIncBy i v))) i = wrap_i64 (counter_get (act_run (zeros n) tr) i + v).
Proof.
  intro L. unfold act_run. rewrite fold_left_app. fold (act_run (zeros n) tr). cbn [ccall_acts fold_left act_step].
  unfold counter_get. rewrite upd_nth by (rewrite act_len; unfold zeros; rewrite repeat_length; exact L). rewrite Nat.eqb_refl. reflexivity.
Qed.

(** Any calls of any threads, in any order, without a reset of the series; then a call [inc_by v] of one more thread.
    If [v] is negative and the sum does not pass the least 64-bit integer, the series reads less than before, by exactly as much. *)
Theorem C171_any_negative_refuted : forall n (ths : list (list ccall)) tr i v, (i < n)%nat ->
  (forall th c, In th ths -> In c th -> ~ resets i c) -> interleaves (map (flat_map (ccall_acts n)) ths) tr ->
  (v < 0)%Z -> (- 2 ^ 63 <= counter_get (act_run (zeros n) tr) i + v)%Z ->
  interleaves (map (flat_map (ccall_acts n)) (ths ++ [[CIncBy i v]])) (tr ++ ccall_acts n (CIncBy i v)) /\
  (counter_get (act_run (zeros n) (tr ++ ccall_acts n (CIncBy i v))) i = counter_get (act_run (zeros n) tr) i + v)%Z.
Proof.
  intros n ths tr i v LN NR I V LO. split.
  - rewrite map_app. exact (interleaves_after _ _ _ I).
  - rewrite added by exact LN. destruct (C23_no_lost_increments n ths tr i LN NR I) as [B _]. unfold wrap_i64.
    set (g := counter_get _ _) in *. clearbody g. rewrite Z.mod_small by lia. lia.
Qed.
(** If [v] is positive and the sum passes the greatest 64-bit integer, the series reads the sum less 2^64: a negative number, and less than before. *)
Theorem C171_any_wrap_refuted : forall n (ths : list (list ccall)) tr i v, (i < n)%nat ->
  (forall th c, In th ths -> In c th -> ~ resets i c) -> interleaves (map (flat_map (ccall_acts n)) ths) tr ->
  (v < 2 ^ 63)%Z -> (2 ^ 63 <= counter_get (act_run (zeros n) tr) i + v)%Z ->
  interleaves (map (flat_map (ccall_acts n)) (ths ++ [[CIncBy i v]])) (tr ++ ccall_acts n (CIncBy i v)) /\
  (counter_get (act_run (zeros n) (tr ++ ccall_acts n (CIncBy i v))) i = counter_get (act_run (zeros n) tr) i + v - 2 ^ 64)%Z /\
  (counter_get (act_run (zeros n) (tr ++ ccall_acts n (CIncBy i v))) i < 0)%Z /\
  (counter_get (act_run (zeros n) (tr ++ ccall_acts n (CIncBy i v))) i < counter_get (act_run (zeros n) tr) i)%Z.
Proof.
  intros n ths tr i v LN NR I V HI. split.
  - rewrite map_app. exact (interleaves_after _ _ _ I).
  - rewrite added by exact LN. destruct (C23_no_lost_increments n ths tr i LN NR I) as [B _]. unfold wrap_i64.
    set (g := counter_get _ _) in *. clearbody g.
    assert (E : ((g + v + 2 ^ 63) mod 2 ^ 64 = g + v + 2 ^ 63 - 2 ^ 64)%Z).
    { symmetry. apply Z.mod_unique with (q := 1%Z); lia. }
    rewrite E. splits; lia.
Qed.
Example C171_families_case : let ths := [[CInc 0; CIncBy 1 5]; [CIncBy 0 9223372036854775800]] in
  (forall th c, In th ths -> In c th -> ~ resets 0 c) /\
  exists tr, interleaves (map (flat_map (ccall_acts 2)) ths) tr /\
    counter_get (act_run (zeros 2) tr) 0 = 9223372036854775801%Z /\
    counter_get (act_run (zeros 2) (tr ++ ccall_acts 2 (CIncBy 0 (-1)))) 0 = 9223372036854775800%Z /\
    counter_get (act_run (zeros 2) (tr ++ ccall_acts 2 (CIncBy 0 7))) 0 = (-9223372036854775808)%Z.
Proof.
  cbv zeta. split.
  - intros th c [<-|[<-|[]]] H; simpl in H; destruct H as [<-|H]; try (intros [X|X]; discriminate X).
    + destruct H as [<-|[]]. intros [X|X]; discriminate X.
    + destruct H.
  - eexists. split; [apply interleaves_seq|]. splits; reflexivity.
Qed.
Print Assumptions C171_any_negative_refuted.
Print Assumptions C171_any_wrap_refuted.
