From Coq Require Import List Lia Arith.
From Verif Require Import Base.Arith Base.Outcome Model.Ip Model.Datasets Model.NetDataset Spec.DatasetSpec Spec.DatasetRuns Spec.SyncSpec Proofs.DatasetP.
Import ListNotations.

Section Core.
  Context {A R D : Type} (ins : A -> D -> outcome D) (rem : R -> D -> outcome D).
  Definition eff (d : outcome D) (u : update A R D) : outcome D :=
    let! d := d in match u with Add a => ins a d | Remove r => rem r d | Replace d' => Val d' end.
  Definition meant (x : scall A R D) : update A R D := match x with SInsert a => Add a | SRemove r => Remove r | SUpdate d => Replace d end.
  Lemma direct_meant xs : forall d, directly_o ins rem d xs = fold_left eff (map meant xs) (Val d).
  Proof.
    intros d. unfold directly_o. generalize (Val d) as o. clear d. induction xs as [|x xs IH]; intros o; [reflexivity|].
    cbn [fold_left map]. rewrite IH. f_equal. destruct x; reflexivity.
  Qed.
  Variable apply : D -> list (update A R D) -> outcome D.
  Hypothesis apply_def : forall d us, us <> [] -> apply d us = fold_left eff us (Val d).
  Lemma fold_eff_stuck us (o : outcome D) : (forall d, o <> Val d) -> fold_left eff us o = o.
  Proof.
    intros H. induction us as [|u us IH]; [reflexivity|]. cbn [fold_left].
    replace (eff o u) with o; [exact IH|]. destruct o; [exfalso; exact (H _ eq_refl)|reflexivity|reflexivity].
  Qed.
  Lemma call_queue c x : alive c = true -> length (queue c) < cap c ->
    do_call c x = Chan (cap c) (queue c ++ [meant x]) true.
  Proof.
    intros HA HL. apply Nat.ltb_lt in HL. unfold do_call, syn_insert, syn_remove, syn_update, try_send. rewrite HA, HL.
    destruct x; reflexivity.
  Qed.
  Lemma run_stuck es (o : outcome (chan (update A R D) * D)) : (forall s, o <> Val s) -> fold_left (sync_step apply) es o = o.
  Proof.
    intros H. induction es as [|e es IH]; [reflexivity|]. cbn [fold_left].
    replace (sync_step apply o e) with o; [exact IH|]. destruct o; [exfalso; exact (H _ eq_refl)|reflexivity|reflexivity].
  Qed.
  Lemma sync_spec es : forall c d used, alive c = true -> length (queue c) = used -> fits (cap c) used es ->
    match sync_run apply c d es with
    | Val (c', d') => fold_left eff (queue c') (Val d') = fold_left eff (queue c ++ map meant (calls es)) (Val d) /\
                      alive c' = true /\ cap c' = cap c
    | _ => forall r, fold_left eff (queue c ++ map meant (calls es)) (Val d) <> Val r
    end.
  Proof.
    induction es as [|[x|] es IH]; intros c d used HA HU HF.
    - unfold sync_run. cbn [fold_left calls flat_map map]. rewrite app_nil_r. auto.
    - destruct HF as [HL HF]. unfold sync_run. cbn [fold_left sync_step obind].
      rewrite call_queue by (try assumption; lia).
      specialize (IH (Chan (cap c) (queue c ++ [meant x]) true) d (S used) eq_refl).
      cbn [queue cap alive] in IH. rewrite app_length in IH. cbn [length] in IH. specialize (IH ltac:(lia) HF).
      cbn [calls flat_map app map]. rewrite <- app_assoc in IH. exact IH.
    - cbn [fits] in HF. unfold sync_run. cbn [fold_left sync_step obind calls flat_map app].
      destruct (queue c) as [|u q] eqn:Q.
      + specialize (IH c d 0 HA ltac:(rewrite Q; reflexivity) HF). unfold sync_run in IH. rewrite Q in IH. exact IH.
      + rewrite apply_def by discriminate. rewrite fold_left_app.
        destruct (fold_left eff (u :: q) (Val d)) as [d1| |] eqn:E; cbn [obind].
        * specialize (IH (Chan (cap c) [] (alive c)) d1 0 HA eq_refl HF). unfold sync_run in IH. cbn [queue cap app] in IH. exact IH.
        * rewrite run_stuck by discriminate. intros r. rewrite fold_eff_stuck; discriminate.
        * rewrite run_stuck by discriminate. intros r. rewrite fold_eff_stuck; discriminate.
  Qed.
  (** Ending with a publication, the snapshot is what the calls mean. *)
  Lemma sync_published es c d : alive c = true -> queue c = [] -> fits (cap c) 0 es ->
    match directly_o ins rem d (calls es) with
    | Val d' => sync_run apply c d (es ++ [Publish]) = Val (c, d')
    | _ => forall s, sync_run apply c d (es ++ [Publish]) <> Val s
    end.
  Proof.
    intros HA HQ HF. rewrite direct_meant.
    pose proof (sync_spec es c d 0 HA ltac:(rewrite HQ; reflexivity) HF) as S. rewrite HQ in S. cbn [app] in S.
    unfold sync_run in *. rewrite fold_left_app. cbn [fold_left].
    destruct (fold_left (sync_step apply) es (Val (c, d))) as [[c' d']| |].
    - destruct S as (S & A' & C'). cbn [sync_step obind]. destruct c' as [k q al]. cbn [queue alive cap] in *. subst k al.
      destruct c as [k0 q0 a0]. cbn [queue alive cap] in *. subst q0 a0. rewrite <- S.
      destruct q as [|u q]; [reflexivity|]. rewrite apply_def by discriminate.
      destruct (fold_left eff (u :: q) (Val d')) as [d2| |]; cbn [obind]; [reflexivity|discriminate|discriminate].
    - destruct (fold_left eff (map meant (calls es)) (Val d)) as [r| |]; [exfalso; exact (S r eq_refl)|discriminate|discriminate].
    - destruct (fold_left eff (map meant (calls es)) (Val d)) as [r| |]; [exfalso; exact (S r eq_refl)|discriminate|discriminate].
  Qed.
End Core.

Section Total.
  Context {A R D : Type} (ins : A -> D -> D) (rem : R -> D -> D).
  Lemma directly_total xs : forall d, directly_o (fun a d => Val (ins a d)) (fun r d => Val (rem r d)) d xs = Val (directly ins rem d xs).
  Proof.
    unfold directly_o, directly. induction xs as [|x xs IH]; intros d; [reflexivity|]. cbn [fold_left obind].
    destruct x; apply IH.
  Qed.
  Lemma eff_total us : forall d, fold_left (eff (fun a d => Val (ins a d)) (fun r d => Val (rem r d))) us (Val d) = Val (fold_left (upd1 ins rem) us d).
  Proof. induction us as [|u us IH]; intros d; [reflexivity|]. cbn [fold_left eff obind]. destruct u; apply IH. Qed.
  Variable apply : D -> list (update A R D) -> outcome D.
  Hypothesis apply_def : forall d us, apply d us = match us with [] => Panic | _ => Val (fold_left (upd1 ins rem) us d) end.
  Lemma sync_total es c d : alive c = true -> queue c = [] -> fits (cap c) 0 es ->
    sync_run apply c d (es ++ [Publish]) = Val (c, directly ins rem d (calls es)).
  Proof.
    intros HA HQ HF. pose proof (sync_published (fun a d => Val (ins a d)) (fun r d => Val (rem r d)) apply) as P.
    specialize (P ltac:(intros d0 us Hn; rewrite apply_def, eff_total; destruct us; [contradiction|reflexivity]) es c d HA HQ HF).
    rewrite directly_total in P. exact P.
  Qed.
End Total.

Definition ip_net_ins {T} (x : siem_ip * BinNums.N * T) (d : ip_net T) : outcome (ip_net T) := let '(a, n, v) := x in ip_net_insert a n v d.
Definition ip_net_rem {T} (x : siem_ip * BinNums.N) (d : ip_net T) : outcome (ip_net T) := let '(a, n) := x in ip_net_remove a n d.
Lemma ip_net_apply_eff {T} (d : ip_net T) us : us <> [] -> ip_net_apply d us = fold_left (eff ip_net_ins ip_net_rem) us (Val d).
Proof.
  assert (H : forall us (d : ip_net T), ip_net_rest d us = fold_left (eff ip_net_ins ip_net_rem) us (Val d)).
  { clear. induction us as [|[[[a n] v]|[a n]|x] us IH]; intros d; cbn [ip_net_rest fold_left eff obind ip_net_ins ip_net_rem]; auto.
    - destruct (ip_net_insert a n v d); cbn [obind]; [apply IH|rewrite fold_eff_stuck; auto; discriminate|rewrite fold_eff_stuck; auto; discriminate].
    - destruct (ip_net_remove a n d); cbn [obind]; [apply IH|rewrite fold_eff_stuck; auto; discriminate|rewrite fold_eff_stuck; auto; discriminate]. }
  destruct us as [|u us]; [contradiction|]. intros _. unfold ip_net_apply. cbn [fold_left].
  destruct u as [[[a n] v]|[a n]|x]; cbn [eff obind ip_net_ins ip_net_rem].
  - destruct (ip_net_insert a n v d); cbn [obind]; [apply H|rewrite fold_eff_stuck; auto; discriminate|rewrite fold_eff_stuck; auto; discriminate].
  - destruct (ip_net_remove a n d); cbn [obind]; [apply H|rewrite fold_eff_stuck; auto; discriminate|rewrite fold_eff_stuck; auto; discriminate].
  - apply H.
Qed.
Lemma ip_net_apply_eff' {T} (d : ip_net T) us : us <> [] ->
  ip_net_apply d us = fold_left (eff (fun x d => ip_net_insert (fst (fst x)) (snd (fst x)) (snd x) d) (fun x d => ip_net_remove (fst x) (snd x) d)) us (Val d).
Proof.
  intros H. rewrite ip_net_apply_eff by exact H. clear H. generalize (Val d) as o.
  induction us as [|u us IH]; intros o; [reflexivity|]. cbn [fold_left]. rewrite IH. f_equal.
  destruct o; [|reflexivity|reflexivity]. destruct u as [[[? ?] ?]|[? ?]|?]; reflexivity.
Qed.
