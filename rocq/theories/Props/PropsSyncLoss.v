(** C195: what a synchronised dataset keeps when its channel overflows. *)
From Coq Require Import String NArith List Bool Lia.
From Verif Require Import Base.Arith Base.Ord Base.BTree Base.Outcome Model.Ip Model.Datasets Model.NetDataset
  Spec.DatasetSpec Spec.DatasetRuns Spec.SyncSpec Spec.SyncLossSpec Proofs.DatasetP Proofs.SyncP Props.PropsSync.
Import ListNotations.
Local Open Scope list_scope.

(** the history without the calls that are not heard *)
Fixpoint thin {A R D} (slots waiting : nat) (es : list (sevent A R D)) : list (sevent A R D) :=
  match es with
  | [] => []
  | Call x :: r => if Nat.ltb waiting slots then Call x :: thin slots (S waiting) r else thin slots waiting r
  | Publish :: r => Publish :: thin slots 0 r
  end.
Lemma thin_calls {A R D} slots (es : list (sevent A R D)) : forall w, calls (thin slots w es) = heard slots w es.
Proof.
  induction es as [|[x|] es IH]; intro w; [reflexivity| |exact (IH 0)]. simpl. destruct (Nat.ltb w slots); [|apply IH]. simpl. f_equal. apply IH.
Qed.
Lemma thin_fits {A R D} slots (es : list (sevent A R D)) : forall w, fits slots w (thin slots w es).
Proof.
  induction es as [|[x|] es IH]; intro w; [exact I| |exact (IH 0)]. simpl. destruct (Nat.ltb_spec w slots) as [L|L]; [|apply IH]. split; [exact L|apply IH].
Qed.
Lemma thin_app {A R D} slots (es : list (sevent A R D)) : forall w, thin slots w (es ++ [Publish]) = thin slots w es ++ [Publish].
Proof.
  induction es as [|[x|] es IH]; intro w; [reflexivity| |simpl; f_equal; apply IH]. simpl. destruct (Nat.ltb w slots); simpl; rewrite IH; reflexivity.
Qed.
Section Loss.
  Context {A R D : Type} (apply : D -> list (update A R D) -> outcome D).
  Lemma run_thin es : forall (c : chan (update A R D)) d, alive c = true ->
    sync_run apply c d es = sync_run apply c d (thin (cap c) (length (queue c)) es).
  Proof.
    unfold sync_run. induction es as [|[x|] es IH]; intros c d HA; [reflexivity| |].
    - cbn [thin fold_left]. destruct (Nat.ltb_spec (length (queue c)) (cap c)) as [L|L].
      + cbn [fold_left sync_step obind]. rewrite (call_queue c x HA L). rewrite IH by reflexivity. cbn [cap queue]. rewrite app_length, Nat.add_comm. reflexivity.
      + cbn [sync_step obind]. replace (do_call c x) with c; [apply IH, HA|]. apply Nat.ltb_ge in L.
        unfold do_call, syn_insert, syn_remove, syn_update, try_send; rewrite HA, L; destruct x; reflexivity.
    - cbn [thin fold_left sync_step obind]. destruct (queue c) as [|u us] eqn:Q.
      + rewrite IH by exact HA. rewrite Q. reflexivity.
      + destruct (apply d (u :: us)) as [d'| |]; cbn [obind].
        * rewrite IH by exact HA. reflexivity.
        * rewrite !run_stuck by discriminate. reflexivity.
        * rewrite !run_stuck by discriminate. reflexivity.
  Qed.
End Loss.

(** * C195 *)
(** Whatever the capacity of the channel and however many calls are made between publications: after a last publication the snapshot is what
    the calls that were heard, made directly on the dataset, would have left: each call made while the channel had a slot is heard, and no other. *)
Theorem C195_ip_sets : forall es (c : chan update_ip_set) d, alive c = true -> queue c = [] ->
  sync_run ip_set_apply c d (es ++ [Publish]) = Val (c, directly ip_set_insert ip_set_remove d (heard (cap c) 0 es)).
Proof.
  intros es c d HA HQ. rewrite run_thin by exact HA. rewrite HQ, thin_app, (C84_ip_sets _ c d HA HQ (thin_fits _ _ _)), thin_calls. reflexivity.
Qed.
Theorem C195_ip_maps : forall (T : Type) es (c : chan (update_ip_map T)) d, alive c = true -> queue c = [] ->
  sync_run ip_map_apply c d (es ++ [Publish]) =
  Val (c, directly (fun p => ip_map_insert (fst p) (snd p)) ip_map_remove d (heard (cap c) 0 es)).
Proof.
  intros T es c d HA HQ. rewrite run_thin by exact HA. rewrite HQ, thin_app, (C84_ip_maps _ _ c d HA HQ (thin_fits _ _ _)), thin_calls. reflexivity.
Qed.
Theorem C195_text_maps : forall (T : Type) es (c : chan (update_text_map T)) d, alive c = true -> queue c = [] ->
  sync_run text_map_apply c d (es ++ [Publish]) =
  Val (c, directly (fun p => text_map_insert (fst p) (snd p)) text_map_remove d (heard (cap c) 0 es)).
Proof.
  intros T es c d HA HQ. rewrite run_thin by exact HA. rewrite HQ, thin_app, (C84_text_maps _ _ c d HA HQ (thin_fits _ _ _)), thin_calls. reflexivity.
Qed.
Theorem C195_ip_nets : forall (T : Type) es (c : chan (update_ip_net T)) d, alive c = true -> queue c = [] ->
  match directly_o (fun x d => ip_net_insert (fst (fst x)) (snd (fst x)) (snd x) d) (fun x d => ip_net_remove (fst x) (snd x) d) d (heard (cap c) 0 es) with
  | Val d' => sync_run ip_net_apply c d (es ++ [Publish]) = Val (c, d')
  | _ => forall s, sync_run ip_net_apply c d (es ++ [Publish]) <> Val s
  end.
Proof.
  intros T es c d HA HQ. pose proof (C84_ip_nets T (thin (cap c) 0 es) c d HA HQ (thin_fits _ _ _)) as H. rewrite thin_calls in H.
  rewrite run_thin by exact HA. rewrite HQ, thin_app. exact H.
Qed.
(** Nothing is lost exactly if the channel never overflows; what is heard is always a part of the calls, in their order. *)
Theorem C195_all_heard : forall (A R D : Type) slots (es : list (sevent A R D)),
  (heard slots 0 es = calls es <-> fits slots 0 es) /\ length (heard slots 0 es) <= length (calls es).
Proof.
  intros A R D slots es. assert (L : forall w, length (heard slots w es) <= length (calls es)).
  { induction es as [|[x|] es IH]; intro w; [apply le_n| |exact (IH 0)]. cbn [heard]. change (calls (Call x :: es)) with (x :: calls es). cbn [length].
    destruct (Nat.ltb w slots); [cbn [length]; specialize (IH (S w)); lia|specialize (IH w); lia]. }
  split; [|apply L]. clear L. generalize 0 as w. induction es as [|[x|] es IH]; intro w; [simpl; tauto| |exact (IH 0)].
  cbn [heard fits]. change (calls (Call x :: es)) with (x :: calls es). destruct (Nat.ltb_spec w slots) as [Lw|Lw].
  - rewrite <- IH. split; [intro H; inversion H as [H']; auto|intros [_ ->]; reflexivity].
  - split; [|intros [X _]; lia]. intro H. exfalso.
    assert (L : length (heard slots w es) <= length (calls es)).
    { clear. revert w. induction es as [|[x|] es IH]; intro w; [apply le_n| |exact (IH 0)]. cbn [heard]. change (calls (Call x :: es)) with (x :: calls es). cbn [length].
      destruct (Nat.ltb w slots); [cbn [length]; specialize (IH (S w)); lia|specialize (IH w); lia]. }
    rewrite H in L. cbn [length] in L. lia.
Qed.
(** The reader of a published set: an address is in it iff the last call about it that was heard inserted it. *)
Theorem C195_reader_set : forall (ops : list (op siem_ip unit)) es (c : chan update_ip_set),
  alive c = true -> queue c = [] -> heard (cap c) 0 es = map as_set_call ops ->
  exists d, sync_run ip_set_apply c ip_set_new (es ++ [Publish]) = Val (c, d) /\
    forall ip, ip_set_contains ip d = true <-> lives eq ops ip tt.
Proof.
  intros ops es c HA HQ HH. destruct (C84_reader_set ops (thin (cap c) 0 es) c HA HQ (thin_fits _ _ _)) as (d & R & H).
  - rewrite thin_calls. exact HH.
  - exists d. split; [|exact H]. rewrite run_thin by exact HA. rewrite HQ, thin_app. exact R.
Qed.
(** A reader of a published map gets the value of the last call about the key that was heard, if it inserted one. *)
Theorem C195_reader_ip_map : forall (T : Type) (ops : list (op siem_ip T)) es (c : chan (update_ip_map T)),
  alive c = true -> queue c = [] -> heard (cap c) 0 es = map as_call ops ->
  exists d, sync_run ip_map_apply c ip_map_new (es ++ [Publish]) = Val (c, d) /\
    forall ip v, ip_map_get ip d = Some v <-> lives eq ops ip v.
Proof.
  intros T ops es c HA HQ HH. destruct (C84_reader_ip_map T ops (thin (cap c) 0 es) c HA HQ (thin_fits _ _ _)) as (d & R & H).
  - rewrite thin_calls. exact HH.
  - exists d. split; [|exact H]. rewrite run_thin by exact HA. rewrite HQ, thin_app. exact R.
Qed.
Theorem C195_reader_text_map : forall (T : Type) (ops : list (op string T)) es (c : chan (update_text_map T)),
  alive c = true -> queue c = [] -> heard (cap c) 0 es = map as_call ops ->
  exists d, sync_run text_map_apply c text_map_new (es ++ [Publish]) = Val (c, d) /\
    forall k v, text_map_get k d = Some v <-> lives eq ops k v.
Proof.
  intros T ops es c HA HQ HH. destruct (C84_reader_text_map T ops (thin (cap c) 0 es) c HA HQ (thin_fits _ _ _)) as (d & R & H).
  - rewrite thin_calls. exact HH.
  - exists d. split; [|exact H]. rewrite run_thin by exact HA. rewrite HQ, thin_app. exact R.
Qed.
(** A channel whose receiver is gone hears nothing. *)
Theorem C195_no_receiver : forall (A R D : Type) (apply : D -> list (update A R D) -> outcome D) es (c : chan (update A R D)) d,
  alive c = false -> queue c = [] -> sync_run apply c d es = Val (c, d).
Proof.
  intros A R D apply es [n q al] d HA HQ. cbn in HA, HQ. subst. unfold sync_run. induction es as [|[x|] es IH]; [reflexivity| |exact IH].
  cbn [fold_left sync_step obind]. destruct x; exact IH.
Qed.
Example C195_case : let c := Chan 2 [] true : chan update_ip_set in
  let es := [Call (SInsert (V4 1)); Call (SInsert (V4 2)); Call (SInsert (V4 3)); Call (SRemove (V4 1)); Publish; Call (SRemove (V4 2)); Call (SInsert (V6 1))] in
  heard (cap c) 0 es = map as_set_call [Ins (V4 1) tt; Ins (V4 2) tt; Del (V4 2); Ins (V6 1) tt] /\ ~ fits (cap c) 0 es /\
  exists d, sync_run ip_set_apply c ip_set_new (es ++ [Publish]) = Val (c, d) /\ ip_set_contains (V4 1) d = true /\ ip_set_contains (V4 3) d = false.
Proof. cbv zeta. split; [reflexivity|]. split; [simpl; lia|]. eexists. split; [vm_compute; reflexivity|split; reflexivity]. Qed.
Print Assumptions C195_ip_sets.
Print Assumptions C195_ip_maps.
Print Assumptions C195_text_maps.
Print Assumptions C195_ip_nets.
Print Assumptions C195_all_heard.
Print Assumptions C195_reader_set.
Print Assumptions C195_no_receiver.
Print Assumptions C195_reader_ip_map.
Print Assumptions C195_reader_text_map.
