(** Property C84: a synchronised dataset in use, from the writing calls to the published snapshot
    (src/components/dataset: IpSetSynDataset, IpMapSynDataset, TextMapSynDataset, IpNetSynDataset). *)
From Coq Require Import String NArith List Bool Lia.
From Verif Require Import Base.Arith Base.Ord Base.BTree Base.Outcome Model.Ip Model.Datasets Model.NetDataset
  Spec.DatasetSpec Spec.DatasetRuns Spec.SyncSpec Proofs.DatasetP Proofs.SyncP.
Import ListNotations.
Local Open Scope string_scope.
Local Open Scope list_scope.

(** With a receiver and a free slot, each writing call leaves exactly the update it stands for, after those waiting. *)
Theorem C35_calls_delivered : forall (A R D : Type) (c : chan (update A R D)),
  alive c = true -> (length (queue c) < cap c)%nat ->
  (forall a, syn_insert c a = Chan (cap c) (queue c ++ [Add a]) true) /\
  (forall r, syn_remove c r = Chan (cap c) (queue c ++ [Remove r]) true) /\
  (forall d, syn_update c d = Chan (cap c) (queue c ++ [Replace d]) true).
Proof.
  intros A R D c HA HL. splits.
  - intros a. exact (call_queue c (SInsert a) HA HL).
  - intros r. exact (call_queue c (SRemove r) HA HL).
  - intros d. exact (call_queue c (SUpdate d) HA HL).
Qed.
Print Assumptions C35_calls_delivered.
(** Inserting a rule waits for a free slot instead of giving up; without a receiver it changes nothing. *)
Theorem C35_rule_insert : forall (R : Type) (c : chan (update R string (@rules_ds R))) rule,
  (alive c = true -> (length (queue c) < cap c)%nat -> rules_syn_insert c rule = Some (Chan (cap c) (queue c ++ [Add rule]) true)) /\
  (alive c = true -> (cap c <= length (queue c))%nat -> rules_syn_insert c rule = None) /\
  (alive c = false -> rules_syn_insert c rule = Some c).
Proof.
  intros R c rule. unfold rules_syn_insert, send. splits; intros HA; rewrite HA; [intros HL|intros HL|reflexivity].
  - apply Nat.ltb_lt in HL. rewrite HL. reflexivity.
  - apply Nat.ltb_ge in HL. rewrite HL. reflexivity.
Qed.
Print Assumptions C35_rule_insert.

(** However the publications are spread over the calls, as long as the channel never overflows: after a last publication
    the snapshot is what the calls, made directly on the dataset, would have left, and the channel is empty again. *)
Theorem C84_ip_sets : forall es (c : chan update_ip_set) d,
  alive c = true -> queue c = [] -> fits (cap c) 0 es ->
  sync_run ip_set_apply c d (es ++ [Publish]) = Val (c, directly ip_set_insert ip_set_remove d (calls es)).
Proof. exact (sync_total ip_set_insert ip_set_remove ip_set_apply ip_set_apply_def). Qed.
Print Assumptions C84_ip_sets.
Theorem C84_ip_maps : forall (T : Type) es (c : chan (update_ip_map T)) d,
  alive c = true -> queue c = [] -> fits (cap c) 0 es ->
  sync_run ip_map_apply c d (es ++ [Publish]) =
  Val (c, directly (fun p => ip_map_insert (fst p) (snd p)) ip_map_remove d (calls es)).
Proof. intros T. exact (sync_total ip_map_ins ip_map_remove ip_map_apply ip_map_apply_def). Qed.
Print Assumptions C84_ip_maps.
Theorem C84_text_maps : forall (T : Type) es (c : chan (update_text_map T)) d,
  alive c = true -> queue c = [] -> fits (cap c) 0 es ->
  sync_run text_map_apply c d (es ++ [Publish]) =
  Val (c, directly (fun p => text_map_insert (fst p) (snd p)) text_map_remove d (calls es)).
Proof. intros T. exact (sync_total text_map_ins text_map_remove text_map_apply text_map_apply_def). Qed.
Print Assumptions C84_text_maps.
(** Networks: the same, when no call aborts; and if one would, the owner aborts. *)
Theorem C84_ip_nets : forall (T : Type) es (c : chan (update_ip_net T)) d,
  alive c = true -> queue c = [] -> fits (cap c) 0 es ->
  match directly_o (fun x d => ip_net_insert (fst (fst x)) (snd (fst x)) (snd x) d) (fun x d => ip_net_remove (fst x) (snd x) d) d (calls es) with
  | Val d' => sync_run ip_net_apply c d (es ++ [Publish]) = Val (c, d')
  | _ => forall s, sync_run ip_net_apply c d (es ++ [Publish]) <> Val s
  end.
Proof.
  intros T es c d HA HQ HF. exact (sync_published (fun x d => ip_net_insert (fst (fst x)) (snd (fst x)) (snd x) d)
    (fun x d => ip_net_remove (fst x) (snd x) d) ip_net_apply ip_net_apply_eff' es c d HA HQ HF).
Qed.
Print Assumptions C84_ip_nets.

(** What a reader sees: an address is in the published set iff the last call about it inserted it; a map answers with the
    value of the last call about the key. *)
Definition as_call {K V D} (o : op K V) : scall (K * V) K D := match o with Ins k v => SInsert (k, v) | Del k => SRemove k end.
Definition as_set_call {K D} (o : op K unit) : scall K K D := match o with Ins k _ => SInsert k | Del k => SRemove k end.
Theorem C84_reader_set : forall (ops : list (op siem_ip unit)) es (c : chan update_ip_set),
  alive c = true -> queue c = [] -> fits (cap c) 0 es -> calls es = map as_set_call ops ->
  exists d, sync_run ip_set_apply c ip_set_new (es ++ [Publish]) = Val (c, d) /\
    forall ip, ip_set_contains ip d = true <-> lives eq ops ip tt.
Proof.
  intros ops es c HA HQ HF HC. eexists. split; [apply C84_ip_sets; assumption|]. intros ip. rewrite HC, <- ip_set_history.
  replace (directly ip_set_insert ip_set_remove ip_set_new (map as_set_call ops)) with (ip_set_run ops); [reflexivity|].
  unfold ip_set_run, directly. generalize ip_set_new as d. clear. induction ops as [|o ops IH]; intros d; [reflexivity|].
  cbn [fold_left map]. rewrite IH. destruct o; reflexivity.
Qed.
Print Assumptions C84_reader_set.
Theorem C84_reader_ip_map : forall (T : Type) (ops : list (op siem_ip T)) es (c : chan (update_ip_map T)),
  alive c = true -> queue c = [] -> fits (cap c) 0 es -> calls es = map as_call ops ->
  exists d, sync_run ip_map_apply c ip_map_new (es ++ [Publish]) = Val (c, d) /\
    forall ip v, ip_map_get ip d = Some v <-> lives eq ops ip v.
Proof.
  intros T ops es c HA HQ HF HC. eexists. split; [apply C84_ip_maps; assumption|]. intros ip v. rewrite HC, <- ip_map_history.
  match goal with |- ip_map_get ip ?x = _ <-> _ => replace x with (ip_map_run ops); [reflexivity|] end.
  unfold ip_map_run, directly. generalize (@ip_map_new T) as d. clear. induction ops as [|o ops IH]; intros d; [reflexivity|].
  cbn [fold_left map]. rewrite IH. destruct o; reflexivity.
Qed.
Print Assumptions C84_reader_ip_map.
Theorem C84_reader_text_map : forall (T : Type) (ops : list (op string T)) es (c : chan (update_text_map T)),
  alive c = true -> queue c = [] -> fits (cap c) 0 es -> calls es = map as_call ops ->
  exists d, sync_run text_map_apply c text_map_new (es ++ [Publish]) = Val (c, d) /\
    forall k v, text_map_get k d = Some v <-> lives eq ops k v.
Proof.
  intros T ops es c HA HQ HF HC. eexists. split; [apply C84_text_maps; assumption|]. intros k v. rewrite HC, <- text_map_history.
  match goal with |- text_map_get k ?x = _ <-> _ => replace x with (text_map_run ops); [reflexivity|] end.
  unfold text_map_run, directly. generalize (@text_map_new T) as d. clear. induction ops as [|o ops IH]; intros d; [reflexivity|].
  cbn [fold_left map]. rewrite IH. destruct o; reflexivity.
Qed.
Print Assumptions C84_reader_text_map.

(** Without room the property fails: a call beyond the channel's capacity is lost for good. *)
Definition sync_faithful := forall es (c : chan update_ip_set) d, alive c = true -> queue c = [] ->
  sync_run ip_set_apply c d (es ++ [Publish]) = Val (c, directly ip_set_insert ip_set_remove d (calls es)).
Theorem C141_overflow_refuted : ~ sync_faithful.
Proof.
  intros H. specialize (H [Call (SInsert (V4 1)); Call (SInsert (V4 2))] (Chan 1 [] true) ip_set_new eq_refl eq_refl).
  vm_compute in H. discriminate.
Qed.
Print Assumptions C141_overflow_refuted.

Example C84_nonvacuous :
  let es := [Call (SInsert (V4 1)); Call (SInsert (V4 2)); Publish; Publish; Call (SRemove (V4 1)); Call (SInsert (V6 1))] in
  let c := Chan 2 [] true : chan update_ip_set in
  fits (cap c) 0 es /\ calls es = map as_set_call [Ins (V4 1) tt; Ins (V4 2) tt; Del (V4 1); Ins (V6 1) tt] /\
  exists d, sync_run ip_set_apply c ip_set_new (es ++ [Publish]) = Val (c, d) /\
    ip_set_contains (V4 1) d = false /\ ip_set_contains (V4 2) d = true /\ ip_set_contains (V6 1) d = true.
Proof.
  cbv zeta. splits; [cbn; lia|reflexivity|]. eexists. split; [vm_compute; reflexivity|]. vm_compute. auto.
Qed.
