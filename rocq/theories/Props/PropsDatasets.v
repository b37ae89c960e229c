(** Properties C30-C39, C58, C66, C67: datasets (src/components/dataset). *)
From Coq Require Import String NArith ZArith List Bool Lia.
From Verif Require Import Base.Arith Base.Ord Base.BTree Base.Str Base.Outcome Model.Ip Model.Datasets Model.NetDataset
  Model.Calendar Model.DatasetTypes Model.Holder Model.Language Model.I18n
  Spec.DatasetSpec Spec.DatasetRuns Spec.HolderSpec
  Proofs.DatasetP Proofs.NetP Proofs.GeoP Proofs.CalendarP Proofs.HolderP.
Import ListNotations.
Local Open Scope string_scope.
Local Open Scope list_scope.

(** * C30: [ops] is any history; the key of an entry is the whole address, so IPv4 and IPv6 entries differ. *)
Theorem C30_ip_maps : forall (T : Type) (ops : list (op siem_ip T)) ip v,
  ip_map_get ip (ip_map_run ops) = Some v <-> lives eq ops ip v.
Proof. intros T. exact ip_map_history. Qed.
Print Assumptions C30_ip_maps.
Theorem C30_ip_sets : forall (ops : list (op siem_ip unit)) ip,
  ip_set_contains ip (ip_set_run ops) = true <-> lives eq ops ip tt.
Proof. exact ip_set_history. Qed.
Print Assumptions C30_ip_sets.
(** An operation on one family leaves every lookup in the other as it was. *)
Theorem C30_families : forall (T : Type) (d : ip_map T) a b v,
  ip_map_get (V6 a) (ip_map_insert (V4 b) v d) = ip_map_get (V6 a) d /\
  ip_map_get (V4 a) (ip_map_insert (V6 b) v d) = ip_map_get (V4 a) d /\
  ip_map_get (V6 a) (ip_map_remove (V4 b) d) = ip_map_get (V6 a) d /\
  ip_map_get (V4 a) (ip_map_remove (V6 b) d) = ip_map_get (V4 a) d.
Proof. intros. splits; reflexivity. Qed.
Print Assumptions C30_families.
Example C30_nonvacuous :
  let ops := [Ins (V4 7) "a"; Ins (V6 7) "b"; Ins (V4 7) "c"; Ins (V4 9) "d"; Del (V6 7); Del (V4 9)] in
  ip_map_get (V4 7) (ip_map_run ops) = Some "c" /\ ip_map_get (V6 7) (ip_map_run ops) = None /\
  ip_map_get (V4 9) (ip_map_run ops) = None /\ lives eq ops (V4 7) "c".
Proof.
  cbn zeta. splits; try reflexivity.
  exists [Ins (V4 7) "a"; Ins (V6 7) "b"], (V4 7), [Ins (V4 9) "d"; Del (V6 7); Del (V4 9)]. splits; try reflexivity.
  repeat constructor; discriminate.
Qed.

(** * C31 *)
Theorem C31_text_maps : forall (T : Type) (ops : list (op string T)) k v,
  text_map_get k (text_map_run ops) = Some v <-> lives eq ops k v.
Proof. intros T. exact text_map_history. Qed.
Print Assumptions C31_text_maps.
(** A text set (it has no removal) contains exactly the inserted texts. *)
Theorem C31_text_sets : forall (vals : list string) x, text_set_contains x (text_set_run vals) = true <-> In x vals.
Proof. exact text_set_history. Qed.
Print Assumptions C31_text_sets.
(** Correlation rules, keyed by their name. *)
Theorem C31_rules : forall (R : Type) (name : R -> string) (ops : list (op string R)) k r,
  (forall k r, In (Ins k r) ops -> k = name r) ->
  rules_get k (rules_run name ops) = Some r <-> lives eq ops k r.
Proof. intros R. exact rules_history. Qed.
Print Assumptions C31_rules.
Example C31_nonvacuous :
  let ops := [Ins "x" 1; Ins "y" 2; Ins "x" 3; Del "y"] in
  text_map_get "x" (text_map_run ops) = Some 3 /\ text_map_get "y" (text_map_run ops) = None /\ text_map_get "" (text_map_run ops) = None.
Proof. vm_compute. auto. Qed.
Example C31_rules_nonvacuous :
  let ops := [Ins "r1" ("r1", 1); Ins "r2" ("r2", 2); Del "r1"; Ins "r2" ("r2", 5)] in
  (forall k r, In (Ins k r) ops -> k = fst r) /\ rules_get "r2" (rules_run fst ops) = Some ("r2", 5) /\
  rules_get "r1" (rules_run fst ops) = None.
Proof.
  cbn zeta. splits; try reflexivity.
  intros k r [H|[H|[H|[H|[]]]]]; try discriminate; injection H as <- <-; reflexivity.
Qed.

(** * C32: a batch has the effect of its updates, one by one, through the dataset's own insert and remove. *)
Theorem C32_ip_set_in_order : forall d us d', us <> [] ->
  (ip_set_apply d us = Val d' <-> one_by_one (update_step ip_set_insert ip_set_remove) d us d').
Proof. apply apply_in_order, ip_set_apply_def. Qed.
Print Assumptions C32_ip_set_in_order.
Theorem C32_ip_map_in_order : forall (T : Type) (d : ip_map T) us d', us <> [] ->
  (ip_map_apply d us = Val d' <-> one_by_one (update_step ip_map_ins ip_map_remove) d us d').
Proof. intros T. apply apply_in_order, ip_map_apply_def. Qed.
Print Assumptions C32_ip_map_in_order.
Theorem C32_text_map_in_order : forall (T : Type) (d : text_map T) us d', us <> [] ->
  (text_map_apply d us = Val d' <-> one_by_one (update_step text_map_ins text_map_remove) d us d').
Proof. intros T. apply apply_in_order, text_map_apply_def. Qed.
Print Assumptions C32_text_map_in_order.
Theorem C32_rules_in_order : forall (R : Type) (name : R -> string) d us d', us <> [] ->
  (rules_apply name d us = Val d' <-> one_by_one (update_step (rules_insert name) rules_remove) d us d').
Proof. intros R name. apply apply_in_order, rules_apply_def. Qed.
Print Assumptions C32_rules_in_order.
(** Networks: an impossible prefix length aborts the batch, so a batch may have no result. *)
Theorem C32_ip_net_in_order : forall (T : Type) (d d' : ip_net T) us, us <> [] ->
  (ip_net_apply d us = Val d' <-> one_by_one net_update_step d us d').
Proof. intros T. exact ip_net_apply_in_order. Qed.
Print Assumptions C32_ip_net_in_order.
(** Every non-empty batch is applied (networks: if every length fits). *)
Theorem C32_total : forall (T R : Type) (name : R -> string) s ss (m : ip_map T) ms (t : text_map T) ts r rs,
  ss <> [] -> ms <> [] -> ts <> [] -> rs <> [] ->
  (exists d, ip_set_apply s ss = Val d) /\ (exists d, ip_map_apply m ms = Val d) /\
  (exists d, text_map_apply t ts = Val d) /\ (exists d, rules_apply name r rs = Val d).
Proof.
  intros. splits.
  - exact (apply_total _ _ _ ip_set_apply_def s ss H).
  - exact (apply_total _ _ _ ip_map_apply_def m ms H0).
  - exact (apply_total _ _ _ text_map_apply_def t ts H1).
  - exact (apply_total _ _ _ (rules_apply_def name) r rs H2).
Qed.
Print Assumptions C32_total.
(** Splitting a batch anywhere does not matter. *)
Theorem C32_split : forall (T R : Type) (name : R -> string) s ss ss' (m : ip_map T) ms ms' (t : text_map T) ts ts' r rs rs' (n : ip_net T) ns ns',
  ss <> [] -> ss' <> [] -> ms <> [] -> ms' <> [] -> ts <> [] -> ts' <> [] -> rs <> [] -> rs' <> [] -> ns <> [] -> ns' <> [] ->
  ip_set_apply s (ss ++ ss') = obind (ip_set_apply s ss) (fun d => ip_set_apply d ss') /\
  ip_map_apply m (ms ++ ms') = obind (ip_map_apply m ms) (fun d => ip_map_apply d ms') /\
  text_map_apply t (ts ++ ts') = obind (text_map_apply t ts) (fun d => text_map_apply d ts') /\
  rules_apply name r (rs ++ rs') = obind (rules_apply name r rs) (fun d => rules_apply name d rs') /\
  ip_net_apply n (ns ++ ns') = obind (ip_net_apply n ns) (fun d => ip_net_apply d ns').
Proof.
  intros. splits.
  - apply (apply_split _ _ _ ip_set_apply_def); assumption.
  - apply (apply_split _ _ _ ip_map_apply_def); assumption.
  - apply (apply_split _ _ _ text_map_apply_def); assumption.
  - apply (apply_split _ _ _ (rules_apply_def name)); assumption.
  - apply ip_net_apply_split; assumption.
Qed.
Print Assumptions C32_split.
(** A [Replace] discards everything before it. *)
Theorem C32_replace : forall (T R : Type) (name : R -> string) s1 s2 ss ss' s (m1 m2 : ip_map T) ms ms' m
    (t1 t2 : text_map T) ts ts' t r1 r2 rs rs' r,
  ip_set_apply s1 (ss ++ Replace s :: ss') = ip_set_apply s2 (Replace s :: ss') /\
  ip_map_apply m1 (ms ++ Replace m :: ms') = ip_map_apply m2 (Replace m :: ms') /\
  text_map_apply t1 (ts ++ Replace t :: ts') = text_map_apply t2 (Replace t :: ts') /\
  rules_apply name r1 (rs ++ Replace r :: rs') = rules_apply name r2 (Replace r :: rs').
Proof.
  intros. splits.
  - apply (apply_replace _ _ _ ip_set_apply_def).
  - apply (apply_replace _ _ _ ip_map_apply_def).
  - apply (apply_replace _ _ _ text_map_apply_def).
  - apply (apply_replace _ _ _ (rules_apply_def name)).
Qed.
Print Assumptions C32_replace.
(** Readers: every snapshot that existed before is unchanged, the new handle points to the result and keeps the channel. *)
Theorem C32_snapshots : forall (D U : Type) (apply : D -> list U -> outcome D) heap self us heap' self',
  syn_apply apply heap self us = Val (heap', self') ->
  (forall p d, nth_error heap p = Some d -> nth_error heap' p = Some d) /\
  comm self' = comm self /\
  (exists d d', nth_error heap (arc self) = Some d /\ apply d us = Val d' /\ nth_error heap' (arc self') = Some d').
Proof. intros D U. exact syn_apply_snapshot. Qed.
Print Assumptions C32_snapshots.
(** "The dataset obtained by applying them one by one" does not exist for the empty batch: it aborts. *)
Theorem C112_empty_batch_refuted : forall (T R : Type) (name : R -> string) s (m : ip_map T) (t : text_map T) r (n : ip_net T),
  ip_set_apply s [] = Panic /\ ip_map_apply m [] = Panic /\ text_map_apply t [] = Panic /\ rules_apply name r [] = Panic /\
  ip_net_apply n [] = Panic.
Proof. intros. splits; reflexivity. Qed.
Print Assumptions C112_empty_batch_refuted.
Example C32_nonvacuous :
  exists heap' self', syn_apply ip_map_apply [ip_map_new; ip_map_run [Ins (V4 1) "old"]] (Syn 1 0)
    [Add (V4 2, "two"); Remove (V4 1); Add (V6 1, "six")] = Val (heap', self') /\
  match nth_error heap' (arc self') with
  | Some d => ip_map_get (V4 1) d = None /\ ip_map_get (V4 2) d = Some "two" /\ ip_map_get (V6 1) d = Some "six"
  | None => False
  end /\
  match nth_error heap' 1 with
  | Some d => ip_map_get (V4 1) d = Some "old" /\ ip_map_get (V4 2) d = None
  | None => False
  end.
Proof. eexists _, _. split; [reflexivity|]. vm_compute. auto. Qed.

(** * C33: a value a lookup returns was inserted for a network that contains the address, and that network was neither
    removed nor overwritten since.  Holds for the IP network dataset and for the in-memory GeoIP dataset. *)
Theorem C33_network_sound : forall (T : Type) (ops : list (op (siem_ip * N) T)) d ip v,
  Forall op_addr_ok ops -> Forall op_len_ok ops -> ip_net_run ops = Val d -> ip_ok ip ->
  ip_net_get ip d = Some v ->
  exists before base len after, ops = (before ++ Ins (base, len) v :: after)%list /\ contains base len ip /\
    Forall (fun o => ~ same_net (op_key o) (base, len)) after.
Proof. intros T. exact ip_net_get_sound. Qed.
Print Assumptions C33_network_sound.
(** Such a history always has a dataset; a length that does not fit aborts. *)
Theorem C33_runs : forall (T : Type) (ops : list (op (siem_ip * N) T)),
  Forall op_addr_ok ops -> Forall op_len_ok ops -> exists d, ip_net_run ops = Val d.
Proof. intros T ops Ha Hl. destruct (ip_net_run_spec ops Ha Hl) as (d & Hd & _). eauto. Qed.
Print Assumptions C33_runs.
Theorem C33_bad_length_aborts : forall (T : Type) ip net (v : T) d, (width ip < net)%N -> ip_net_insert ip net v d = Panic.
Proof. intros T. exact ip_net_insert_panics. Qed.
Print Assumptions C33_bad_length_aborts.
(** 10.0.0.0/8 and 10.1.0.0/16, then 10.1.0.0/16 removed *)
Example C33_nonvacuous :
  exists d, ip_net_run [Ins (V4 167772160, 8%N) "wide"; Ins (V4 167837696, 16%N) "narrow"; Ins (V4 167903233, 16%N) "other"; Del (V4 167903232, 16%N)] = Val d /\
    ip_net_get (V4 167837953) d = Some "wide" /\ ip_net_get (V4 184549377) d = None.
Proof. eexists. split; [reflexivity|]. vm_compute. auto. Qed.

(** * C34 *)
Definition net_complete := forall (T : Type) (ops : list (op (siem_ip * N) T)) d ip base len v,
  Forall op_addr_ok ops -> Forall op_len_ok ops -> ip_net_run ops = Val d -> ip_ok ip -> ip_ok base ->
  lives same_net ops (base, len) v -> contains base len ip -> ip_net_get ip d <> None.
Definition net_most_specific := forall (T : Type) (ops : list (op (siem_ip * N) T)) d ip base len v v',
  Forall op_addr_ok ops -> Forall op_len_ok ops -> ip_net_run ops = Val d -> ip_ok ip -> ip_ok base ->
  lives same_net ops (base, len) v -> contains base len ip ->
  (forall base' len' w, lives same_net ops (base', len') w -> contains base' len' ip -> (len' <= len)%N) ->
  ip_net_get ip d = Some v' -> v' = v.

Lemma lives_last {K V} (same : K -> K -> Prop) (before : list (op K V)) k v : same k k -> lives same (before ++ [Ins k v]) k v.
Proof. intros H. exists before, k, []. auto. Qed.

(** A /32 is never found. *)
Theorem C113_host_network_refuted : ~ net_complete.
Proof.
  intros H. eapply (H _ [Ins (V4 16909060, 32%N) "x"] _ (V4 16909060) (V4 16909060) 32%N "x").
  all: try (repeat constructor; unfold op_addr_ok; simpl; lia).
  apply (lives_last same_net []). repeat split; simpl; lia.
Qed.
Print Assumptions C113_host_network_refuted.
(** 10.0.0.0/8 does not contain 10.0.0.0 for the lookup: the address has more trailing zeros (25) than the length. *)
Theorem C113_trailing_zeros_refuted : exists d, ip_net_run [Ins (V4 167772160, 8%N) "ten"] = Val d /\
  contains (V4 167772160) 8 (V4 167772160) /\ ip_net_get (V4 167772160) d = None /\ ip_net_get (V4 167772161) d = Some "ten".
Proof. eexists. splits; [reflexivity| |vm_compute; reflexivity|vm_compute; reflexivity]. repeat split. simpl; lia. Qed.
Print Assumptions C113_trailing_zeros_refuted.
(** 10.0.0.0/8 wins over 10.1.0.0/16 for 10.1.0.1. *)
Theorem C113_most_specific_refuted : ~ net_most_specific.
Proof.
  intros H.
  enough (E : "wide" = "narrow") by discriminate E.
  eapply (H _ [Ins (V4 167772160, 8%N) "wide"; Ins (V4 167837696, 16%N) "narrow"] _ (V4 167837697) (V4 167837696) 16%N "narrow" "wide").
  all: try (repeat constructor; unfold op_addr_ok; simpl; lia).
  - apply (lives_last same_net [_]). repeat split; simpl; lia.
  - intros base' len' w (b & [k kl] & a & He & [Hs _] & _) _. cbn [snd] in Hs. subst kl.
    assert (Hin : In (Ins (k, len') w) [Ins (V4 167772160, 8%N) "wide"; Ins (V4 167837696, 16%N) "narrow"]) by (rewrite He; apply in_elt).
    destruct Hin as [E|[E|[]]]; [assert (len' = 8%N) by congruence|assert (len' = 16%N) by congruence]; lia.
Qed.
Print Assumptions C113_most_specific_refuted.
(** What holds instead: the lookup returns the value of the SHORTEST stored prefix among those whose length is at least
    the number of trailing zero bits of the address and strictly less than the width. *)
Theorem C34_exact : forall (T : Type) (ops : list (op (siem_ip * N) T)) d ip v,
  Forall op_addr_ok ops -> Forall op_len_ok ops -> ip_net_run ops = Val d -> ip_ok ip ->
  (ip_net_get ip d = Some v <->
   exists len, (trailing_zeros (width ip) (bits ip) <= len < width ip)%N /\ lives same_net ops (ip, len) v /\
     forall len' v', (trailing_zeros (width ip) (bits ip) <= len' < len)%N -> ~ lives same_net ops (ip, len') v').
Proof. intros T. exact ip_net_get_history. Qed.
Print Assumptions C34_exact.
Theorem C34_complete : forall (T : Type) (ops : list (op (siem_ip * N) T)) d ip base len v,
  Forall op_addr_ok ops -> Forall op_len_ok ops -> ip_net_run ops = Val d -> ip_ok ip -> ip_ok base ->
  lives same_net ops (base, len) v -> contains base len ip ->
  (trailing_zeros (width ip) (bits ip) <= len < width ip)%N -> exists v', ip_net_get ip d = Some v'.
Proof. intros T. exact ip_net_get_found. Qed.
Print Assumptions C34_complete.
(** In particular, an odd address is found whenever it is in any stored network other than a single host. *)
Theorem C34_odd_complete : forall (T : Type) (ops : list (op (siem_ip * N) T)) d ip base len v,
  Forall op_addr_ok ops -> Forall op_len_ok ops -> ip_net_run ops = Val d -> ip_ok ip -> ip_ok base ->
  lives same_net ops (base, len) v -> contains base len ip -> N.odd (bits ip) = true -> (len <> width ip)%N ->
  exists v', ip_net_get ip d = Some v'.
Proof.
  intros T ops d ip base len v Ha Hl Hr Hip Hb Hv Hc Ho Hw. eapply ip_net_get_found; try eassumption.
  pose proof (proj1 (proj2 Hc)) as Hlen. destruct (bits ip) as [|[p|p|]]; try discriminate; simpl; lia.
Qed.
Print Assumptions C34_odd_complete.
Example C34_nonvacuous :
  exists d, ip_net_run [Ins (V6 42540488161975842760550356425300246528, 32%N) 1; Ins (V6 0, 0%N) 0] = Val d /\
   ip_net_get (V6 42540488161975842760550356425300246529) d = Some 0 /\ ip_net_get (V6 42540488161975842760550356425300377600) d = Some 1.
Proof. eexists. split; [reflexivity|]. vm_compute. auto. Qed.

(** * C35 *)
Definition writes_delivered := forall (U : Type) (c : chan U) (es : list (event U)),
  alive c = true -> ~ In DropReceiver es -> queue c = [] ->
  let (c', got) := ev_run c es in got ++ queue c' = writes es.
Theorem C114_full_channel_refuted : ~ writes_delivered.
Proof.
  intros H. specialize (H nat (Chan 1 [] true) [Write 1; Write 2; Take; Take; Take] eq_refl).
  cbn in H. assert (E : [1] = [1; 2]) by (apply H; [intros [E|[E|[E|[E|[E|[]]]]]]; discriminate|reflexivity]). discriminate.
Qed.
Print Assumptions C114_full_channel_refuted.
(** A full or orphaned channel: the write changes nothing and its caller is told nothing (the methods return unit). *)
Theorem C114_dropped_refuted : forall (A R D : Type) (c : chan (update A R D)) a r d,
  (alive c = false \/ (cap c <= length (queue c))%nat) ->
  syn_insert c a = c /\ syn_remove c r = c /\ syn_update c d = c.
Proof.
  intros A R D c a r d H. unfold syn_insert, syn_remove, syn_update, try_send.
  destruct (alive c) eqn:E; [|auto]. destruct H as [H|H]; [discriminate|].
  replace (Nat.ltb (length (queue c)) (cap c)) with false by (symmetry; apply Nat.ltb_ge; exact H). auto.
Qed.
Print Assumptions C114_dropped_refuted.
(** The datasets made by [empty()] never deliver anything. *)
Theorem C114_empty_dataset_refuted : forall (A R D : Type) (a : A), syn_insert (R := R) (D := D) empty_comm a = empty_comm.
Proof. reflexivity. Qed.
Print Assumptions C114_empty_dataset_refuted.
(** While there is room and a receiver, every write is delivered, once and in order. *)
Theorem C35_delivered : forall (U : Type) (c : chan U) (es : list (event U)),
  roomy (c, []) es ->
  let (c', got) := ev_run c es in got ++ queue c' = queue c ++ writes es.
Proof.
  intros U c es H. pose proof (roomy_delivers (c, []) es H) as D. unfold ev_run. destruct (fold_left ev_step es (c, [])). exact D.
Qed.
Print Assumptions C35_delivered.
(** In every schedule the owner receives a subsequence of the writes: nothing is made up, repeated or reordered. *)
Theorem C35_no_invention : forall (U : Type) (c : chan U) (es : list (event U)),
  let (c', got) := ev_run c es in subseq (got ++ queue c') (queue c ++ writes es).
Proof.
  intros U c es. pose proof (run_subseq (c, []) es) as D. unfold ev_run. destruct (fold_left ev_step es (c, [])). exact D.
Qed.
Print Assumptions C35_no_invention.
(** The rule dataset tells: Ok iff queued, otherwise the rule comes back and the channel is as it was. *)
Theorem C35_try_insert_told : forall (R : Type) (c : chan (update R string rules_ds)) (rule : R),
  exists c' r, try_insert c rule = Val (c', r) /\
    match r with
    | Ok _ => queue c' = queue c ++ [Add rule] /\ alive c' = true
    | Err r' => r' = rule /\ c' = c
    end.
Proof. intros R. exact try_insert_spec. Qed.
Print Assumptions C35_try_insert_told.
Theorem C35_insert_timeout_told : forall (R : Type) env (c : chan (update R string rules_ds)) (rule : R) c' got r,
  insert_timeout c rule env = Val (c', got, r) ->
  match r with
  | Ok _ => got ++ queue c' = queue c ++ [Add rule]
  | Err r' => r' = rule /\ got ++ queue c' = queue c
  end.
Proof. intros R. exact insert_timeout_spec. Qed.
Print Assumptions C35_insert_timeout_told.
(** The attempts end at the deadline: an answer comes at the first late turn at the latest. *)
Theorem C35_insert_timeout_ends : forall (R : Type) env (c : chan (update R string rules_ds)) (rule : R),
  In true (map snd env) -> exists x, insert_timeout c rule env = Val x.
Proof.
  intros R env. induction env as [|[n late] env IH]; intros c rule H; [destruct H|].
  cbn [insert_timeout map snd] in *. unfold try_send. cbn [alive queue cap].
  assert (Hrec : forall c2 got, exists x, (if late then Val (c2, got, Err rule)
      else let! x := insert_timeout c2 rule env in let '(c3, got', res) := x in Val (c3, got ++ got', res)) = Val x).
  { intros c2 got. destruct late; [eauto|]. destruct H as [H|H]; [discriminate|].
    destruct (IH c2 rule H) as [[[c3 g3] r3] ->]. cbn [obind]. eauto. }
  destruct (alive c); [destruct (Nat.ltb _ _)|]; cbn [extract_rule obind]; [eauto|apply Hrec|apply Hrec].
Qed.
Print Assumptions C35_insert_timeout_ends.
Example C35_nonvacuous :
  roomy (Chan 2 [] true, []) [Write 1; Write 2; Take; Write 3; Take; Take] /\
  ev_run (Chan 2 [] true) [Write 1; Write 2; Take; Write 3; Take; Take] = (Chan 2 [] true, [1; 2; 3]) /\
  insert_timeout (Chan 1 [Add 5] true) 7 [(0, false); (0, false); (1, true)] = Val (Chan 1 [Add 7] true, [Add 5], Ok tt) /\
  insert_timeout (Chan 1 [Add 5] true) 7 [(0, false); (0, true); (1, true)] = Val (Chan 1 [Add 5] true, [], Err 7).
Proof.
  splits; try reflexivity.
  repeat (constructor; try (cbn; lia); try reflexivity).
Qed.

(** * C36 *)
Definition calendar_reports := forall evs t, cal_get t (cal_run evs) = reported (map ev_data (filter (activeb t) evs)).
(** The boolean and the propositional form of "going on at [t]" agree. *)
Theorem C36_activeb : forall t e, activeb t e = true <-> (ev_start e <= t <= ev_end e)%Z.
Proof. exact activeb_iff. Qed.
Print Assumptions C36_activeb.
(** An event from noon of day 0 to noon of day 1 is not reported at 18:00 of day 0. *)
Theorem C115_first_day_refuted : ~ calendar_reports.
Proof. intros H. specialize (H [(43200000, 129600000, "maintenance")%Z] 64800000%Z). vm_compute in H. discriminate. Qed.
Print Assumptions C115_first_day_refuted.
(** In general: the first day of an event over several days is lost, except its first instant. *)
Theorem C115_first_day_lost_refuted : forall s e x t, (0 <= s)%Z -> (s / 86400000 <> e / 86400000)%Z ->
  (s < t < (s / 86400000 + 1) * 86400000)%Z -> cal_get t (cal_run [(s, e, x)]) = None.
Proof.
  intros s e x t H0 Hd Ht. rewrite cal_get_run. cbn [filter]. rewrite (covered_lost t (s, e, x) H0 Hd Ht). reflexivity.
Qed.
Print Assumptions C115_first_day_lost_refuted.
(** Whatever is reported is going on, in insertion order. *)
Theorem C36_sound : forall evs t l, cal_get t (cal_run evs) = Some l ->
  exists kept, subseq kept evs /\ Forall (active t) kept /\ l = map ev_data kept /\ kept <> [].
Proof. exact cal_sound. Qed.
Print Assumptions C36_sound.
(** Exactly the events going on are reported, in insertion order, provided each of those begins at or after the epoch and
    either lasts within one day or began on an earlier day. *)
Theorem C36_exact : forall evs t,
  Forall (fun e => active t e -> (0 <= ev_start e)%Z /\
     (ev_start e / 86400000 = ev_end e / 86400000 \/ (ev_start e / 86400000 + 1) * 86400000 <= t)%Z) evs ->
  cal_get t (cal_run evs) = reported (map ev_data (filter (activeb t) evs)).
Proof. exact cal_exact. Qed.
Print Assumptions C36_exact.
(** For all events, without restriction: of those going on at [t] these are reported: the ones that begin and end on one day
    (days counted from the epoch, towards zero), all of them at midnight, and otherwise those that began on an earlier day
    (before the epoch: those that began on the same day). *)
Definition shown (t : Z) (e : cal_event) : bool :=
  (ev_start e <=? t)%Z && (t <=? ev_end e)%Z
  && ((Z.quot (ev_start e) 86400000 =? Z.quot (ev_end e) 86400000)%Z || (t mod 86400000 =? 0)%Z
      || (if (0 <=? t)%Z then (Z.quot (ev_start e) 86400000 <? Z.quot t 86400000)%Z
          else (Z.quot (ev_start e) 86400000 =? Z.quot t 86400000)%Z)).
Theorem C36_exact_all : forall evs t, cal_get t (cal_run evs) = reported (map ev_data (filter (shown t) evs)).
Proof.
  intros evs t. rewrite cal_get_run. do 2 f_equal. apply filter_ext. intros e. apply Bool.eq_iff_eq_true. rewrite covered_iff.
  unfold shown, active. destruct (Z.leb_spec 0 t); lia.
Qed.
Print Assumptions C36_exact_all.
Example C36_exact_all_case : let evs := [(-100000000, -1000, "a"); (43200000, 129600000, "b"); (0, 90000000, "c")]%Z in
  cal_get (-90000000) (cal_run evs) = Some ["a"] /\ cal_get (-2000) (cal_run evs) = None /\ cal_get 86400000 (cal_run evs) = Some ["b"; "c"]
  /\ cal_get 0 (cal_run evs) = Some ["c"].
Proof. vm_compute. splits; reflexivity. Qed.
(** No step of an insertion leaves the range of 64-bit integers. *)
Theorem C36_no_overflow : forall s e day, i64 s -> i64 e ->
  let sd := Z.quot s 86400000 in let ed := Z.quot e 86400000 in
  i64 (sd - ed) /\ i64 (ed + 1) /\
  ((sd <= day <= ed)%Z -> i64 (day * 86400000) /\ (day <> ed -> i64 (day + 1) /\ i64 ((day + 1) * 86400000))).
Proof. exact calendar_no_overflow. Qed.
Print Assumptions C36_no_overflow.
Example C36_nonvacuous :
  let evs := [(1000, 2000, "a"); (500, 200000000, "b"); (90000000, 95000000, "c")]%Z in
  Forall (fun e => active 90000001 e -> (0 <= ev_start e)%Z /\
     (ev_start e / 86400000 = ev_end e / 86400000 \/ (ev_start e / 86400000 + 1) * 86400000 <= 90000001)%Z) evs /\
  cal_get 90000001 (cal_run evs) = Some ["b"; "c"] /\ cal_get 1500 (cal_run evs) = Some ["a"].
Proof.
  cbn zeta. splits; [|vm_compute; reflexivity|vm_compute; reflexivity].
  apply Forall_cons; [|apply Forall_cons; [|apply Forall_cons; [|apply Forall_nil]]]; intros _; unfold ev_start, ev_end; cbn [fst snd].
  - split; [lia|left; reflexivity].
  - split; [lia|right; vm_compute; discriminate].
  - split; [lia|left; reflexivity].
Qed.

(** * C37: [dict_writes ops] are the (text, language, value) triples the history writes, in order. *)
Theorem C37_lookup : forall ops t l v, i18n_get t l (i18n_run ops) = Some v <-> lives eq (dict_writes ops) (t, l) v.
Proof. exact i18n_history. Qed.
Print Assumptions C37_lookup.
Theorem C37_default : forall ops t lang,
  match i18n_get_or_default t lang (i18n_run ops) with
  | Some v => the_default (fun l x => lives eq (dict_writes ops) (t, l) x) lang v
  | None => forall l x, ~ lives eq (dict_writes ops) (t, l) x
  end.
Proof. exact get_or_default_history. Qed.
Print Assumptions C37_default.
Example C37_nonvacuous :
  let d := i18n_run [DInsert L_FR "hi" "salut"; DSet L_ES [("bye", "adios"); ("hi", "hola")]; DInsert L_EN "bye" "bye"] in
  i18n_get_or_default "hi" L_ES d = Some "hola" /\ i18n_get_or_default "bye" L_FR d = Some "bye" /\
  i18n_get_or_default "hi" L_DE d = Some "hola" /\ i18n_get_or_default "no" L_EN d = None.
Proof. vm_compute. auto. Qed.

(** * C38 *)
Theorem C38_last_registered : forall l1 l2 t d,
  holder_get t (fold_left (fun h d => holder_insert d h) l2 (from_datasets l1)) = Some d <-> last_of_type (l1 ++ l2) t d.
Proof. exact holder_get_run. Qed.
Print Assumptions C38_last_registered.
Theorem C38_one_per_type : forall h, built h ->
  NoDup (map (fun p => type_of (snd p)) h) /\ forall t d, holder_get t h = Some d -> type_of d = t.
Proof. intros h H. split; [apply built_types_nodup, H|apply built_typed, H]. Qed.
Print Assumptions C38_one_per_type.
Theorem C38_subset : forall h l t d, holder_get t (holder_subset l h) = Some d <-> In t l /\ holder_get t h = Some d.
Proof. exact subset_get. Qed.
Print Assumptions C38_subset.
(** The named accessors return the dataset of their type. *)
Theorem C38_accessors : forall h, built h ->
  (forall v, h_geoip h = Some v <-> holder_get T_GeoIp h = Some (D_GeoIp v)) /\
  (forall v, h_i18n h = Some v <-> holder_get T_I18n h = Some (D_I18n v)) /\
  (forall v, h_ip_mac h = Some v <-> holder_get T_IpMac h = Some (D_IpMac v)) /\
  (forall v, h_ip_dns h = Some v <-> holder_get T_IpDNS h = Some (D_IpDNS v)) /\
  (forall v, h_mac_host h = Some v <-> holder_get T_MacHost h = Some (D_MacHost v)) /\
  (forall v, h_host_user h = Some v <-> holder_get T_HostUser h = Some (D_HostUser v)) /\
  (forall v, h_block_ip h = Some v <-> holder_get T_BlockIp h = Some (D_BlockIp v)) /\
  (forall v, h_block_domain h = Some v <-> holder_get T_BlockDomain h = Some (D_BlockDomain v)) /\
  (forall v, h_block_email h = Some v <-> holder_get T_BlockEmailSender h = Some (D_BlockEmailSender v)) /\
  (forall v, h_block_country h = Some v <-> holder_get T_BlockCountry h = Some (D_BlockCountry v)) /\
  (forall v, h_host_vulnerable h = Some v <-> holder_get T_HostVulnerable h = Some (D_HostVulnerable v)) /\
  (forall v, h_user_tag h = Some v <-> holder_get T_UserTag h = Some (D_UserTag v)) /\
  (forall v, h_asset_tag h = Some v <-> holder_get T_AssetTag h = Some (D_AssetTag v)) /\
  (forall v, h_cloud_service h = Some v <-> holder_get T_IpCloudService h = Some (D_IpCloudService v)) /\
  (forall v, h_cloud_provider h = Some v <-> holder_get T_IpCloudProvider h = Some (D_IpCloudProvider v)) /\
  (forall v, h_user_headquarters h = Some v <-> holder_get T_UserHeadquarters h = Some (D_UserHeadquarters v)) /\
  (forall v, h_ip_headquarters h = Some v <-> holder_get T_IpHeadquarters h = Some (D_IpHeadquarters v)) /\
  (forall v, h_configuration h = Some v <-> holder_get T_Configuration h = Some (D_Configuration v)).
Proof.
  intros h Hb. splits; apply get_as_spec; try exact Hb; try reflexivity;
    intros d v H1 H2; destruct d; try discriminate; simpl in H1; congruence.
Qed.
Print Assumptions C38_accessors.
(** What is registered is found by its own accessor, or, where there is none, under its own type and name. *)
Theorem C38_found : forall h,
  (forall v, h_geoip (holder_insert (D_GeoIp v) h) = Some v) /\
  (forall v, h_i18n (holder_insert (D_I18n v) h) = Some v) /\
  (forall v, h_ip_mac (holder_insert (D_IpMac v) h) = Some v) /\
  (forall v, h_ip_dns (holder_insert (D_IpDNS v) h) = Some v) /\
  (forall v, h_mac_host (holder_insert (D_MacHost v) h) = Some v) /\
  (forall v, h_host_user (holder_insert (D_HostUser v) h) = Some v) /\
  (forall v, h_block_ip (holder_insert (D_BlockIp v) h) = Some v) /\
  (forall v, h_block_domain (holder_insert (D_BlockDomain v) h) = Some v) /\
  (forall v, h_block_email (holder_insert (D_BlockEmailSender v) h) = Some v) /\
  (forall v, h_block_country (holder_insert (D_BlockCountry v) h) = Some v) /\
  (forall v, h_host_vulnerable (holder_insert (D_HostVulnerable v) h) = Some v) /\
  (forall v, h_user_tag (holder_insert (D_UserTag v) h) = Some v) /\
  (forall v, h_asset_tag (holder_insert (D_AssetTag v) h) = Some v) /\
  (forall v, h_cloud_service (holder_insert (D_IpCloudService v) h) = Some v) /\
  (forall v, h_cloud_provider (holder_insert (D_IpCloudProvider v) h) = Some v) /\
  (forall v, h_user_headquarters (holder_insert (D_UserHeadquarters v) h) = Some v) /\
  (forall v, h_ip_headquarters (holder_insert (D_IpHeadquarters v) h) = Some v) /\
  (forall v, h_configuration (holder_insert (D_Configuration v) h) = Some v) /\
  (forall v, holder_get T_CorrelationRules (holder_insert (D_CorrelationRules v) h) = Some (D_CorrelationRules v)) /\
  (forall v, holder_get T_MantainceCalendar (holder_insert (D_MantainceCalendar v) h) = Some (D_MantainceCalendar v)) /\
  holder_get T_HeadquartersWorkingHours (holder_insert D_HeadquartersWorkingHours h) = Some D_HeadquartersWorkingHours /\
  (forall n v, holder_get (T_CustomMapIpNet n) (holder_insert (D_CustomMapIpNet n v) h) = Some (D_CustomMapIpNet n v)) /\
  (forall n v, holder_get (T_CustomMapText n) (holder_insert (D_CustomMapText n v) h) = Some (D_CustomMapText n v)) /\
  (forall n v, holder_get (T_CustomMapTextList n) (holder_insert (D_CustomMapTextList n v) h) = Some (D_CustomMapTextList n v)) /\
  (forall n v, holder_get (T_CustomIpList n) (holder_insert (D_CustomIpList n v) h) = Some (D_CustomIpList n v)) /\
  (forall n v, holder_get (T_CustomIpMap n) (holder_insert (D_CustomIpMap n v) h) = Some (D_CustomIpMap n v)) /\
  (forall n v, holder_get (T_CustomTextList n) (holder_insert (D_CustomTextList n v) h) = Some (D_CustomTextList n v)) /\
  (forall n v, holder_get (T_Secrets n) (holder_insert (D_Secrets n v) h) = Some (D_Secrets n v)).
Proof.
  intros h.
  assert (G : forall A (conv : siem_dataset -> result A string) t d v, type_of d = t -> conv d = Ok v -> get_as conv t (holder_insert d h) = Some v).
  { intros A conv t d v <- C. unfold get_as, holder_insert. rewrite bt_get_insert_eq, C. reflexivity. }
  splits; intros; try (apply G; reflexivity); apply bt_get_insert_eq.
Qed.
Print Assumptions C38_found.
Example C38_nonvacuous :
  let h := holder_insert (D_BlockIp (Handle (Syn 3 3))) (from_datasets [D_BlockIp (Handle (Syn 0 0)); D_GeoIp (Handle (Syn 1 1)); D_CustomIpMap "a" (Handle (Syn 2 2))]) in
  built h /\ h_block_ip h = Some (Handle (Syn 3 3)) /\ h_geoip h = Some (Handle (Syn 1 1)) /\ h_ip_mac h = None /\
  h_geoip (holder_subset [T_BlockIp; T_IpMac] h) = None /\ h_block_ip (holder_subset [T_BlockIp; T_IpMac] h) = Some (Handle (Syn 3 3)).
Proof. cbn zeta. splits; try reflexivity. constructor. constructor. Qed.

(** * C39 *)
Theorem C39_conversions :
  (forall t v d, from_ip_map t v = Ok d <-> kind_of t = Some KIpMap /\ type_of d = t /\ to_ip_map d = Ok v) /\
  (forall t v d, from_text_map t v = Ok d <-> kind_of t = Some KTextMap /\ type_of d = t /\ to_text_map d = Ok v) /\
  (forall t v d, from_ip_map_list t v = Ok d <-> kind_of t = Some KIpMapList /\ type_of d = t /\ to_ip_map_list d = Ok v) /\
  (forall t v d, from_ip_set t v = Ok d <-> kind_of t = Some KIpSet /\ type_of d = t /\ to_ip_set d = Ok v) /\
  (forall t v d, from_text_set t v = Ok d <-> kind_of t = Some KTextSet /\ type_of d = t /\ to_text_set d = Ok v) /\
  (forall t v d, from_text_map_list t v = Ok d <-> kind_of t = Some KTextMapList /\ type_of d = t /\ to_text_map_list d = Ok v) /\
  (forall t v d, from_ip_net t v = Ok d <-> kind_of t = Some KIpNet /\ type_of d = t /\ to_ip_net d = Ok v).
Proof.
  splits; intros t v d; (split;
    [intros H; destruct t; try discriminate; injection H as <-; splits; reflexivity
    |intros (H1 & H2 & H3); subst t; destruct d; try discriminate; simpl in H3; injection H3 as ->; reflexivity]).
Qed.
Print Assumptions C39_conversions.
(** Succeeding is decided by the type alone. *)
Theorem C39_succeeds : forall t,
  (forall v, (exists d, from_ip_map t v = Ok d) <-> kind_of t = Some KIpMap) /\
  (forall v, (exists d, from_text_map t v = Ok d) <-> kind_of t = Some KTextMap) /\
  (forall v, (exists d, from_ip_map_list t v = Ok d) <-> kind_of t = Some KIpMapList) /\
  (forall v, (exists d, from_ip_set t v = Ok d) <-> kind_of t = Some KIpSet) /\
  (forall v, (exists d, from_text_set t v = Ok d) <-> kind_of t = Some KTextSet) /\
  (forall v, (exists d, from_text_map_list t v = Ok d) <-> kind_of t = Some KTextMapList) /\
  (forall v, (exists d, from_ip_net t v = Ok d) <-> kind_of t = Some KIpNet).
Proof.
  intros t. splits; intros v; (split; [intros [d H]; destruct t; try discriminate; reflexivity|
    intros H; destruct t; try discriminate; eexists; reflexivity]).
Qed.
Print Assumptions C39_succeeds.
(** Taking the value out again succeeds exactly for the datasets of that kind. *)
Theorem C39_unwrap : forall d,
  ((exists v, to_geo_ip d = Ok v) <-> kind_of (type_of d) = Some KGeoIp) /\
  ((exists v, to_i18n d = Ok v) <-> kind_of (type_of d) = Some KI18n) /\
  ((exists v, to_ip_map d = Ok v) <-> kind_of (type_of d) = Some KIpMap) /\
  ((exists v, to_text_map d = Ok v) <-> kind_of (type_of d) = Some KTextMap) /\
  ((exists v, to_ip_map_list d = Ok v) <-> kind_of (type_of d) = Some KIpMapList) /\
  ((exists v, to_ip_set d = Ok v) <-> kind_of (type_of d) = Some KIpSet) /\
  ((exists v, to_text_set d = Ok v) <-> kind_of (type_of d) = Some KTextSet) /\
  ((exists v, to_text_map_list d = Ok v) <-> kind_of (type_of d) = Some KTextMapList) /\
  ((exists v, to_ip_net d = Ok v) <-> kind_of (type_of d) = Some KIpNet).
Proof.
  intros d. splits; (split; [intros [v H]; destruct d; try discriminate; reflexivity|
    intros H; destruct d; try discriminate; eexists; reflexivity]).
Qed.
Print Assumptions C39_unwrap.
(** Custom datasets are looked up by kind and name. *)
Theorem C39_custom : forall d name,
  (forall v, custom_map_ip_net d name = Ok v <-> type_of d = T_CustomMapIpNet name /\ to_ip_net d = Ok v) /\
  (forall v, custom_map_text d name = Ok v <-> type_of d = T_CustomMapText name /\ to_text_map d = Ok v) /\
  (forall v, custom_map_text_list d name = Ok v <-> type_of d = T_CustomMapTextList name /\ to_text_map_list d = Ok v) /\
  (forall v, custom_ip_list d name = Ok v <-> type_of d = T_CustomIpList name /\ to_ip_set d = Ok v) /\
  (forall v, custom_ip_map d name = Ok v <-> type_of d = T_CustomIpMap name /\ to_ip_map d = Ok v) /\
  (forall v, custom_text_list d name = Ok v <-> type_of d = T_CustomTextList name /\ to_text_set d = Ok v).
Proof.
  intros d name. splits; intros v; destruct d; simpl; try (split; [discriminate|intros [H _]; discriminate]);
    destruct (String.eqb_spec name0 name) as [->|Hn];
    (split; [intros H; try discriminate; auto|intros [H1 H2]; congruence]).
Qed.
Print Assumptions C39_custom.
(** The equality and order of datasets are those of their types. *)
Theorem C39_equality : forall a b, (dataset_eqb a b = true <-> type_of a = type_of b) /\ (dataset_cmp a b = Eq <-> type_of a = type_of b).
Proof. intros a b. unfold dataset_eqb, dataset_cmp. rewrite keqb_eq, cmp_eq. tauto. Qed.
Print Assumptions C39_equality.
(** GeoIP datasets: refused for the GeoIP type and accepted for every other. *)
Theorem C116_geo_ip_refuted : (forall v, from_geo_ip T_GeoIp v = Err "GeoIPSynDataset is only valid for GeoIP dataset!") /\
  (forall t v, t <> T_GeoIp -> exists d, from_geo_ip t v = Ok d /\ type_of d = T_GeoIp).
Proof.
  split; [intros v; eexists; reflexivity|]. intros t v H. exists (D_GeoIp v). split; [|reflexivity].
  unfold from_geo_ip. destruct (keqb_spec t T_GeoIp); [contradiction|reflexivity].
Qed.
Print Assumptions C116_geo_ip_refuted.
(** What the errors say. *)
Theorem C39_errors :
  (forall t v e, from_ip_map t v = Err e -> e = "IpMapSynDataset not valid for this type") /\
  (forall t v e, from_text_map t v = Err e -> e = "TextMapSynDataset not valid for this type") /\
  (forall d e, to_geo_ip d = Err e -> e = "GeoIPSynDataset is only valid for GeoIP dataset!") /\
  (forall d e, to_i18n d = Err e -> e = "I18nSynDataset is only valid for I18n dataset!") /\
  (forall d e, to_ip_map d = Err e -> e = "IpMapSynDataset not valid for this type") /\
  (forall d e, to_text_map d = Err e -> e = "TextMapSynDataset not valid for this type") /\
  (forall d e, to_ip_map_list d = Err e -> e = "IpMapListSynDataset not valid for this type") /\
  (forall d e, to_ip_set d = Err e -> e = "IpSetSynDataset not valid for this type") /\
  (forall d e, to_text_set d = Err e -> e = "TextSetSynDataset not valid for this type") /\
  (forall d e, to_text_map_list d = Err e -> e = "TextMapListSynDataset not valid for this type") /\
  (forall d e, to_ip_net d = Err e -> e = "IpNetSynDataset not valid for this type").
Proof. splits; intros x; destruct x; intros; try discriminate; cbn in *; congruence. Qed.
Print Assumptions C39_errors.
Theorem C39_custom_errors : forall d name e,
  (custom_map_ip_net d name = Err e -> e = "Cannot cast dataset") /\ (custom_map_text d name = Err e -> e = "Cannot cast dataset") /\
  (custom_map_text_list d name = Err e -> e = "Cannot cast dataset") /\ (custom_ip_list d name = Err e -> e = "Cannot cast dataset") /\
  (custom_ip_map d name = Err e -> e = "Cannot cast dataset") /\ (custom_text_list d name = Err e -> e = "Cannot cast dataset").
Proof.
  intros d name e. splits; destruct d; cbn; try congruence; destruct (String.eqb _ _); congruence.
Qed.
Print Assumptions C39_custom_errors.
(** The other conversions into a dataset all name the kind IpMap in their error, whatever kind is converted. *)
Theorem C167_kind_refuted : let err := "IpMapSynDataset not valid for this type" in
  (forall t v e, from_ip_map_list t v = Err e -> e = err) /\ (forall t v e, from_ip_set t v = Err e -> e = err) /\
  (forall t v e, from_text_set t v = Err e -> e = err) /\ (forall t v e, from_text_map_list t v = Err e -> e = err) /\
  (forall t v e, from_ip_net t v = Err e -> e = err) /\
  (forall v, from_ip_net T_BlockIp v = Err err) /\ (forall v, from_text_set T_IpDNS v = Err err).
Proof. cbn zeta. splits; try (intros v; reflexivity); intros x; destruct x; intros; try discriminate; cbn in *; congruence. Qed.
Print Assumptions C167_kind_refuted.
Example C39_nonvacuous : from_text_map (T_Secrets "k") (Handle (Syn 1 2)) = Ok (D_Secrets "k" (Handle (Syn 1 2))) /\
  from_text_map T_IpMac (Handle (Syn 1 2)) = Err "TextMapSynDataset not valid for this type" /\
  kind_of (T_Secrets "k") = Some KTextMap.
Proof. splits; reflexivity. Qed.

(** * C58 *)
Definition keys_collision_free := forall p q k, ip_ok (fst p) -> ip_ok (fst q) -> (snd p <= width (fst p))%N -> (snd q <= width (fst q))%N ->
  get_key (fst p) (snd p) = Val k -> get_key (fst q) (snd q) = Val k -> same_net p q.
(** 2001::/16 and 2001::/32 share a key: the length of an IPv6 network is overwritten. *)
Theorem C123_ipv6_length_refuted : ~ keys_collision_free.
Proof.
  intros H. specialize (H (V6 42540488161975842760550356425300246528, 16%N) (V6 42540488161975842760550356425300246528, 32%N)).
  cbn [fst snd ip_ok width] in H. destruct (H _ ltac:(lia) ltac:(lia) ltac:(lia) ltac:(lia) eq_refl eq_refl) as [E _]. discriminate.
Qed.
Print Assumptions C123_ipv6_length_refuted.
(** In general every two lengths collide for an address that is a network address for both. *)
Theorem C123_ipv6_collides_refuted : forall a n m, (a < 2 ^ 128 -> n <= 128 -> m <= 128 -> a mod 2 ^ (128 - n) = 0 -> a mod 2 ^ (128 - m) = 0 ->
  get_key (V6 a) n = get_key (V6 a) m)%N.
Proof.
  intros a n m Ha Hn Hm En Em. rewrite !get_key_v6 by assumption. unfold netaddr. rewrite !mask_eq by assumption.
  pose proof (N.div_mod' a (2 ^ (128 - n))) as D1. pose proof (N.div_mod' a (2 ^ (128 - m))) as D2.
  rewrite En, N.add_0_r, N.mul_comm in D1. rewrite Em, N.add_0_r, N.mul_comm in D2. rewrite <- D1, <- D2. reflexivity.
Qed.
Print Assumptions C123_ipv6_collides_refuted.
(** 128.0.0.0/1 and 8000::/1 share a key. *)
Theorem C123_families_refuted : exists k, get_key (V4 2147483648) 1 = Val k /\ get_key (V6 170141183460469231731687303715884105728) 1 = Val k.
Proof. eexists. split; vm_compute; reflexivity. Qed.
Print Assumptions C123_families_refuted.
(** Among IPv4 networks a key is shared exactly by the ways of writing one network. *)
Theorem C58_ipv4_keys : forall a b n m : N, (a < 2 ^ 32)%N -> (b < 2 ^ 32)%N -> (n <= 32)%N -> (m <= 32)%N ->
  get_key (V4 a) n = get_key (V4 b) m <-> same_net (V4 a, n) (V4 b, m).
Proof. exact v4_keys_inj. Qed.
Print Assumptions C58_ipv4_keys.
(** Keys have 18 bytes; IPv4 and IPv6 keys can only collide for an IPv4 network of length 1. *)
Theorem C58_families : forall a b n m k, (a < 2 ^ 32)%N -> (n <= 32)%N ->
  get_key (V4 a) n = Val k -> get_key (V6 b) m = Val k -> n = 1%N.
Proof.
  intros a b n m k Ha Hn H4 H6. rewrite get_key_v4 in H4 by assumption. unfold get_key in H6.
  destruct (sub_u8 128 m) as [x| |]; try discriminate. cbn [obind] in H6. apply Val_inj in H4, H6. subst k.
  rewrite app_assoc in H6. change (?u ++ [0%N; 1%N]) with (u ++ [0%N] ++ [1%N]) in H6. rewrite (app_assoc (be_bytes 16 _)) in H6.
  apply app_inj_tail in H6. symmetry. tauto.
Qed.
Print Assumptions C58_families.
(** Among IPv6 networks a key is shared exactly by the networks that start at the same address, whatever their lengths. *)
Theorem C58_ipv6_keys : forall a b n m : N, (a < 2 ^ 128)%N -> (b < 2 ^ 128)%N -> (n <= 128)%N -> (m <= 128)%N ->
  get_key (V6 a) n = get_key (V6 b) m <-> same_start 128 (a, n) (b, m).
Proof. exact v6_keys. Qed.
Print Assumptions C58_ipv6_keys.
Example C58_nonvacuous : get_key (V4 167837697) 16 = Val [10; 1; 0; 0; 0; 0; 0; 0; 0; 0; 0; 0; 0; 0; 0; 0; 0; 16]%N /\
  same_net (V4 167837697, 16%N) (V4 167837696, 16%N).
Proof. split; [vm_compute; reflexivity|]. repeat split. simpl; lia. Qed.

(** * C66: the on-disk GeoIP dataset *)
Definition disk_lookup_sound := forall (T : Type) (ops : list (siem_ip * N * T)) t ip v,
  Forall (fun o => ip_ok (fst (fst o)) /\ (snd (fst o) <= width (fst (fst o)))%N) ops -> slow_run ops = Val t -> ip_ok ip ->
  slow_get ip t = Val (Some v) -> exists base len, In (base, len, v) ops /\ contains base len ip.
(** After inserting 2001::/32 the address 2001:1::1, which is not in it, is found. *)
Theorem C130_ipv6_refuted : ~ disk_lookup_sound.
Proof.
  intros H.
  destruct (slow_run [(V6 42540488161975842760550356425300246528, 32%N, "x")]) as [t| |] eqn:E; try discriminate.
  specialize (H _ [(V6 42540488161975842760550356425300246528, 32%N, "x")] t (V6 42540488241204005274814694018844196865) "x").
  destruct H as (base & len & [He|[]] & Hc).
  - repeat constructor; simpl; lia.
  - exact E.
  - simpl; lia.
  - vm_compute in E. apply Val_inj in E. subst t. vm_compute; reflexivity.
  - injection He as <- <-. destruct Hc as (_ & _ & Hc). vm_compute in Hc. discriminate.
Qed.
Print Assumptions C130_ipv6_refuted.
(** With IPv4 networks only, the on-disk dataset answers every lookup like the in-memory one (to which C33 and C34 apply). *)
Theorem C66_ipv4 : forall (T : Type) (ops : list (N * N * T)),
  Forall (fun o => (fst (fst o) < 2 ^ 32)%N /\ (snd (fst o) <= 32)%N) ops ->
  exists t d, slow_run (map (fun o => let '(ip, net, v) := o in (V4 ip, net, v)) ops) = Val t /\
    ip_net_run (map (fun o => let '(ip, net, v) := o in Ins (V4 ip, net) v) ops) = Val d /\
    forall ip, (ip < 2 ^ 32)%N -> slow_get (V4 ip) t = Val (ip_net_get (V4 ip) d).
Proof. intros T. exact slow_fast_v4. Qed.
Print Assumptions C66_ipv4.
(** With IPv6 networks only, a lookup returns the value last stored under the address cut at the smallest length, from the
    number of trailing zero bits of the address up to 127, that has one: networks that start at the same address are
    one entry, whatever their lengths. *)
Theorem C66_ipv6 : forall (T : Type) (ops : list (N * N * T)),
  Forall (fun o => (fst (fst o) < 2 ^ 128)%N /\ (snd (fst o) <= 128)%N) ops ->
  exists t, slow_run (map (fun o => let '(ip, net, v) := o in (V6 ip, net, v)) ops) = Val t /\
    forall ip, (ip < 2 ^ 128)%N -> (exists r, slow_get (V6 ip) t = Val r) /\
      forall v, slow_get (V6 ip) t = Val (Some v) <->
        let history := map (fun o => let '(ip, net, v) := o in Ins (ip, net) v) ops in
        exists len, (trailing_zeros 128 ip <= len < 128)%N /\ lives (same_start 128) history (ip, len) v /\
          forall len' v', (trailing_zeros 128 ip <= len' < len)%N -> ~ lives (same_start 128) history (ip, len') v'.
Proof. intros T. exact slow_v6. Qed.
Print Assumptions C66_ipv6.
Example C66_nonvacuous : exists t, slow_run [(V4 167772160, 8%N, "wide"); (V4 167837696, 16%N, "narrow")] = Val t /\
  slow_get (V4 167837953) t = Val (Some "wide") /\ slow_get (V4 184549377) t = Val None.
Proof. eexists. split; [reflexivity|]. vm_compute. auto. Qed.

(** * C67 *)
Theorem C67_known_code : forall l s, (forall x, l <> L_Other x) -> to_upper s = lang_name l -> lang_from s = l.
Proof. intros l s Ho. apply lang_from_name. destruct l; try reflexivity. exfalso. eapply Ho. reflexivity. Qed.
Print Assumptions C67_known_code.
Theorem C67_other_code : forall s, (forall l, (forall x, l <> L_Other x) -> to_upper s <> lang_name l) -> lang_from s = L_Other "¿?".
Proof.
  intros s H. destruct (lang_from_inv s) as [[Ho He]|He]; [|exact He]. exfalso. apply (H (lang_from s)); [|exact He].
  intros x E. rewrite E in Ho. discriminate.
Qed.
Print Assumptions C67_other_code.
Theorem C67_sound : forall s l, lang_from s = l -> (forall x, l <> L_Other x) -> to_upper s = lang_name l.
Proof.
  intros s l <- H. destruct (lang_from_inv s) as [[_ He]|He]; [exact He|]. exfalso. exact (H _ He).
Qed.
Print Assumptions C67_sound.
Example C67_nonvacuous : lang_from "eS" = L_ES /\ lang_from "zz" = L_Other "¿?" /\ lang_from "" = L_Other "¿?".
Proof. vm_compute. auto. Qed.
