(** Proofs about batches of network updates and about the on-disk GeoIP dataset. *)
From Coq Require Import NArith List Bool.
From Verif Require Import Base.Arith Base.Ord Base.BTree Base.Outcome Model.Ip Model.Datasets Model.NetDataset
  Spec.DatasetSpec Proofs.DatasetP Proofs.NetP Spec.DatasetRuns.
Import ListNotations.
Local Open Scope N_scope.

(** * Batches of network updates *)
Lemma ip_net_rest_iff {T} us : forall (d d' : ip_net T), ip_net_rest d us = Val d' <-> one_by_one net_update_step d us d'.
Proof.
  induction us as [|u us IH]; intros d d'; cbn [ip_net_rest].
  - split; [intros H; injection H as <-; constructor|inversion 1; reflexivity].
  - destruct u as [[[ip net] v]|[ip net]|x].
    + destruct (ip_net_insert ip net v d) as [d1| |] eqn:E; cbn [obind].
      * rewrite IH. split; [intros H; econstructor; [constructor; exact E|exact H]|].
        inversion 1 as [|? ? ? ? ? Hs Hr]; subst. inversion Hs; subst. congruence.
      * split; [discriminate|]. inversion 1 as [|? ? ? ? ? Hs Hr]; subst. inversion Hs; congruence.
      * split; [discriminate|]. inversion 1 as [|? ? ? ? ? Hs Hr]; subst. inversion Hs; congruence.
    + destruct (ip_net_remove ip net d) as [d1| |] eqn:E; cbn [obind].
      * rewrite IH. split; [intros H; econstructor; [constructor; exact E|exact H]|].
        inversion 1 as [|? ? ? ? ? Hs Hr]; subst. inversion Hs; subst. congruence.
      * split; [discriminate|]. inversion 1 as [|? ? ? ? ? Hs Hr]; subst. inversion Hs; congruence.
      * split; [discriminate|]. inversion 1 as [|? ? ? ? ? Hs Hr]; subst. inversion Hs; congruence.
    + rewrite IH. split; [intros H; econstructor; [constructor|exact H]|].
      inversion 1 as [|? ? ? ? ? Hs Hr]; subst. inversion Hs; subst. exact Hr.
Qed.

Lemma ip_net_apply_rest {T} (d : ip_net T) us : us <> [] -> ip_net_apply d us = ip_net_rest d us.
Proof. intros H. destruct us as [|[[[ip net] v]|[ip net]|x] us]; [contradiction|reflexivity..]. Qed.

Lemma ip_net_apply_in_order {T} (d d' : ip_net T) us : us <> [] ->
  ip_net_apply d us = Val d' <-> one_by_one net_update_step d us d'.
Proof. intros H. rewrite ip_net_apply_rest by exact H. apply ip_net_rest_iff. Qed.

Lemma ip_net_rest_app {T} us vs : forall (d : ip_net T),
  ip_net_rest d (us ++ vs) = obind (ip_net_rest d us) (fun d' => ip_net_rest d' vs).
Proof.
  induction us as [|[[[ip net] v]|[ip net]|x] us IH]; intros d; cbn [app ip_net_rest obind]; [reflexivity| | |apply IH].
  - destruct (ip_net_insert ip net v d); cbn [obind]; auto.
  - destruct (ip_net_remove ip net d); cbn [obind]; auto.
Qed.

Lemma ip_net_apply_split {T} (d : ip_net T) us vs : us <> [] -> vs <> [] ->
  ip_net_apply d (us ++ vs) = obind (ip_net_apply d us) (fun d' => ip_net_apply d' vs).
Proof.
  intros Hu Hv. rewrite !ip_net_apply_rest, ip_net_rest_app; [|exact Hu|destruct us; [contradiction|discriminate]].
  destruct (ip_net_rest d us); cbn [obind]; [|reflexivity|reflexivity]. rewrite ip_net_apply_rest by exact Hv. reflexivity.
Qed.

(** * Keys of the on-disk dataset *)
Lemma be_bytes_length n : forall v, length (be_bytes n v) = n.
Proof. induction n as [|n IH]; intros v; [reflexivity|]. cbn [be_bytes]. rewrite app_length, IH. cbn; lia. Qed.

Lemma be_bytes_inj n : forall a b, a < 256 ^ N.of_nat n -> b < 256 ^ N.of_nat n -> be_bytes n a = be_bytes n b -> a = b.
Proof.
  induction n as [|n IH]; intros a b Ha Hb H.
  - change (256 ^ N.of_nat 0) with 1 in *. lia.
  - cbn [be_bytes] in H. apply app_inj_tail in H. destruct H as [Hq Hr].
    rewrite Nat2N.inj_succ, N.pow_succ_r' in Ha, Hb.
    apply IH in Hq; try (apply N.div_lt_upper_bound; lia).
    rewrite (N.div_mod' a 256), (N.div_mod' b 256), Hq, Hr. reflexivity.
Qed.

Lemma netaddr_bound w a net : net <= w -> a < 2 ^ w -> netaddr w a net < 2 ^ w.
Proof.
  intros Hn Ha. unfold netaddr. rewrite mask_eq by assumption.
  pose proof (N.mul_div_le a (2 ^ (w - net))). assert (2 ^ (w - net) <> 0) by (apply N.pow_nonzero; discriminate). nia.
Qed.

Lemma get_key_v4 a net : net <= 32 -> get_key (V4 a) net = Val (be_bytes 4 (netaddr 32 a net) ++ repeat 0 13 ++ [net]).
Proof. intros H. unfold get_key, sub_u8. replace (net <=? 32) with true by lia. reflexivity. Qed.
Lemma get_key_v6 a net : net <= 128 -> get_key (V6 a) net = Val (be_bytes 16 (netaddr 128 a net) ++ [0; 1]).
Proof. intros H. unfold get_key, sub_u8. replace (net <=? 128) with true by lia. reflexivity. Qed.

Lemma app_inj_len {A} (a b c d : list A) : length a = length b -> a ++ c = b ++ d -> a = b /\ c = d.
Proof.
  revert b. induction a as [|x a IH]; intros [|y b] Hl H; try discriminate; [auto|].
  injection H as -> H. injection Hl as Hl. destruct (IH b Hl H) as [-> ->]. auto.
Qed.

Lemma Val_inj {A} (a b : A) : Val a = Val b -> a = b.
Proof. congruence. Qed.

Lemma v4_keys_inj a b n m : a < 2 ^ 32 -> b < 2 ^ 32 -> n <= 32 -> m <= 32 ->
  get_key (V4 a) n = get_key (V4 b) m <-> same_net (V4 a, n) (V4 b, m).
Proof.
  intros Ha Hb Hn Hm. rewrite !get_key_v4 by assumption. unfold same_net, contains, same_family, in_network. cbn [fst snd width bits].
  split.
  - intros H. apply Val_inj in H. apply app_inj_len in H; [|rewrite !be_bytes_length; reflexivity].
    destruct H as [H1 H2]. apply app_inv_head in H2. assert (n = m) by congruence. subst m. splits; auto.
    symmetry. apply netaddr_same; auto. apply (be_bytes_inj 4); try exact H1;
      change (256 ^ N.of_nat 4) with (2 ^ 32); apply netaddr_bound; assumption.
  - intros (-> & _ & _ & He). symmetry in He. apply netaddr_same in He; auto. rewrite He. reflexivity.
Qed.

Lemma bytes_eqb_eq a : forall b, bytes_eqb a b = true <-> a = b.
Proof.
  induction a as [|x a IH]; intros [|y b]; cbn [bytes_eqb]; split; try congruence; try discriminate.
  - rewrite andb_true_iff, IH, N.eqb_eq. intros [-> ->]; reflexivity.
  - intros H; injection H as -> ->. rewrite N.eqb_refl, (proj2 (IH b) eq_refl). reflexivity.
Qed.

Lemma slow_fast_v4 {T} (ops : list (N * N * T)) :
  Forall (fun o => fst (fst o) < 2 ^ 32 /\ snd (fst o) <= 32) ops ->
  exists t d, slow_run (map (fun o => let '(ip, net, v) := o in (V4 ip, net, v)) ops) = Val t /\
    ip_net_run (map v4op ops) = Val d /\
    forall ip, ip < 2 ^ 32 -> slow_get (V4 ip) t = Val (ip_net_get (V4 ip) d).
Proof.
  intros Hok.
  assert (Hrun : exists t, slow_run (map (fun o => let '(ip, net, v) := o in (V4 ip, net, v)) ops) = Val t /\
            forall ip net k v, ip < 2 ^ 32 -> net <= 32 -> get_key (V4 ip) net = Val k ->
              tree_get k t = Some v <-> lives same_net (map v4op ops) (V4 ip, net) v).
  { induction ops as [|o ops IH] using rev_ind.
    - exists []. split; [reflexivity|]. intros ip net k v _ _ _. split; [discriminate|].
      intros H. destruct (lives_nil _ _ _ H).
    - apply Forall_app in Hok. destruct Hok as [Hok Ho]. apply Forall_inv in Ho.
      destruct (IH Hok) as (t & Ht & Hl). destruct o as [[ip0 net0] v0]. cbn [fst snd] in Ho. destruct Ho as [Hip0 Hnet0].
      destruct (get_key (V4 ip0) net0) as [k0| |] eqn:Ek; try (rewrite get_key_v4 in Ek by exact Hnet0; discriminate).
      exists ((k0, v0) :: t). split.
      + unfold slow_run in *. rewrite map_app, fold_left_app, Ht. cbn [fold_left map obind].
        unfold slow_insert. rewrite Ek. reflexivity.
      + intros ip net k v Hip Hnet Hk. rewrite map_app. cbn [map v4op]. rewrite lives_snoc. cbn [op_key].
        unfold tree_get. cbn [find fst].
        destruct (bytes_eqb k k0) eqn:Eb.
        * apply bytes_eqb_eq in Eb. subst k0.
          assert (Hs : same_net (V4 ip0, net0) (V4 ip, net)) by (apply v4_keys_inj; try assumption; congruence).
          split; [intros H; injection H as ->; left; eauto|].
          intros [(k' & He & _)|[Hn _]]; [injection He as _ ->; reflexivity|contradiction].
        * assert (Hns : ~ same_net (V4 ip0, net0) (V4 ip, net)).
          { intros Hs. apply v4_keys_inj in Hs; try assumption. assert (k = k0) by congruence. subst.
            rewrite (proj2 (bytes_eqb_eq k0 k0) eq_refl) in Eb. discriminate. }
          fold (tree_get k t). rewrite (Hl ip net k v Hip Hnet Hk). split; [tauto|].
          intros [(k' & He & Hs)|[_ H]]; [|exact H]. injection He as <- _. contradiction. }
  destruct Hrun as (t & Ht & Hl).
  assert (Ha : Forall op_addr_ok (map v4op ops)).
  { apply Forall_map. eapply Forall_impl; [|exact Hok]. intros [[a n] v] [H _]. exact H. }
  assert (Hlen : Forall op_len_ok (map v4op ops)).
  { apply Forall_map. eapply Forall_impl; [|exact Hok]. intros [[a n] v] [_ H]. exact H. }
  destruct (ip_net_run_spec (map v4op ops) Ha Hlen) as (d & Hd & _ & Hlook).
  exists t, d. splits; auto. intros ip Hip. unfold slow_get, ip_net_get, nets_get.
  pose proof (trailing_zeros_le 32 ip Hip) as Hz.
  assert (Hs : forall n i, i + N.of_nat n <= 32 -> slow_search (V4 ip) i n t = Val (nets_search 32 ip i n (nets4 d))).
  { induction n as [|n IH]; intros i Hi; cbn [slow_search nets_search]; [reflexivity|].
    rewrite get_key_v4 by lia. cbn [obind]. fold (netaddr 32 ip i).
    specialize (Hlook (V4 ip, i)).
    assert (He : tree_get (be_bytes 4 (netaddr 32 ip i) ++ repeat 0 13 ++ [i]) t = lookup (V4 ip, i) d).
    { specialize (Hl ip i (be_bytes 4 (netaddr 32 ip i) ++ repeat 0 13 ++ [i])).
      assert (Hk : get_key (V4 ip) i = Val (be_bytes 4 (netaddr 32 ip i) ++ repeat 0 13 ++ [i])) by (apply get_key_v4; lia).
      destruct (tree_get _ t) as [x|].
      - symmetry. apply Hlook; [exact Hip|]. apply Hl; auto. lia.
      - destruct (lookup (V4 ip, i) d) as [y|]; [|reflexivity].
        assert (Hy : lives same_net (map v4op ops) (V4 ip, i) y) by (apply Hlook; auto).
        assert (Hi32 : i <= 32) by lia. apply (proj2 (Hl y Hip Hi32 Hk)) in Hy. discriminate. }
    rewrite He. unfold lookup; cbn [fst snd]. replace (i <=? 32) with true by lia. unfold nets_lookup.
    destruct (bt_get i (nets4 d)) as [mm|]; [destruct (bt_get (netaddr 32 ip i) mm)|]; try reflexivity; apply IH; lia. }
  apply Hs. lia.
Qed.

(** * IPv6 networks *)
Lemma v6_keys a b n m : a < 2 ^ 128 -> b < 2 ^ 128 -> n <= 128 -> m <= 128 ->
  get_key (V6 a) n = get_key (V6 b) m <-> same_start 128 (a, n) (b, m).
Proof.
  intros Ha Hb Hn Hm. rewrite !get_key_v6 by assumption. unfold same_start. cbn [fst snd].
  rewrite <- !(mask_eq 128) by assumption. fold (netaddr 128 a n). fold (netaddr 128 b m). split; [|intros ->; reflexivity].
  intros H. apply Val_inj in H.
  apply (be_bytes_inj 16); [change (256 ^ N.of_nat 16) with (2 ^ 128); apply netaddr_bound; assumption..|].
  apply app_inj_len in H; [tauto|rewrite !be_bytes_length; reflexivity].
Qed.

Definition v6ins {T} (o : N * N * T) : op (N * N) T := let '(ip, net, v) := o in Ins (ip, net) v.

Lemma slow_v6_tree {T} (ops : list (N * N * T)) :
  Forall (fun o => fst (fst o) < 2 ^ 128 /\ snd (fst o) <= 128) ops ->
  exists t, slow_run (map (fun o => let '(ip, net, v) := o in (V6 ip, net, v)) ops) = Val t /\
    forall ip net k v, ip < 2 ^ 128 -> net <= 128 -> get_key (V6 ip) net = Val k ->
      tree_get k t = Some v <-> lives (same_start 128) (map v6ins ops) (ip, net) v.
Proof.
  induction ops as [|o ops IH] using rev_ind; intros Hok.
  - exists []. split; [reflexivity|]. intros ip net k v _ _ _. split; [discriminate|].
    intros H. destruct (lives_nil _ _ _ H).
  - apply Forall_app in Hok. destruct Hok as [Hok Ho]. apply Forall_inv in Ho.
    destruct (IH Hok) as (t & Ht & Hl). destruct o as [[ip0 net0] v0]. cbn [fst snd] in Ho. destruct Ho as [Hip0 Hnet0].
    destruct (get_key (V6 ip0) net0) as [k0| |] eqn:Ek; try (rewrite get_key_v6 in Ek by exact Hnet0; discriminate).
    exists ((k0, v0) :: t). split.
    + unfold slow_run in *. rewrite map_app, fold_left_app, Ht. cbn [fold_left map obind].
      unfold slow_insert. rewrite Ek. reflexivity.
    + intros ip net k v Hip Hnet Hk. rewrite map_app. cbn [map v6ins]. rewrite lives_snoc. cbn [op_key].
      unfold tree_get. cbn [find fst].
      destruct (bytes_eqb k k0) eqn:Eb.
      * apply bytes_eqb_eq in Eb. subst k0.
        assert (Hs : same_start 128 (ip0, net0) (ip, net)) by (apply v6_keys; try assumption; congruence).
        split; [intros H; injection H as ->; left; eauto|].
        intros [(k' & He & _)|[Hn _]]; [injection He as _ ->; reflexivity|contradiction].
      * assert (Hns : ~ same_start 128 (ip0, net0) (ip, net)).
        { intros Hs. apply v6_keys in Hs; try assumption. assert (k = k0) by congruence. subst.
          rewrite (proj2 (bytes_eqb_eq k0 k0) eq_refl) in Eb. discriminate. }
        fold (tree_get k t). rewrite (Hl ip net k v Hip Hnet Hk). split; [tauto|].
        intros [(k' & He & Hs)|[_ H]]; [|exact H]. injection He as <- _. contradiction.
Qed.

Lemma slow_search_v6 {T} (t : tree T) (P : N -> T -> Prop) ip :
  (forall i k v, i <= 128 -> get_key (V6 ip) i = Val k -> tree_get k t = Some v <-> P i v) ->
  forall n i, i + N.of_nat n <= 128 ->
    (exists r, slow_search (V6 ip) i n t = Val r) /\
    forall v, slow_search (V6 ip) i n t = Val (Some v) <->
      exists j, i <= j < i + N.of_nat n /\ P j v /\ forall j' v', i <= j' < j -> ~ P j' v'.
Proof.
  intros HP. induction n as [|n IH]; intros i Hi; cbn [slow_search].
  - split; [eauto|]. intros v. split; [discriminate|]. intros (j & Hj & _). lia.
  - destruct (get_key (V6 ip) i) as [k| |] eqn:Ek; try (rewrite get_key_v6 in Ek by lia; discriminate).
    cbn [obind]. destruct (tree_get k t) as [x|] eqn:Et.
    + assert (Hx : P i x) by (apply (HP i k x); [lia|exact Ek|exact Et]).
      split; [eauto|]. intros v. split.
      * intros H. assert (x = v) by congruence. subst v. exists i. splits; [lia|lia|exact Hx|]. intros; lia.
      * intros (j & Hj & Hv & Hno). destruct (N.eq_dec j i) as [->|Hne].
        -- apply (HP i k v) in Hv; [congruence|lia|exact Ek].
        -- exfalso. apply (Hno i x); [lia|exact Hx].
    + destruct (IH (i + 1)) as [He Hv]; [lia|]. split; [exact He|]. intros v. rewrite Hv. split.
      * intros (j & Hj & Hp & Hno). exists j. splits; try lia; auto. intros j' v' Hj' Hp'.
        destruct (N.eq_dec j' i) as [->|Hne]; [|apply (Hno j' v'); [lia|exact Hp']].
        apply (HP i k v') in Hp'; [congruence|lia|exact Ek].
      * intros (j & Hj & Hp & Hno). exists j. destruct (N.eq_dec j i) as [->|Hne].
        { apply (HP i k v) in Hp; [congruence|lia|exact Ek]. }
        splits; try lia; auto. intros j' v' Hj'. apply Hno. lia.
Qed.

Lemma slow_v6 {T} (ops : list (N * N * T)) :
  Forall (fun o => fst (fst o) < 2 ^ 128 /\ snd (fst o) <= 128) ops ->
  exists t, slow_run (map (fun o => let '(ip, net, v) := o in (V6 ip, net, v)) ops) = Val t /\
    forall ip, ip < 2 ^ 128 -> (exists r, slow_get (V6 ip) t = Val r) /\
      forall v, slow_get (V6 ip) t = Val (Some v) <->
        exists len, trailing_zeros 128 ip <= len < 128 /\ lives (same_start 128) (map v6ins ops) (ip, len) v /\
          forall len' v', trailing_zeros 128 ip <= len' < len -> ~ lives (same_start 128) (map v6ins ops) (ip, len') v'.
Proof.
  intros Hok. destruct (slow_v6_tree ops Hok) as (t & Ht & Hl). exists t. split; [exact Ht|].
  intros ip Hip. pose proof (trailing_zeros_le 128 ip Hip) as Hz. unfold slow_get.
  destruct (slow_search_v6 t (fun i v => lives (same_start 128) (map v6ins ops) (ip, i) v) ip) with
    (n := N.to_nat (128 - trailing_zeros 128 ip)) (i := trailing_zeros 128 ip) as [He Hv].
  - intros i k v Hi Hk. apply Hl; assumption.
  - lia.
  - split; [exact He|]. intros v. rewrite Hv.
    split; intros (j & Hj & Hr); exists j; (split; [lia|exact Hr]).
Qed.
