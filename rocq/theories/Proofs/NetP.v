(** Proofs about the network datasets. *)
From Coq Require Import NArith List Bool.
From Verif Require Import Base.Arith Base.Ord Base.BTree Base.Outcome Model.Ip Model.Datasets Model.NetDataset
  Spec.DatasetSpec Proofs.DatasetP Spec.DatasetRuns.
Import ListNotations.
Local Open Scope N_scope.

(** * Masks *)
Lemma ones_bits w i : N.testbit (2 ^ w - 1) i = (i <? w).
Proof.
  rewrite N.sub_1_r, <- N.ones_equiv. destruct (N.ltb_spec i w).
  - apply N.ones_spec_low; assumption.
  - apply N.ones_spec_high; assumption.
Qed.

Lemma mask_eq w ip net : net <= w -> ip < 2 ^ w ->
  N.land ip (shl_max w (w - net)) = (ip / 2 ^ (w - net)) * 2 ^ (w - net).
Proof.
  intros Hn Hip. unfold shl_max. destruct (N.ltb_spec (w - net) w) as [Hlt|Hge].
  - rewrite <- N.shiftr_div_pow2, <- N.shiftl_mul_pow2. apply N.bits_inj. intros i.
    rewrite N.land_spec. destruct (N.ltb_spec i w) as [Hi|Hi].
    + rewrite N.mod_pow2_bits_low by exact Hi.
      destruct (N.ltb_spec i (w - net)) as [Hk|Hk].
      * rewrite !N.shiftl_spec_low by exact Hk. apply andb_false_r.
      * rewrite !N.shiftl_spec_high' by exact Hk. rewrite ones_bits, N.shiftr_spec' .
        replace (i - (w - net) + (w - net)) with i by lia.
        replace (i - (w - net) <? w) with true by lia. apply andb_true_r.
    + assert (Hz : N.testbit ip i = false).
      { destruct (N.eq_dec ip 0) as [->|Hz]; [apply N.bits_0|]. apply N.bits_above_log2.
        apply N.log2_lt_pow2 in Hip; lia. }
      rewrite Hz. cbn [andb]. symmetry. rewrite N.shiftl_spec_high' by lia. rewrite N.shiftr_spec'.
      replace (i - (w - net) + (w - net)) with i by lia. exact Hz.
  - replace net with 0 by lia. rewrite N.sub_0_r, N.land_0_r, N.div_small by exact Hip. reflexivity.
Qed.

(** The network address of [ip]/[net]. *)
Definition netaddr (w ip net : N) : N := N.land ip (shl_max w (w - net)).

Lemma netaddr_same w a b net : net <= w -> a < 2 ^ w -> b < 2 ^ w ->
  netaddr w a net = netaddr w b net <-> a / 2 ^ (w - net) = b / 2 ^ (w - net).
Proof.
  intros Hn Ha Hb. unfold netaddr. rewrite !mask_eq by assumption. split; [|congruence].
  intros H. apply N.mul_cancel_r in H; [exact H|]. apply N.pow_nonzero; discriminate.
Qed.

(** * One family *)
Section Family.
  Context {T : Type} (w : N).

  Definition nets_lookup (net a : N) (m : nets T) : option T :=
    match bt_get net m with Some mm => bt_get a mm | None => None end.

  Lemma nets_insert_ok ip net (v : T) m : net <= w ->
    exists m', nets_insert w ip net v m = Val m' /\
      forall net' a, nets_lookup net' a m' =
        if (net' =? net) && (a =? netaddr w ip net) then Some v else nets_lookup net' a m.
  Proof.
    intros Hn. unfold nets_insert, sub_u8. replace (net <=? w) with true by lia. cbn [obind].
    fold (netaddr w ip net). unfold bt_has.
    destruct (bt_get net m) as [mm|] eqn:E; eexists; (split; [reflexivity|]); intros net' a; unfold nets_lookup;
      rewrite bt_get_insert; destruct (keqb_spec net' net) as [->|Hne].
    - rewrite N.eqb_refl, E. cbn [andb]. rewrite bt_get_insert.
      destruct (keqb_spec a (netaddr w ip net)) as [->|Ha]; [rewrite N.eqb_refl; reflexivity|].
      apply N.eqb_neq in Ha. rewrite Ha. reflexivity.
    - apply N.eqb_neq in Hne. rewrite Hne. reflexivity.
    - rewrite N.eqb_refl, E. cbn [andb]. rewrite bt_get_insert.
      destruct (keqb_spec a (netaddr w ip net)) as [->|Ha]; [rewrite N.eqb_refl; reflexivity|].
      apply N.eqb_neq in Ha. rewrite Ha. reflexivity.
    - apply N.eqb_neq in Hne. rewrite Hne. reflexivity.
  Qed.

  Lemma nets_insert_panic ip net (v : T) m : ~ net <= w -> nets_insert w ip net v m = Panic.
  Proof. intros Hn. unfold nets_insert, sub_u8. replace (net <=? w) with false by lia. reflexivity. Qed.

  (** No entry for an impossible length. *)
  Definition nets_ok (m : nets T) : Prop := forall net, ~ net <= w -> bt_get net m = None.

  Lemma nets_insert_keeps_ok ip net (v : T) m m' : nets_insert w ip net v m = Val m' -> nets_ok m -> nets_ok m'.
  Proof.
    unfold nets_insert, sub_u8. destruct (N.leb_spec net w) as [Hn|Hn]; cbn [obind]; [|discriminate].
    intros H Hok net' Hn'. assert (Hne : net' <> net) by (intros ->; contradiction).
    destruct (bt_has net m); [destruct (bt_get net m)|]; injection H as <-; rewrite ?bt_get_insert_ne by exact Hne; auto.
  Qed.

  Lemma nets_remove_ok ip net m : nets_ok m ->
    exists m', nets_remove w ip net m = Val m' /\ nets_ok m' /\
      forall net' a, nets_lookup net' a m' =
        if (net <=? w) && (net' =? net) && (a =? netaddr w ip net) then None else nets_lookup net' a m.
  Proof.
    intros Hok. unfold nets_remove. destruct (bt_get net m) as [mm|] eqn:E.
    - assert (Hn : net <= w) by (destruct (N.leb_spec net w); [assumption|]; rewrite Hok in E; [discriminate|lia]).
      unfold sub_u8. replace (net <=? w) with true by lia. cbn [obind andb]. fold (netaddr w ip net).
      eexists; split; [reflexivity|]. split.
      + intros net' Hn'. rewrite bt_get_insert_ne by (intros ->; contradiction). auto.
      + intros net' a. unfold nets_lookup. rewrite bt_get_insert. destruct (keqb_spec net' net) as [->|Hne].
        * rewrite N.eqb_refl, E. cbn [andb]. rewrite bt_get_remove.
          destruct (keqb_spec a (netaddr w ip net)) as [->|Ha]; [rewrite N.eqb_refl; reflexivity|].
          apply N.eqb_neq in Ha. rewrite Ha. reflexivity.
        * apply N.eqb_neq in Hne. rewrite Hne. reflexivity.
    - exists m. splits; auto. intros net' a. destruct (N.eqb_spec net' net) as [->|Hne].
      + unfold nets_lookup at 2. rewrite E. unfold nets_lookup. rewrite E. destruct (_ && _); reflexivity.
      + rewrite andb_false_r. reflexivity.
  Qed.

  (** ** Search *)
  Lemma nets_search_spec n : forall ip i (m : nets T) v,
    nets_search w ip i n m = Some v <->
    exists j, i <= j < i + N.of_nat n /\ nets_lookup j (netaddr w ip j) m = Some v /\
      forall j', i <= j' < j -> nets_lookup j' (netaddr w ip j') m = None.
  Proof.
    induction n as [|n IH]; intros ip i m v; cbn [nets_search].
    - split; [discriminate|]. intros (j & Hj & _). lia.
    - fold (netaddr w ip i).
      assert (E : nets_lookup i (netaddr w ip i) m =
                  match bt_get i m with Some mm => bt_get (netaddr w ip i) mm | None => None end) by reflexivity.
      destruct (nets_lookup i (netaddr w ip i) m) as [x|] eqn:El.
      + assert (Hs : match bt_get i m with
                     | Some mm => match bt_get (netaddr w ip i) mm with Some y => Some y | None => nets_search w ip (i + 1) n m end
                     | None => nets_search w ip (i + 1) n m end = Some x).
        { destruct (bt_get i m); [|discriminate]. rewrite <- E. reflexivity. }
        rewrite Hs. split.
        * intros H. exists i. splits; [lia|lia|congruence|]. intros j' Hj'. lia.
        * intros (j & Hj & Hv & Hnone). destruct (N.eq_dec j i) as [->|Hne]; [congruence|].
          rewrite Hnone in El by lia. discriminate.
      + assert (Hs : match bt_get i m with
                     | Some mm => match bt_get (netaddr w ip i) mm with Some y => Some y | None => nets_search w ip (i + 1) n m end
                     | None => nets_search w ip (i + 1) n m end = nets_search w ip (i + 1) n m).
        { destruct (bt_get i m); [|reflexivity]. rewrite <- E. reflexivity. }
        rewrite Hs, IH. split.
        * intros (j & Hj & Hv & Hnone). exists j. splits; try lia; auto.
          intros j' Hj'. destruct (N.eq_dec j' i) as [->|]; [exact El|]. apply Hnone. lia.
        * intros (j & Hj & Hv & Hnone). exists j. destruct (N.eq_dec j i) as [->|]; [congruence|].
          splits; try lia; auto. intros j' Hj'. apply Hnone. lia.
  Qed.

  Lemma nets_search_none n : forall ip i (m : nets T),
    nets_search w ip i n m = None <->
    forall j, i <= j < i + N.of_nat n -> nets_lookup j (netaddr w ip j) m = None.
  Proof.
    intros ip i m. split.
    - intros H j Hj.
      assert (Hx : forall k, (k <= N.to_nat (j - i))%nat -> forall j', i <= j' <= i + N.of_nat k -> nets_lookup j' (netaddr w ip j') m = None).
      { induction k as [|k IHk]; intros Hk j' Hj'.
        - assert (j' = i) by lia. subst j'.
          destruct (nets_lookup i (netaddr w ip i) m) as [x|] eqn:E; [|reflexivity]. exfalso.
          assert (Hs : nets_search w ip i n m = Some x).
          { apply nets_search_spec. exists i. splits; try lia; auto. }
          congruence.
        - destruct (N.le_gt_cases j' (i + N.of_nat k)); [apply IHk; lia|].
          destruct (nets_lookup j' (netaddr w ip j') m) as [x|] eqn:E; [|reflexivity]. exfalso.
          assert (Hs : nets_search w ip i n m = Some x).
          { apply nets_search_spec. exists j'. splits; try lia; auto. intros j'' Hj''. apply IHk; lia. }
          congruence. }
      apply (Hx (N.to_nat (j - i)) (Nat.le_refl _)). lia.
    - intros H. destruct (nets_search w ip i n m) as [x|] eqn:E; [|reflexivity].
      apply nets_search_spec in E. destruct E as (j & Hj & Hv & _). rewrite H in Hv by lia. discriminate.
  Qed.

  Lemma pos_zeros_spec p : 2 ^ pos_zeros p <= Npos p.
  Proof.
    induction p as [p IH|p IH|]; cbn [pos_zeros]; [cbn; lia| |cbn; lia].
    rewrite N.pow_add_r. change (2 ^ 1) with 2. lia.
  Qed.
  Lemma trailing_zeros_le ip : ip < 2 ^ w -> trailing_zeros w ip <= w.
  Proof.
    intros H. unfold trailing_zeros. destruct ip as [|p]; [lia|].
    pose proof (pos_zeros_spec p). assert (2 ^ pos_zeros p < 2 ^ w) by lia.
    apply N.pow_lt_mono_r_iff in H1; lia.
  Qed.

  Lemma nets_get_spec ip (m : nets T) v : ip < 2 ^ w ->
    nets_get w ip m = Some v <->
    exists j, trailing_zeros w ip <= j < w /\ nets_lookup j (netaddr w ip j) m = Some v /\
      forall j', trailing_zeros w ip <= j' < j -> nets_lookup j' (netaddr w ip j') m = None.
  Proof.
    intros H. pose proof (trailing_zeros_le ip H). unfold nets_get. rewrite nets_search_spec.
    split; intros (j & Hj & Hr); exists j; (split; [lia|exact Hr]).
  Qed.
  Lemma nets_get_none ip (m : nets T) : ip < 2 ^ w ->
    nets_get w ip m = None <->
    forall j, trailing_zeros w ip <= j < w -> nets_lookup j (netaddr w ip j) m = None.
  Proof.
    intros H. pose proof (trailing_zeros_le ip H). unfold nets_get. rewrite nets_search_none.
    split; intros Hx j Hj; apply Hx; lia.
  Qed.
End Family.

(** * Both families, histories *)
Lemma N_le_dec (a b : N) : {a <= b} + {~ a <= b}.
Proof. unfold N.le. destruct (a ?= b); [left|left|right]; congruence. Defined.

Lemma same_net_dec p q : {same_net p q} + {~ same_net p q}.
Proof.
  unfold same_net, contains, same_family, in_network.
  destruct (N.eq_dec (snd p) (snd q)); [|right; tauto].
  destruct (N.eq_dec (width (fst p)) (width (fst q))); [|right; tauto].
  destruct (N_le_dec (snd p) (width (fst q))) as [|]; [|right; intros (_ & _ & ? & _); lia].
  destruct (N.eq_dec (bits (fst q) / 2 ^ (width (fst q) - snd p)) (bits (fst p) / 2 ^ (width (fst q) - snd p))); [left|right]; tauto.
Defined.

Section IpNet.
  Context {T : Type}.
  Notation netop := (op (siem_ip * N) T).

  Definition lookup (p : siem_ip * N) (d : ip_net T) : option T :=
    match fst p with
    | V4 a => if snd p <=? 32 then nets_lookup (snd p) (netaddr 32 a (snd p)) (nets4 d) else None
    | V6 a => if snd p <=? 128 then nets_lookup (snd p) (netaddr 128 a (snd p)) (nets6 d) else None
    end.
  Definition ds_ok (d : ip_net T) : Prop := nets_ok 32 (nets4 d) /\ nets_ok 128 (nets6 d).

  Lemma netaddr_eqb w a b net net' : net <= w -> a < 2 ^ w -> b < 2 ^ w ->
    (net' =? net) && (netaddr w a net' =? netaddr w b net) =
    (net' =? net) && (a / 2 ^ (w - net) =? b / 2 ^ (w - net)).
  Proof.
    intros Hn Ha Hb. destruct (N.eqb_spec net' net) as [->|]; [|reflexivity]. cbn [andb].
    pose proof (netaddr_same w a b net Hn Ha Hb) as H.
    destruct (N.eqb_spec (netaddr w a net) (netaddr w b net)), (N.eqb_spec (a / 2 ^ (w - net)) (b / 2 ^ (w - net))); tauto.
  Qed.

  Ltac addr := match goal with |- context [netaddr _ _ _ =? netaddr _ _ _] => rewrite netaddr_eqb by (assumption || lia) end.

  Lemma step_insert ip net v d : ip_ok ip -> net <= width ip -> ds_ok d ->
    exists d', ip_net_insert ip net v d = Val d' /\ ds_ok d' /\
      forall q, ip_ok (fst q) -> lookup q d' = if same_net_dec (ip, net) q then Some v else lookup q d.
  Proof.
    intros Hip Hn [H4 H6]. destruct ip as [a|a]; cbn [width ip_ok] in *.
    - destruct (nets_insert_ok 32 a net v (nets4 d) Hn) as (m' & Hm & Hl).
      unfold ip_net_insert. rewrite Hm. cbn [obind]. eexists; split; [reflexivity|]. split.
      + split; [|exact H6]. eapply nets_insert_keeps_ok; eassumption.
      + intros [[b|b] k] Hq; unfold lookup; cbn [fst snd nets4 nets6] in *.
        * rewrite Hl. destruct (N.leb_spec k 32) as [Hk|Hk].
          -- addr. destruct (same_net_dec (V4 a, net) (V4 b, k)) as [[Hs [_ [_ He]]]|Hns];
               cbn [fst snd width bits] in *.
             ++ rewrite Hs, N.eqb_refl. rewrite <- Hs, He, N.eqb_refl. reflexivity.
             ++ destruct (N.eqb_spec k net) as [->|]; [|reflexivity]. cbn [andb].
                destruct (N.eqb_spec (b / 2 ^ (32 - net)) (a / 2 ^ (32 - net))) as [He|]; [|reflexivity].
                exfalso. apply Hns. unfold same_net, contains, same_family, in_network; cbn [fst snd width bits]. auto.
          -- destruct (same_net_dec (V4 a, net) (V4 b, k)) as [[Hs _]|]; [cbn [snd] in Hs; lia|reflexivity].
        * destruct (same_net_dec (V4 a, net) (V6 b, k)) as [[_ [Hf _]]|]; [discriminate|reflexivity].
    - destruct (nets_insert_ok 128 a net v (nets6 d) Hn) as (m' & Hm & Hl).
      unfold ip_net_insert. rewrite Hm. cbn [obind]. eexists; split; [reflexivity|]. split.
      + split; [exact H4|]. eapply nets_insert_keeps_ok; eassumption.
      + intros [[b|b] k] Hq; unfold lookup; cbn [fst snd nets4 nets6] in *.
        * destruct (same_net_dec (V6 a, net) (V4 b, k)) as [[_ [Hf _]]|]; [discriminate|reflexivity].
        * rewrite Hl. destruct (N.leb_spec k 128) as [Hk|Hk].
          -- addr. destruct (same_net_dec (V6 a, net) (V6 b, k)) as [[Hs [_ [_ He]]]|Hns];
               cbn [fst snd width bits] in *.
             ++ rewrite Hs, N.eqb_refl. rewrite <- Hs, He, N.eqb_refl. reflexivity.
             ++ destruct (N.eqb_spec k net) as [->|]; [|reflexivity]. cbn [andb].
                destruct (N.eqb_spec (b / 2 ^ (128 - net)) (a / 2 ^ (128 - net))) as [He|]; [|reflexivity].
                exfalso. apply Hns. unfold same_net, contains, same_family, in_network; cbn [fst snd width bits]. auto.
          -- destruct (same_net_dec (V6 a, net) (V6 b, k)) as [[Hs _]|]; [cbn [snd] in Hs; lia|reflexivity].
  Qed.

  Lemma step_remove ip net d : ip_ok ip -> ds_ok d ->
    exists d', ip_net_remove ip net d = Val d' /\ ds_ok d' /\
      forall q, ip_ok (fst q) -> lookup q d' = if same_net_dec (ip, net) q then None else lookup q d.
  Proof.
    intros Hip [H4 H6]. destruct ip as [a|a]; cbn [width ip_ok] in *.
    - destruct (nets_remove_ok 32 a net (nets4 d) H4) as (m' & Hm & Hok & Hl).
      unfold ip_net_remove. rewrite Hm. cbn [obind]. eexists; split; [reflexivity|]. split.
      + split; [exact Hok|exact H6].
      + intros [[b|b] k] Hq; unfold lookup; cbn [fst snd nets4 nets6] in *.
        * rewrite Hl. destruct (N.leb_spec k 32) as [Hk|Hk].
          -- destruct (N.leb_spec net 32) as [Hn|Hn]; cbn [andb].
             ++ addr. destruct (same_net_dec (V4 a, net) (V4 b, k)) as [[Hs [_ [_ He]]]|Hns];
                  cbn [fst snd width bits] in *.
                ** rewrite Hs, N.eqb_refl. rewrite <- Hs, He, N.eqb_refl. reflexivity.
                ** destruct (N.eqb_spec k net) as [->|]; [|reflexivity]. cbn [andb].
                   destruct (N.eqb_spec (b / 2 ^ (32 - net)) (a / 2 ^ (32 - net))) as [He|]; [|reflexivity].
                   exfalso. apply Hns. unfold same_net, contains, same_family, in_network; cbn [fst snd width bits]. auto.
             ++ destruct (same_net_dec (V4 a, net) (V4 b, k)) as [[Hs _]|]; [cbn [snd] in Hs; lia|reflexivity].
          -- destruct (same_net_dec (V4 a, net) (V4 b, k)); reflexivity.
        * destruct (same_net_dec (V4 a, net) (V6 b, k)) as [[_ [Hf _]]|]; [discriminate|reflexivity].
    - destruct (nets_remove_ok 128 a net (nets6 d) H6) as (m' & Hm & Hok & Hl).
      unfold ip_net_remove. rewrite Hm. cbn [obind]. eexists; split; [reflexivity|]. split.
      + split; [exact H4|exact Hok].
      + intros [[b|b] k] Hq; unfold lookup; cbn [fst snd nets4 nets6] in *.
        * destruct (same_net_dec (V6 a, net) (V4 b, k)) as [[_ [Hf _]]|]; [discriminate|reflexivity].
        * rewrite Hl. destruct (N.leb_spec k 128) as [Hk|Hk].
          -- destruct (N.leb_spec net 128) as [Hn|Hn]; cbn [andb].
             ++ addr. destruct (same_net_dec (V6 a, net) (V6 b, k)) as [[Hs [_ [_ He]]]|Hns];
                  cbn [fst snd width bits] in *.
                ** rewrite Hs, N.eqb_refl. rewrite <- Hs, He, N.eqb_refl. reflexivity.
                ** destruct (N.eqb_spec k net) as [->|]; [|reflexivity]. cbn [andb].
                   destruct (N.eqb_spec (b / 2 ^ (128 - net)) (a / 2 ^ (128 - net))) as [He|]; [|reflexivity].
                   exfalso. apply Hns. unfold same_net, contains, same_family, in_network; cbn [fst snd width bits]. auto.
             ++ destruct (same_net_dec (V6 a, net) (V6 b, k)) as [[Hs _]|]; [cbn [snd] in Hs; lia|reflexivity].
          -- destruct (same_net_dec (V6 a, net) (V6 b, k)); reflexivity.
  Qed.

  Lemma ip_net_run_spec (ops : list netop) : Forall op_addr_ok ops -> Forall op_len_ok ops ->
    exists d, ip_net_run ops = Val d /\ ds_ok d /\
      forall q v, ip_ok (fst q) -> lookup q d = Some v <-> lives same_net ops q v.
  Proof.
    induction ops as [|o ops IH] using rev_ind; intros Ha Hl.
    - exists ip_net_new. splits; [reflexivity| |].
      + split; intros net _; reflexivity.
      + intros q v _. split.
        * unfold lookup. destruct (fst q); destruct (_ <=? _); discriminate.
        * intros H; destruct (lives_nil same_net _ _ H).
    - apply Forall_app in Ha. destruct Ha as [Ha Ha1]. apply Forall_inv in Ha1.
      apply Forall_app in Hl. destruct Hl as [Hl Hl1]. apply Forall_inv in Hl1.
      destruct (IH Ha Hl) as (d & Hd & Hok & Hlook).
      assert (Hrun : ip_net_run (ops ++ [o]) = net_step (Val d) o).
      { unfold ip_net_run in *. rewrite fold_left_app. cbn [fold_left]. rewrite Hd. reflexivity. }
      rewrite Hrun. destruct o as [[ip net] v0|[ip net]]; unfold op_addr_ok in Ha1; cbn [op_key op_len_ok fst] in *;
        unfold net_step; cbn [obind].
      + destruct (step_insert ip net v0 d Ha1 Hl1 Hok) as (d' & Hd' & Hok' & Hq). exists d'. splits; auto.
        intros q v Hqok. rewrite Hq, lives_snoc by exact Hqok. cbn [op_key].
        destruct (same_net_dec (ip, net) q) as [Hs|Hn].
        * split; [intros H; injection H as ->; left; eauto|].
          intros [(k' & He & _)|[Hn _]]; [injection He as _ ->; reflexivity|contradiction].
        * rewrite Hlook by exact Hqok. split; [tauto|]. intros [(k' & He & Hs)|[_ H]]; [|exact H].
          injection He as <- _. contradiction.
      + destruct (step_remove ip net d Ha1 Hok) as (d' & Hd' & Hok' & Hq). exists d'. splits; auto.
        intros q v Hqok. rewrite Hq, lives_snoc by exact Hqok. cbn [op_key].
        destruct (same_net_dec (ip, net) q) as [Hs|Hn].
        * split; [discriminate|]. intros [(k' & He & _)|[Hn _]]; [discriminate|contradiction].
        * rewrite Hlook by exact Hqok. split; [tauto|]. intros [(k' & He & Hs)|[_ H]]; [discriminate|exact H].
  Qed.

  (** An insertion with an impossible length aborts. *)
  Lemma ip_net_insert_panics ip net (v : T) d : width ip < net -> ip_net_insert ip net v d = Panic.
  Proof. intros H. destruct ip; cbn [width] in H; unfold ip_net_insert; rewrite nets_insert_panic by lia; reflexivity. Qed.

  (** [get] in terms of [lookup] *)
  Lemma ip_net_get_spec ip (d : ip_net T) v : ip_ok ip ->
    ip_net_get ip d = Some v <->
    exists len, trailing_zeros (width ip) (bits ip) <= len < width ip /\ lookup (ip, len) d = Some v /\
      forall len', trailing_zeros (width ip) (bits ip) <= len' < len -> lookup (ip, len') d = None.
  Proof.
    intros Hip. destruct ip as [a|a]; cbn [ip_net_get width bits ip_ok] in *; rewrite nets_get_spec by exact Hip;
      unfold lookup; cbn [fst snd]; split; intros (j & Hj & Hv & Hn); exists j; splits; try lia.
    - replace (j <=? 32) with true by lia. exact Hv.
    - intros len' H'. rewrite Hn by lia. destruct (_ <=? _); reflexivity.
    - replace (j <=? 32) with true in Hv by lia. exact Hv.
    - intros len' H'. specialize (Hn len' H'). replace (len' <=? 32) with true in Hn by lia. exact Hn.
    - replace (j <=? 128) with true by lia. exact Hv.
    - intros len' H'. rewrite Hn by lia. destruct (_ <=? _); reflexivity.
    - replace (j <=? 128) with true in Hv by lia. exact Hv.
    - intros len' H'. specialize (Hn len' H'). replace (len' <=? 128) with true in Hn by lia. exact Hn.
  Qed.

  Lemma lookup_none_iff ops d ip len : ip_ok ip ->
    (forall q v, ip_ok (fst q) -> lookup q d = Some v <-> lives same_net ops q v) ->
    lookup (ip, len) d = None <-> forall v, ~ lives same_net ops (ip, len) v.
  Proof.
    intros Hip H. destruct (lookup (ip, len) d) as [x|] eqn:E.
    - split; [discriminate|]. intros Hn. exfalso. apply (Hn x). apply H; [exact Hip|exact E].
    - split; [|reflexivity]. intros _ v Hv. apply H in Hv; [|exact Hip]. congruence.
  Qed.

  Lemma lives_same (ops : list netop) p q v : ip_ok (fst p) -> ip_ok (fst q) -> same_net p q ->
    lives same_net ops q v -> lives same_net ops p v.
  Proof.
    intros _ _ [Hl [Hf [Hn Hq]]] (b & k & a & He & Hk & Ha). exists b, k, a.
    assert (Ht : forall r, same_net r q <-> same_net r p).
    { intros r. unfold same_net, contains, same_family, in_network in *. rewrite <- Hf, <- Hl in *.
      split; intros (H1 & H2 & H3 & H4); splits; try congruence; rewrite H1 in *; try lia; congruence. }
    splits; [exact He|apply Ht; exact Hk|]. eapply Forall_impl; [|exact Ha]. intros o Ho H. apply Ho, Ht, H.
  Qed.

  (** ** The exact result of a lookup *)
  Lemma ip_net_get_history (ops : list netop) d ip v :
    Forall op_addr_ok ops -> Forall op_len_ok ops -> ip_net_run ops = Val d -> ip_ok ip ->
    (ip_net_get ip d = Some v <->
     exists len, trailing_zeros (width ip) (bits ip) <= len < width ip /\ lives same_net ops (ip, len) v /\
       forall len' v', trailing_zeros (width ip) (bits ip) <= len' < len -> ~ lives same_net ops (ip, len') v').
  Proof.
    intros Ha Hl Hr Hip. destruct (ip_net_run_spec ops Ha Hl) as (d' & Hd & _ & Hlook).
    assert (d' = d) by congruence. subst d'. rewrite ip_net_get_spec by exact Hip.
    split; intros (len & Hlen & Hv & Hn); exists len; splits; try lia.
    - apply Hlook; [exact Hip|exact Hv].
    - intros len' v' Hlen' Hlv. apply Hlook in Hlv; [|exact Hip]. rewrite Hn in Hlv by lia. discriminate.
    - apply Hlook; [exact Hip|exact Hv].
    - intros len' Hlen'. apply (lookup_none_iff ops); [exact Hip|exact Hlook|]. intros v'. apply Hn; lia.
  Qed.

  Lemma ip_net_get_none ip (d : ip_net T) : ip_ok ip -> ip_net_get ip d = None ->
    forall len, trailing_zeros (width ip) (bits ip) <= len < width ip -> lookup (ip, len) d = None.
  Proof.
    intros Hip Hg len. induction len as [len IH] using (well_founded_induction N.lt_wf_0). intros Hl.
    destruct (lookup (ip, len) d) as [v|] eqn:E; [|reflexivity].
    assert (ip_net_get ip d = Some v); [|congruence].
    apply ip_net_get_spec; [exact Hip|]. exists len. splits; try lia; auto. intros len' H'. apply IH; lia.
  Qed.

  Lemma ip_net_get_found (ops : list netop) d ip base len v :
    Forall op_addr_ok ops -> Forall op_len_ok ops -> ip_net_run ops = Val d -> ip_ok ip -> ip_ok base ->
    lives same_net ops (base, len) v -> contains base len ip ->
    trailing_zeros (width ip) (bits ip) <= len < width ip -> exists v', ip_net_get ip d = Some v'.
  Proof.
    intros Ha Hl Hr Hip Hb Hv Hc Hlen. destruct (ip_net_run_spec ops Ha Hl) as (d' & Hd & _ & Hlook).
    assert (d' = d) by congruence. subst d'.
    destruct (ip_net_get ip d) as [x|] eqn:E; [eauto|exfalso].
    pose proof (ip_net_get_none ip d Hip E len Hlen) as Hn.
    assert (Hs : same_net (ip, len) (base, len)).
    { destruct Hc as (Hf & Hle & He). unfold same_net, contains, same_family, in_network in *. cbn [fst snd] in *.
      rewrite Hf. splits; auto. }
    apply (lives_same ops (ip, len) (base, len)) in Hv; auto. apply Hlook in Hv; [congruence|exact Hip].
  Qed.

  Lemma ip_net_get_sound (ops : list netop) d ip v :
    Forall op_addr_ok ops -> Forall op_len_ok ops -> ip_net_run ops = Val d -> ip_ok ip ->
    ip_net_get ip d = Some v ->
    exists before base len after, ops = before ++ Ins (base, len) v :: after /\ contains base len ip /\
      Forall (fun o => ~ same_net (op_key o) (base, len)) after.
  Proof.
    intros Ha Hl Hr Hip Hg. apply (ip_net_get_history ops) in Hg; auto.
    destruct Hg as (len & Hlen & (b & [k kl] & a & He & Hs & Haft) & _).
    destruct Hs as [Hkl Hc]. cbn [fst snd] in *. subst kl. exists b, k, len, a. splits; auto.
    eapply Forall_impl; [|exact Haft]. intros o Ho Hs. apply Ho.
    destruct Hs as (H1 & H2 & H3 & H4). destruct Hc as (C1 & C2 & C3).
    unfold same_net, contains, same_family, in_network in *. cbn [fst snd] in *. rewrite H1 in *. rewrite <- C1 in *.
    splits; congruence.
  Qed.
End IpNet.
