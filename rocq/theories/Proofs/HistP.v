From Coq Require Import String Ascii NArith ZArith List Bool Floats.SpecFloat Permutation Lia.
From Verif Require Import Base.Arith Base.Sched Model.Field Model.Metrics Spec.MetricsSpec Proofs.FieldP Proofs.MetricsP.
Import ListNotations.

(** * Comparing floats *)
Lemma digits_bounds m : (2 ^ (Z.pos (digits2_pos m) - 1) <= Z.pos m < 2 ^ Z.pos (digits2_pos m))%Z.
Proof.
  rewrite digits2_log2. pose proof (Z.log2_spec (Z.pos m) ltac:(lia)) as [A B].
  replace (Z.succ (Z.log2 (Z.pos m))) with (Z.log2 (Z.pos m) + 1)%Z in B by lia.
  replace (Z.log2 (Z.pos m) + 1 - 1)%Z with (Z.log2 (Z.pos m)) by lia. lia.
Qed.
Lemma bounded_facts m e : bounded 53 1024 m e = true ->
  (-1074 <= e)%Z /\ (Z.pos m < 2 ^ 53)%Z /\ ((-1074 < e)%Z -> (2 ^ 52 <= Z.pos m)%Z).
Proof.
  unfold bounded, canonical_mantissa. intros H. apply andb_prop in H. destruct H as [H _]. apply Zeq_bool_eq in H.
  unfold fexp, emin in H. pose proof (digits_bounds m) as [A B].
  set (d := Z.pos (digits2_pos m)) in *. assert (D : (0 < d)%Z) by (subst d; lia).
  assert (E : (-1074 <= e)%Z) by lia.
  assert (d <= 53)%Z by lia. splits; auto.
  - apply Z.lt_le_trans with (2 ^ d)%Z; auto. apply Z.pow_le_mono_r; lia.
  - intros. assert (d = 53)%Z by lia. rewrite H2 in A. exact A.
Qed.
Lemma scaled_lt_exp m e m' e' : bounded 53 1024 m e = true -> bounded 53 1024 m' e' = true -> (e < e')%Z ->
  (Z.pos m * 2 ^ (e + 1074) < Z.pos m' * 2 ^ (e' + 1074))%Z.
Proof.
  intros B B' L. apply bounded_facts in B, B'. destruct B as (E & M & _), B' as (E' & M' & N').
  specialize (N' ltac:(lia)).
  apply Z.lt_le_trans with (2 ^ 53 * 2 ^ (e + 1074))%Z.
  - apply Z.mul_lt_mono_pos_r; [apply Z.pow_pos_nonneg; lia|exact M].
  - apply Z.le_trans with (2 ^ 52 * 2 ^ (e' + 1074))%Z.
    + rewrite <- !Z.pow_add_r by lia. apply Z.pow_le_mono_r; lia.
    + apply Z.mul_le_mono_nonneg_r; [apply Z.pow_nonneg; lia|exact N'].
Qed.
Lemma mag_compare m e m' e' : bounded 53 1024 m e = true -> bounded 53 1024 m' e' = true ->
  (Z.pos m * 2 ^ (e + 1074) ?= Z.pos m' * 2 ^ (e' + 1074))%Z =
  match (e ?= e')%Z with Eq => Pos.compare m m' | c => c end.
Proof.
  intros B B'. destruct (Z.compare_spec e e') as [->|L|L].
  - apply bounded_facts in B. destruct B as (E & _). assert (P : (0 < 2 ^ (e' + 1074))%Z) by (apply Z.pow_pos_nonneg; lia).
    destruct (Pos.compare_spec m m') as [->|L|L].
    + apply Z.compare_refl.
    + apply Z.compare_lt_iff. apply Z.mul_lt_mono_pos_r; [exact P|lia].
    + apply Z.compare_gt_iff. apply Z.mul_lt_mono_pos_r; [exact P|lia].
  - apply Z.compare_lt_iff. apply scaled_lt_exp; assumption.
  - apply Z.compare_gt_iff. apply scaled_lt_exp; assumption.
Qed.

Lemma not_gt_le v b : is_f64 v -> is_f64 b -> v <> S754_nan -> b <> S754_nan -> (f64_gt v b = false <-> f64_le v b).
Proof.
  unfold f64_gt, SFltb, is_f64. intros V B NV NB.
  assert (POS : forall m e, bounded 53 1024 m e = true -> (0 < Z.pos m * 2 ^ (e + 1074))%Z).
  { intros m e H. apply bounded_facts in H. destruct H as (H & _). apply Z.mul_pos_pos; [lia|]. apply Z.pow_pos_nonneg; lia. }
  destruct v as [sv|[]| |sv m e], b as [sb|[]| |sb m' e']; try congruence; cbn [SFcompare f64_le]; try tauto; try (split; [discriminate|tauto]);
    try (cbn [valid_binary] in *); unfold scaled.
  - specialize (POS _ _ B). destruct sb; split; intros; try congruence; lia.
  - specialize (POS _ _ V). destruct sv; split; intros; try congruence; lia.
  - pose proof (POS _ _ V) as PV. pose proof (POS _ _ B) as PB.
    destruct sv, sb; try (split; intros; try congruence; lia).
    + pose proof (mag_compare m' e' m e B V) as C. change (Pos.compare_cont Eq m' m) with (Pos.compare m' m).
      destruct (Z.compare_spec e' e) as [->|L|L];
      [destruct (Pos.compare_spec m' m) as [->|L|L]| |];
      first [apply (proj1 (Z.compare_lt_iff _ _)) in C|apply (proj1 (Z.compare_gt_iff _ _)) in C|idtac]; simpl; split; intros; try congruence; lia.
    + pose proof (mag_compare m' e' m e B V) as C. change (Pos.compare_cont Eq m' m) with (Pos.compare m' m).
      destruct (Z.compare_spec e' e) as [->|L|L];
      [destruct (Pos.compare_spec m' m) as [->|L|L]| |];
      first [apply (proj1 (Z.compare_lt_iff _ _)) in C|apply (proj1 (Z.compare_gt_iff _ _)) in C|idtac]; simpl; split; intros; try congruence; lia.
Qed.
Lemma f64_le_refl v : v <> S754_nan -> f64_le v v.
Proof. destruct v as [|[]| |[] m e]; intros; simpl; auto; try congruence; lia. Qed.
Lemma f64_le_trans a b c : f64_le a b -> f64_le b c -> f64_le a c.
Proof.
  destruct a as [|[]| |sa ma ea], b as [|[]| |sb mb eb], c as [|[]| |sc mc ec]; simpl; try tauto; lia.
Qed.

(** * Counting *)
Local Open Scope N_scope.
Definition is_bucket (k : nat) (a : hact) : bool := match a with HBucket j => Nat.eqb k j | _ => false end.
Definition is_count (a : hact) : bool := match a with HCount => true | _ => false end.
Definition hsum (a : hact) : Z := match a with HSum v => v | _ => 0%Z end.
Definition cnt (f : hact -> bool) (tr : list hact) : N := N.of_nat (length (filter f tr)).
Lemma cnt_cons f a tr : cnt f (a :: tr) = (if f a then 1 else 0) + cnt f tr.
Proof. unfold cnt. simpl. destruct (f a); simpl; lia. Qed.
Lemma cnt_app f a b : cnt f (a ++ b) = cnt f a + cnt f b.
Proof. induction a; simpl; [reflexivity|]. rewrite !cnt_cons, IHa. lia. Qed.
Lemma cnt_perm f a b : Permutation a b -> cnt f a = cnt f b.
Proof. induction 1; rewrite ?cnt_cons in *; lia. Qed.

Lemma is_u64_add v s : is_u64_of v s -> is_u64_of (wrap_add_u64 v 1) (s + 1).
Proof.
  unfold is_u64_of, wrap_add_u64. intros [A ->]. pose proof (N.mod_lt (s + 1) (2 ^ 64) ltac:(lia)).
  rewrite N.add_mod_idemp_l by lia. split; [|reflexivity]. apply N.mod_lt. lia.
Qed.
Lemma hact_run_count h tr s : is_u64_of (h_count h) s -> is_u64_of (h_count (hact_run h tr)) (s + cnt is_count tr).
Proof.
  revert h s. induction tr as [|a tr IH]; intros h s H; [unfold cnt; simpl; rewrite N.add_0_r; exact H|].
  unfold hact_run. simpl. fold (hact_run (hact_step h a) tr). rewrite cnt_cons, N.add_assoc.
  apply IH. destruct a; simpl; rewrite ?N.add_0_r; auto using is_u64_add.
Qed.
Lemma hact_run_sum h tr s : is_i64_of (h_sum h) s -> is_i64_of (h_sum (hact_run h tr)) (s + zsum (map hsum tr)).
Proof.
  revert h s. induction tr as [|a tr IH]; intros h s H; [simpl; rewrite Z.add_0_r; exact H|].
  unfold hact_run. simpl. fold (hact_run (hact_step h a) tr). rewrite Z.add_assoc.
  apply IH. destruct a; simpl; rewrite ?Z.add_0_r; auto using is_i64_add.
Qed.
Lemma upd_nth_error {A} i (f : A -> A) l k : nth_error (upd i f l) k = if Nat.eqb k i then option_map f (nth_error l k) else nth_error l k.
Proof.
  revert i k. induction l as [|x l IH]; intros [|i] [|k]; simpl; auto.
  - destruct (Nat.eqb k i); reflexivity.
Qed.
Lemma hact_run_bucket h tr k b n s : nth_error (h_buckets h) k = Some (b, n) -> is_u64_of n s ->
  exists n', nth_error (h_buckets (hact_run h tr)) k = Some (b, n') /\ is_u64_of n' (s + cnt (is_bucket k) tr).
Proof.
  revert h n s. induction tr as [|a tr IH]; intros h n s H U.
  - exists n. unfold cnt. simpl. rewrite N.add_0_r. auto.
  - unfold hact_run. simpl. fold (hact_run (hact_step h a) tr). rewrite cnt_cons, N.add_assoc.
    destruct a as [|v|j]; simpl; try (rewrite N.add_0_r; apply (IH _ n); auto; fail).
    destruct (Nat.eqb k j) eqn:E; simpl.
    + apply (IH _ (wrap_add_u64 n 1)); [|auto using is_u64_add]. simpl. rewrite upd_nth_error, E, H. reflexivity.
    + rewrite N.add_0_r. apply (IH _ n); auto. simpl. rewrite upd_nth_error, E. exact H.
Qed.
Lemma hact_run_len h tr : length (h_buckets (hact_run h tr)) = length (h_buckets h).
Proof.
  revert h. induction tr as [|a tr IH]; intros h; simpl; auto. unfold hact_run in *. simpl. rewrite IH.
  destruct a; simpl; auto. apply upd_length.
Qed.

(** One observation *)
Lemma bucket_acts_cnt i le v k : cnt (is_bucket k) (bucket_acts i le v) =
  match nth_error le (k - i) with
  | Some b => if Nat.leb i k then if f64_gt v b then 0 else 1 else 0
  | None => 0
  end.
Proof.
  revert i. induction le as [|b le IH]; intros i; simpl.
  - destruct (k - i)%nat; reflexivity.
  - rewrite cnt_app, IH. destruct (Nat.leb_spec i k) as [L|L].
    + destruct (Nat.eq_dec i k) as [->|NE].
      * rewrite Nat.sub_diag. cbn [nth_error]. destruct (Nat.leb_spec (S k) k); [lia|].
        destruct (nth_error le (k - S k)), (f64_gt v b); unfold cnt; simpl; rewrite ?Nat.eqb_refl; reflexivity.
      * replace (k - i)%nat with (S (k - S i)) by lia. cbn [nth_error]. destruct (Nat.leb_spec (S i) k); [|lia].
        assert (Z0 : cnt (is_bucket k) (if f64_gt v b then [] else [HBucket i]) = 0).
        { destruct (f64_gt v b); unfold cnt; simpl; auto. destruct (Nat.eqb_spec k i); [lia|reflexivity]. }
        rewrite Z0. lia.
    + destruct (Nat.leb_spec (S i) k); [lia|].
      assert (Z0 : cnt (is_bucket k) (if f64_gt v b then [] else [HBucket i]) = 0).
      { destruct (f64_gt v b); unfold cnt; simpl; auto. destruct (Nat.eqb_spec k i); [lia|reflexivity]. }
      rewrite Z0. replace (k - i)%nat with 0%nat by lia. cbn [nth_error]. destruct (nth_error le (k - S i)); reflexivity.
Qed.
Lemma bucket_acts_other i le v : cnt is_count (bucket_acts i le v) = 0 /\ zsum (map hsum (bucket_acts i le v)) = 0%Z.
Proof.
  revert i. induction le as [|b le IH]; intros i; simpl; [split; reflexivity|].
  destruct (IH (S i)) as [A B]. destruct (f64_gt v b); simpl; rewrite ?cnt_cons; simpl; rewrite ?A, ?B; split; reflexivity.
Qed.
Lemma observe_cnt le vs :
  cnt is_count (flat_map (observe_acts le) vs) = N.of_nat (length vs) /\
  zsum (map hsum (flat_map (observe_acts le) vs)) = zsum (map normalize_f64 vs).
Proof.
  induction vs as [|v vs [A B]]; [split; reflexivity|]. cbn [flat_map]. rewrite cnt_app, map_app, zsum_app, A, B.
  destruct (bucket_acts_other 0 le v) as [C D]. unfold observe_acts. rewrite !cnt_cons. simpl. rewrite C, D. split; lia.
Qed.
Lemma observe_bucket le vs k b : nth_error le k = Some b ->
  cnt (is_bucket k) (flat_map (observe_acts le) vs) = N.of_nat (length (filter (fun v => negb (f64_gt v b)) vs)).
Proof.
  intros H. induction vs as [|v vs IH]; [reflexivity|]. cbn [flat_map]. rewrite cnt_app, IH.
  unfold observe_acts. rewrite !cnt_cons, bucket_acts_cnt, Nat.sub_0_r, H. simpl. destruct (f64_gt v b); simpl; lia.
Qed.
Lemma count_of_filter {A} (Q : A -> Prop) f l n : (forall x, In x l -> f x = true <-> Q x) -> count_of Q l n ->
  n = N.of_nat (length (filter f l)).
Proof.
  intros H C. induction C as [|x l n q C IH|x l n q C IH]; simpl; auto.
  - rewrite (proj2 (H x (or_introl eq_refl)) q). specialize (IH ltac:(intros; apply H; right; assumption)). simpl. lia.
  - destruct (f x) eqn:E; [exfalso; apply q, (H x (or_introl eq_refl)), E|]. apply IH. intros; apply H; right; assumption.
Qed.

Theorem hist_exact (le : list f64) (ths : list (list f64)) tr :
  (forall b, In b le -> is_f64 b /\ b <> S754_nan) ->
  (forall v, In v (concat ths) -> is_f64 v /\ v <> S754_nan) ->
  interleaves (map (flat_map (observe_acts le)) ths) tr ->
  let h := hact_run (hist_new le) tr in
  is_u64_of (get_sample_count h) (N.of_nat (length (concat ths))) /\
  is_i64_of (h_sum h) (zsum (map normalize_f64 (concat ths))) /\
  length (h_buckets h) = length le /\
  forall k b c, nth_error le k = Some b -> count_of (fun v => f64_le v b) (concat ths) c ->
    exists n, nth_error (h_buckets h) k = Some (b, n) /\ is_u64_of n c.
Proof.
  intros LE VS IL. pose proof (interleaves_perm _ _ IL) as P. rewrite concat_flat in P. cbv zeta.
  destruct (observe_cnt le (concat ths)) as [A B]. splits.
  - pose proof (hact_run_count (hist_new le) tr 0) as K. rewrite (cnt_perm _ _ _ P), A in K. apply K. split; [reflexivity|reflexivity].
  - pose proof (hact_run_sum (hist_new le) tr 0) as K. rewrite (zsum_perm _ _ (Permutation_map hsum P)), B in K. apply K.
    split; [simpl; lia|reflexivity].
  - rewrite hact_run_len. simpl. apply map_length.
  - intros k b c H C. pose proof (hact_run_bucket (hist_new le) tr k b 0 0) as K.
    rewrite (cnt_perm _ _ _ P), (observe_bucket _ _ _ _ H) in K.
    rewrite (count_of_filter (fun v => f64_le v b) (fun v => negb (f64_gt v b)) (concat ths) c).
    + apply K; [|split; [lia|reflexivity]]. simpl. rewrite nth_error_map, H. reflexivity.
    + intros x X. destruct (LE b) as [L1 L2]; [eapply nth_error_In; eassumption|]. destruct (VS x X) as [V1 V2].
      rewrite <- (not_gt_le x b V1 L1 V2 L2). destruct (f64_gt x b); simpl; split; congruence.
    + exact C.
Qed.
Lemma count_of_mono {A} (Q R : A -> Prop) l n m : (forall x, Q x -> R x) -> count_of Q l n -> count_of R l m -> n <= m.
Proof.
  intros H C. revert m. induction C as [|x l n q C IH|x l n q C IH]; intros k K.
  - lia.
  - inversion K as [|? ? j ? Kj|? ? j ? Kj]; subst; [specialize (IH _ Kj); lia|exfalso; auto].
  - inversion K as [|? ? j ? Kj|? ? j ? Kj]; subst; specialize (IH _ Kj); lia.
Qed.
Lemma count_of_ex {A} (Q : A -> Prop) l : (forall x, In x l -> Q x \/ ~ Q x) -> exists n, count_of Q l n.
Proof.
  induction l as [|x l IH]; intros H; [exists 0; constructor|].
  destruct IH as [n N]; [intros; apply H; right; assumption|]. destruct (H x (or_introl eq_refl)); eexists; [apply co_yes|apply co_no]; eassumption.
Qed.
Lemma f64_le_dec x y : f64_le x y \/ ~ f64_le x y.
Proof. destruct x as [|[]| |], y as [|[]| |]; simpl; try tauto; lia. Qed.

(** * At any instant no bucket is above the count. *)
Lemma bucket_acts_le1 le v k i : cnt (is_bucket k) (bucket_acts i le v) <= 1.
Proof. rewrite bucket_acts_cnt. destruct (nth_error le (k - i)) as [s|]; [|lia]. destruct (Nat.leb i k), (f64_gt v s); lia. Qed.
Lemma prefix_good le k vs : forall p q, flat_map (observe_acts le) vs = (p ++ q)%list -> cnt (is_bucket k) p <= cnt is_count p.
Proof.
  induction vs as [|v vs IH]; intros p q H.
  - destruct p; [|discriminate]. unfold cnt; simpl; lia.
  - cbn [flat_map] in H. assert (B : cnt (is_bucket k) (observe_acts le v) <= 1).
    { unfold observe_acts. rewrite !cnt_cons. simpl. pose proof (bucket_acts_le1 le v k 0). lia. }
    assert (C : cnt is_count (observe_acts le v) = 1).
    { unfold observe_acts. rewrite !cnt_cons. simpl. rewrite (proj1 (bucket_acts_other 0 le v)). lia. }
    apply app_eq_app in H. destruct H as (l & [[H1 H2]|[H1 H2]]).
    + (* the prefix ends inside the first observation *)
      destruct p as [|a p]; [unfold cnt; simpl; lia|].
      assert (a = HCount) by (unfold observe_acts in H1; injection H1; auto). subst a.
      rewrite H1, cnt_app in B. rewrite (cnt_cons is_count). simpl. lia.
    + subst p. rewrite !cnt_app. specialize (IH l q H2). lia.
Qed.
Lemma cnt_concat f (ths : list (list hact)) : cnt f (concat ths) = fold_right N.add 0 (map (cnt f) ths).
Proof. induction ths; simpl; [reflexivity|]. rewrite cnt_app, IHths. reflexivity. Qed.
Theorem bucket_below_count le (ths : list (list f64)) tr1 tr2 k b n :
  interleaves (map (flat_map (observe_acts le)) ths) (tr1 ++ tr2) ->
  N.of_nat (length (concat ths)) < 2 ^ 64 ->
  nth_error (h_buckets (hact_run (hist_new le) tr1)) k = Some (b, n) ->
  n <= get_sample_count (hact_run (hist_new le) tr1).
Proof.
  intros IL SMALL H. destruct (interleaves_prefix _ _ _ IL) as (pre & F & I). 
  pose proof (interleaves_perm _ _ I) as P.
  assert (CC : cnt is_count tr1 < 2 ^ 64).
  { assert (cnt is_count (tr1 ++ tr2) = N.of_nat (length (concat ths))).
    { rewrite (cnt_perm _ _ _ (interleaves_perm _ _ IL)), concat_flat. apply observe_cnt. }
    rewrite cnt_app in H0. lia. }
  assert (LE : cnt (is_bucket k) tr1 <= cnt is_count tr1).
  { rewrite !(cnt_perm _ _ _ P), !cnt_concat. clear - F. remember (map (flat_map (observe_acts le)) ths) as T eqn:E.
    revert ths E. induction F as [|p t pre T [q ->] F IH]; intros ths E; simpl; [lia|].
    destruct ths as [|th ths]; [discriminate|]. injection E as E1 E2. specialize (IH _ E2).
    pose proof (prefix_good le k th p q (eq_sym E1)). lia. }
  destruct (nth_error le k) as [b0|] eqn:Lk.
  - destruct (hact_run_bucket (hist_new le) tr1 k b0 0 0) as (n' & A & [B1 B2]).
    + simpl. rewrite nth_error_map, Lk. reflexivity.
    + split; reflexivity.
    + rewrite A in H. injection H as -> ->. 
      destruct (hact_run_count (hist_new le) tr1 0) as [_ C]; [split; reflexivity|]. unfold get_sample_count. rewrite C.
      rewrite !N.add_0_l in *. rewrite (N.mod_small (cnt is_count tr1)) by exact CC. rewrite B2, N.mod_small by lia. exact LE.
  - exfalso. apply nth_error_None in Lk. assert (K : nth_error (h_buckets (hact_run (hist_new le) tr1)) k = None).
    { apply nth_error_None. rewrite hact_run_len. simpl. rewrite map_length. exact Lk. }
    congruence.
Qed.
