(** Exactness of [f64] multiplication and division on whole numbers below 2^53. *)
From Coq Require Import ZArith List Bool Floats.SpecFloat Lia.
From Verif Require Import Base.Arith Model.Field Model.Metrics Spec.FieldSpec Spec.MetricsSpec Proofs.FieldP Proofs.HistP.
Local Open Scope Z_scope.

Lemma shr_1_double m : 0 < m -> shr_1 {| shr_m := m * 2; shr_r := false; shr_s := false |} = {| shr_m := m; shr_r := false; shr_s := false |}.
Proof. destruct m as [|p|p]; try lia. intros _. rewrite Z.mul_comm. reflexivity. Qed.
Lemma iter_shr p m : 0 < m ->
  SpecFloat.iter_pos shr_1 p {| shr_m := m * 2 ^ Z.pos p; shr_r := false; shr_s := false |} = {| shr_m := m; shr_r := false; shr_s := false |}.
Proof.
  revert m. induction p as [p IH|p IH|]; intros m H.
  - replace (m * 2 ^ Z.pos p~1) with (m * 2 ^ Z.pos p * 2 ^ Z.pos p * 2).
    + cbn [SpecFloat.iter_pos]. rewrite shr_1_double by (repeat apply Z.mul_pos_pos; try apply Z.pow_pos_nonneg; lia).
      rewrite IH by (apply Z.mul_pos_pos; [|apply Z.pow_pos_nonneg]; lia). apply IH. exact H.
    + replace (Z.pos p~1) with (Z.pos p + Z.pos p + 1) by lia. rewrite !Z.pow_add_r by lia. change (2 ^ 1) with 2. lia.
  - replace (m * 2 ^ Z.pos p~0) with (m * 2 ^ Z.pos p * 2 ^ Z.pos p).
    + cbn [SpecFloat.iter_pos]. rewrite IH by (apply Z.mul_pos_pos; [|apply Z.pow_pos_nonneg]; lia). apply IH. exact H.
    + replace (Z.pos p~0) with (Z.pos p + Z.pos p) by lia. rewrite !Z.pow_add_r by lia. lia.
  - change (2 ^ 1) with 2. cbn [SpecFloat.iter_pos]. apply shr_1_double. exact H.
Qed.
Lemma shr_exact m e n : 0 < m -> 0 <= n -> shr {| shr_m := m * 2 ^ n; shr_r := false; shr_s := false |} e n = ({| shr_m := m; shr_r := false; shr_s := false |}, e + n).
Proof.
  intros M N. destruct n as [|p|p]; try lia.
  - simpl. rewrite Z.mul_1_r, Z.add_0_r. reflexivity.
  - cbn [shr]. rewrite iter_shr by exact M. reflexivity.
Qed.
Lemma shr_neg r e n : n <= 0 -> shr r e n = (r, e).
Proof. destruct n; intros; try reflexivity. lia. Qed.

Lemma aux_exact s m e z : 0 < z < 2 ^ 53 -> e <= 0 -> Z.pos m = z * 2 ^ (- e) ->
  exists m' e', binary_round_aux 53 1024 s (Z.pos m) e loc_Exact = S754_finite s m' e' /\ e' <= 0 /\ Z.pos m' = z * 2 ^ (- e').
Proof.
  intros Z0 E M. set (d := Z.log2 z).
  assert (D : 0 <= d < 53) by (split; [apply Z.log2_nonneg|apply Z.log2_lt_pow2; lia]).
  assert (DIG : forall m e, e <= 0 -> Z.pos m = z * 2 ^ (- e) -> fexp 53 1024 (Zdigits2 (Z.pos m) + e) - e = d - 52 - e).
  { intros m0 e0 E0 M0. cbn [Zdigits2]. rewrite digits2_log2, M0, Z.log2_mul_pow2 by lia. fold d. unfold fexp, emin. lia. }
  unfold binary_round_aux, shr_fexp. rewrite (DIG m e E M).
  destruct (Z.le_gt_cases (d - 52 - e) 0) as [S|S].
  - rewrite shr_neg by exact S. cbn [shr_record_of_loc shr_m loc_of_shr_record round_nearest_even].
    rewrite (DIG m e E M), shr_neg by exact S. cbn [shr_record_of_loc shr_m].
    replace (e <=? 1024 - 53) with true by lia. eauto.
  - set (m1 := z * 2 ^ (52 - d)). assert (M1 : 0 < m1) by (apply Z.mul_pos_pos; [lia|apply Z.pow_pos_nonneg; lia]).
    assert (EQ : Z.pos m = m1 * 2 ^ (d - 52 - e)).
    { rewrite M. unfold m1. rewrite <- Z.mul_assoc, <- Z.pow_add_r by lia. f_equal. f_equal. lia. }
    rewrite EQ. cbn [shr_record_of_loc]. rewrite shr_exact by lia. cbn [shr_m loc_of_shr_record round_nearest_even].
    destruct m1 as [|q|q] eqn:Q; try lia.
    assert (MQ : Z.pos q = z * 2 ^ (- (e + (d - 52 - e)))) by (rewrite <- Q; unfold m1; f_equal; f_equal; lia).
    rewrite (DIG q (e + (d - 52 - e))) by (auto; lia). rewrite shr_neg by lia. cbn [shr_record_of_loc shr_m].
    replace (e + (d - 52 - e) <=? 1024 - 53) with true by lia. exists q, (e + (d - 52 - e)). splits; auto; lia.
Qed.

(** A whole [f64] below 2^53 has no positive exponent. *)
Definition whole (x : f64) (k : Z) : Prop :=
  match x with
  | S754_zero _ => k = 0
  | S754_finite s m e => e <= 0 /\ Z.pos m = Z.abs k * 2 ^ (- e) /\ (if s then k < 0 else 0 < k)
  | _ => False
  end.
Lemma float_is_whole x k : is_f64 x -> Z.abs k < 2 ^ 53 -> float_is x k -> whole x k.
Proof.
  unfold is_f64. destruct x as [s|s| |s m e]; simpl; auto. intros B K [[E H]|[E H]].
  - apply bounded_facts in B. destruct B as (_ & M & N). assert (P : 0 < 2 ^ e) by (apply Z.pow_pos_nonneg; lia).
    destruct (Z.eq_dec e 0) as [->|NE].
    + change (2 ^ 0) with 1 in *. change (2 ^ (- 0)) with 1. splits; destruct s; lia.
    + exfalso. specialize (N ltac:(lia)). assert (2 <= 2 ^ e).
      { replace e with (1 + (e - 1)) by lia. rewrite Z.pow_add_r by lia. change (2 ^ 1) with 2.
        assert (0 < 2 ^ (e - 1)) by (apply Z.pow_pos_nonneg; lia). lia. }
      assert (Z.abs k = Z.pos m * 2 ^ e) by (rewrite H, Z.abs_mul; destruct s; simpl; lia). nia.
  - assert (P : 0 < 2 ^ (- e)) by (apply Z.pow_pos_nonneg; lia). splits; [lia| |].
    + rewrite <- (Z.abs_eq (2 ^ (- e))) by lia. rewrite <- Z.abs_mul, H. destruct s; reflexivity.
    + destruct s; nia.
Qed.
Lemma whole_float_is x k : whole x k -> float_is x k.
Proof.
  destruct x as [s|s| |s m e]; simpl; auto. intros (E & M & S).
  assert (P : 0 < 2 ^ (- e)) by (apply Z.pow_pos_nonneg; lia).
  destruct (Z.eq_dec e 0) as [->|]; [left|right]; (split; [lia|]).
  - change (2 ^ 0) with 1. change (2 ^ (- 0)) with 1 in M. destruct s; lia.
  - destruct s; nia.
Qed.
Lemma whole_int k : Z.abs k < 2 ^ 53 -> whole (int_as_f64 k) k.
Proof.
  intros H. unfold int_as_f64, binary_normalize. destruct k as [|m|m]; [reflexivity| |].
  - destruct (binary_round_exact false m ltac:(lia)) as (m' & e & -> & He & Hm). simpl. splits; auto; lia.
  - destruct (binary_round_exact true m ltac:(lia)) as (m' & e & -> & He & Hm). simpl. splits; auto; lia.
Qed.
Lemma mul_exact x y j k : whole x j -> whole y k -> Z.abs (j * k) < 2 ^ 53 -> whole (f64_mul x y) (j * k).
Proof.
  unfold f64_mul. destruct x as [sx|sx| |sx mx ex], y as [sy|sy| |sy my ey]; intros X Y H; try contradiction; cbn [SFmul]; cbn [whole] in *; subst; try lia.
  destruct X as (EX & MX & SX), Y as (EY & MY & SY).
  destruct (aux_exact (xorb sx sy) (mx * my) (ex + ey) (Z.abs (j * k))) as (m' & e' & -> & E' & M').
  - destruct sx, sy; nia.
  - lia.
  - rewrite Pos2Z.inj_mul, MX, MY, Z.abs_mul. replace (- (ex + ey)) with (- ex + - ey) by lia. rewrite Z.pow_add_r by lia. lia.
  - splits; auto. destruct sx, sy; simpl; nia.
Qed.
Lemma div_exact x y j k : whole x (j * k) -> whole y k -> k <> 0 -> Z.abs (j * k) < 2 ^ 53 -> whole (f64_div x y) j.
Proof.
  unfold f64_div. intros X Y K H. 
  destruct x as [sx|sx| |sx mx ex], y as [sy|sy| |sy my ey]; try contradiction; cbn [SFdiv]; cbn [whole] in X, Y; try lia; try (simpl; nia).
  destruct X as (EX & MX & SX), Y as (EY & MY & SY).
  unfold SFdiv_core_binary. set (d := Z.min _ _).
  assert (DX : 0 <= ex - ey - d) by (subst d; lia).
  assert (FE : fexp 53 1024 (Zdigits2 (Z.pos mx) + ex - (Zdigits2 (Z.pos my) + ey)) <= 0).
  { cbn [Zdigits2]. rewrite !digits2_log2, MX, MY, !Z.log2_mul_pow2 by nia. 
    assert (Z.log2 (Z.abs (j * k)) < 53) by (apply Z.log2_lt_pow2; nia).
    pose proof (Z.log2_nonneg (Z.abs k)). unfold fexp, emin. lia. }
  assert (DE : d <= 0) by (subst d; lia).
  assert (JP : 0 < Z.abs j) by nia.
  set (m' := match ex - ey - d with Z0 => Z.pos mx | Zpos _ => Z.shiftl (Z.pos mx) (ex - ey - d) | Zneg _ => 0 end).
  assert (M' : m' = Z.abs j * 2 ^ (- d) * Z.pos my).
  { assert (m' = Z.pos mx * 2 ^ (ex - ey - d)).
    { unfold m'. destruct (ex - ey - d) eqn:Q; [change (2 ^ 0) with 1; lia|rewrite Z.shiftl_mul_pow2 by lia; reflexivity|lia]. }
    rewrite H0, MX, MY, Z.abs_mul.
    assert (2 ^ (- ex) * 2 ^ (ex - ey - d) = 2 ^ (- d) * 2 ^ (- ey)).
    { rewrite <- !Z.pow_add_r by lia. f_equal. lia. }
    transitivity (Z.abs j * Z.abs k * (2 ^ (- ex) * 2 ^ (ex - ey - d))); [lia|]. rewrite H1. lia. }
  assert (QR : Z.div_eucl m' (Z.pos my) = (Z.abs j * 2 ^ (- d), 0)).
  { pose proof (Z_div_mod m' (Z.pos my) ltac:(lia)) as DM. destruct (Z.div_eucl m' (Z.pos my)) as [q r]. destruct DM as [A B].
    rewrite M' in A. assert (q = Z.abs j * 2 ^ (- d)) by nia. f_equal; [exact H0|]. subst q. nia. }
  assert (NL : new_location (Z.pos my) 0 = loc_Exact) by (unfold new_location; destruct (Z.even (Z.pos my)); reflexivity).
  rewrite QR, NL.
  assert (P : 0 < Z.abs j * 2 ^ (- d)) by (apply Z.mul_pos_pos; [lia|apply Z.pow_pos_nonneg; lia]).
  destruct (Z.abs j * 2 ^ (- d)) as [|q|q] eqn:Q; try lia.
  destruct (aux_exact (xorb sx sy) q d (Z.abs j)) as (mm & e' & -> & E' & MM); [nia|lia|auto|].
  simpl. splits; auto. destruct sx, sy; simpl; nia.
Qed.

(** Whole numbers survive the fixed-point representation. *)
Theorem normalize_whole x k : is_f64 x -> Z.abs (k * 100000) < 2 ^ 53 -> float_is x k ->
  normalize_f64 x = k * 100000 /\ float_is (normalize_i64 (k * 100000)) k.
Proof.
  intros X K F. apply float_is_whole in F; [|exact X|lia].
  assert (W : whole (int_as_f64 modifier) modifier) by (apply whole_int; reflexivity).
  pose proof (mul_exact x (int_as_f64 modifier) k modifier F W K) as M. split.
  - unfold normalize_f64. apply whole_float_is, float_is_truncates in M.
    pose proof (f64_trunc_i64 _ _ M) as T. cbn [to_i64] in T. unfold modifier in *. 
    assert (OKZ : i64_ok (k * 100000)) by (unfold i64_ok; lia). specialize (T OKZ). congruence.
  - apply whole_float_is. unfold normalize_i64.
    apply (div_exact _ _ k modifier); [apply whole_int; exact K|exact W|discriminate|exact K].
Qed.
