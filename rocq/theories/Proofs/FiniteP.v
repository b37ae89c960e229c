(** The value of a gauge is always a finite number. *)
From Coq Require Import ZArith List Bool Floats.SpecFloat Lia.
From Verif Require Import Base.Arith Model.Field Model.Metrics Model.Json Spec.JsonSpec Proofs.FieldP Proofs.HistP Proofs.FloatP Proofs.JsonP.
Local Open Scope Z_scope.

Lemma digits_le m n : 0 <= m -> 0 <= n -> m < 2 ^ n -> Zdigits2 m <= n.
Proof.
  intros A B C. destruct m as [|p|p]; [cbn; lia| |lia]. cbn [Zdigits2]. rewrite digits2_log2.
  assert (Z.log2 (Z.pos p) < n) by (apply Z.log2_lt_pow2; lia). lia.
Qed.
Lemma shr_1_le r : 0 <= shr_m r -> 0 <= shr_m (shr_1 r) <= shr_m r.
Proof. destruct r as [m r s]. cbn [shr_m]. intros H. destruct m as [|p|p]; cbn; try lia. destruct p; cbn; lia. Qed.
Lemma iter_shr_le p r : 0 <= shr_m r -> 0 <= shr_m (SpecFloat.iter_pos shr_1 p r) <= shr_m r.
Proof.
  revert r. induction p as [p IH|p IH|]; intros r H; cbn [SpecFloat.iter_pos].
  - pose proof (shr_1_le r H) as A. pose proof (IH _ (proj1 A)) as B. pose proof (IH _ (proj1 B)). lia.
  - pose proof (IH _ H) as B. pose proof (IH _ (proj1 B)). lia.
  - apply shr_1_le. exact H.
Qed.
Lemma shr_fexp_le m e l : 0 <= m ->
  0 <= shr_m (fst (shr_fexp 53 1024 m e l)) <= m /\ snd (shr_fexp 53 1024 m e l) = Z.max e (fexp 53 1024 (Zdigits2 m + e)).
Proof.
  intros H. unfold shr_fexp. set (n := fexp 53 1024 (Zdigits2 m + e)).
  assert (R : shr_m (shr_record_of_loc m l) = m) by (destruct l as [|[]]; reflexivity).
  destruct (n - e) as [|p|p] eqn:E; cbn [shr fst snd]; rewrite ?R; [lia| |lia].
  pose proof (iter_shr_le p (shr_record_of_loc m l)) as B. rewrite R in B. specialize (B H). lia.
Qed.
Lemma round_le m l : 0 <= m -> 0 <= round_nearest_even m l <= m + 1.
Proof. destruct l as [|[]]; cbn [round_nearest_even]; try destruct (Z.even m); lia. Qed.

(** The result, when nothing is near the limits of [f64] *)
Lemma aux_small d b s m e l : 1 <= d -> 0 <= b -> b + 2 * d <= 971 -> 0 <= m < 2 ^ d -> e <= b ->
  match binary_round_aux 53 1024 s m e l with
  | S754_zero _ => True
  | S754_finite _ m' e' => Z.pos m' <= m + 1 /\ e' <= b + 2 * d
  | _ => False
  end.
Proof.
  intros D0 B0 L M E. unfold binary_round_aux.
  destruct (shr_fexp_le m e l (proj1 M)) as [A B].
  destruct (shr_fexp 53 1024 m e l) as [r e'] eqn:ER. cbn [fst snd] in A, B.
  pose proof (round_le (shr_m r) (loc_of_shr_record r) (proj1 A)) as C.
  set (k := round_nearest_even (shr_m r) (loc_of_shr_record r)) in *.
  destruct (shr_fexp_le k e' loc_Exact (proj1 C)) as [D F].
  destruct (shr_fexp 53 1024 k e' loc_Exact) as [r' e'']. cbn [fst snd] in D, F.
  assert (DM : Zdigits2 m <= d) by (apply digits_le; lia).
  assert (DK : Zdigits2 k <= Zdigits2 m + 1).
  { apply digits_le; [lia| |].
    - destruct m; cbn [Zdigits2]; lia.
    - assert (m < 2 ^ Zdigits2 m).
      { destruct m as [|p|p]; [cbn; lia| |lia]. cbn [Zdigits2]. rewrite digits2_log2. pose proof (Z.log2_spec (Z.pos p)) as LS.
        replace (Z.log2 (Z.pos p) + 1) with (Z.succ (Z.log2 (Z.pos p))) by lia. lia. }
      rewrite Z.pow_add_r by (destruct m; cbn [Zdigits2]; lia). change (2 ^ 1) with 2.
      assert (1 <= 2 ^ Zdigits2 m) by (pose proof (Z.pow_pos_nonneg 2 (Zdigits2 m)); destruct m; cbn [Zdigits2] in *; lia). lia. }
  unfold fexp, emin in *. 
  destruct (shr_m r') as [|p|p] eqn:P; [exact I| |lia].
  destruct (Z.leb_spec e'' (1024 - 53)); [|lia]. split; lia.
Qed.

Lemma int_small z : Z.abs z <= 2 ^ 63 ->
  match int_as_f64 z with S754_zero _ => True | S754_finite _ m e => Z.pos m < 2 ^ 117 /\ e <= 300 | _ => False end.
Proof.
  intros H. unfold int_as_f64, binary_normalize.
  assert (G : forall s p, Z.pos p <= 2 ^ 63 ->
    match binary_round 53 1024 s p 0 with S754_zero _ => True | S754_finite _ m e => Z.pos m < 2 ^ 117 /\ e <= 300 | _ => False end).
  { intros s p P. unfold binary_round, shl_align.
    assert (D : 1 <= Z.pos (digits2_pos p) <= 64).
    { split; [lia|]. change (Z.pos (digits2_pos p)) with (Zdigits2 (Z.pos p)). apply digits_le; lia. }
    set (k := fexp 53 1024 (Z.pos (digits2_pos p) + 0) - 0).
    assert (K : -53 <= k <= 11) by (unfold k, fexp, emin; lia).
    assert (PL : 0 <= Z.pos p < 2 ^ 117) by lia.
    assert (Q : Z.pos p + 1 < 2 ^ 117) by lia.
    destruct k as [|d|d] eqn:EK.
    - pose proof (aux_small 117 11 s _ 0 loc_Exact ltac:(lia) ltac:(lia) ltac:(lia) PL ltac:(lia)) as A.
      destruct (binary_round_aux _ _ _ _ _ _); auto. lia.
    - pose proof (aux_small 117 11 s _ 0 loc_Exact ltac:(lia) ltac:(lia) ltac:(lia) PL ltac:(lia)) as A.
      destruct (binary_round_aux _ _ _ _ _ _); auto. lia.
    - assert (SH : Z.pos (shift_pos d p) = Z.pos p * 2 ^ Z.pos d) by (rewrite shift_pos_correct, Z.mul_comm; reflexivity).
      assert (T : 2 ^ Z.pos d <= 2 ^ 53) by (apply Z.pow_le_mono_r; lia).
      assert (M : 0 <= Z.pos (shift_pos d p) <= 2 ^ 63 * 2 ^ 53).
      { split; [lia|]. rewrite SH. apply Z.mul_le_mono_nonneg; lia. }
      pose proof (aux_small 117 11 s (Z.pos (shift_pos d p)) (fexp 53 1024 (Z.pos (digits2_pos p) + 0)) loc_Exact
        ltac:(lia) ltac:(lia) ltac:(lia) ltac:(lia) ltac:(unfold fexp, emin; lia)) as A.
      destruct (binary_round_aux _ _ _ _ _ _); auto. lia. }
  destruct z as [|p|p]; [exact I| |]; apply G; lia.
Qed.

Lemma normalize_finite z : i64_ok z -> finite (normalize_i64 z).
Proof.
  intros K. unfold i64_ok in K. assert (H : Z.abs z <= 2 ^ 63) by lia. pose proof (int_small z H) as S. clear H K.
  unfold normalize_i64. change (int_as_f64 modifier) with (S754_finite false 6871947673600000 (-36)). apply is_finite_iff.
  destruct (int_as_f64 z) as [b|b| |b m e]; try contradiction; [reflexivity|]. destruct S as [M E].
  unfold f64_div, SFdiv, SFdiv_core_binary.
  change (Zdigits2 6871947673600000) with 53.
  set (e' := Z.min (fexp 53 1024 (Zdigits2 (Z.pos m) + e - (53 + -36))) (e - -36)).
  set (m' := match e - -36 - e' with 0 => Z.pos m | Z.pos _ => Z.shiftl (Z.pos m) (e - -36 - e') | Z.neg _ => 0 end).
  assert (D : 1 <= Zdigits2 (Z.pos m)) by (cbn [Zdigits2]; lia).
  assert (E' : e' <= 336) by lia.
  assert (B : 0 <= e - -36 - e' <= 106) by (unfold e', fexp, emin; lia).
  assert (M' : 0 <= m' < 2 ^ 223).
  { unfold m'. destruct (e - -36 - e') as [|k|k] eqn:EK; [lia| |lia].
    rewrite Z.shiftl_mul_pow2 by lia. assert (2 ^ Z.pos k <= 2 ^ 106) by (apply Z.pow_le_mono_r; lia).
    change (2 ^ 223) with (2 ^ 117 * 2 ^ 106). split; [lia|].
    apply (Z.le_lt_trans _ (Z.pos m * 2 ^ 106)); [apply Z.mul_le_mono_nonneg_l; lia|]. apply Z.mul_lt_mono_pos_r; lia. }
  clearbody m' e'.
  destruct (Z.div_eucl m' 6871947673600000) as [q r] eqn:Q.
  assert (QM : 0 <= q <= m').
  { pose proof (Z_div_mod m' 6871947673600000 ltac:(lia)) as R. rewrite Q in R. lia. }
  pose proof (aux_small 223 336 (xorb b false) q e' (new_location 6871947673600000 r) ltac:(lia) ltac:(lia) ltac:(lia) ltac:(lia) E') as A.
  destruct (binary_round_aux _ _ _ _ _ _); try contradiction; reflexivity.
Qed.
