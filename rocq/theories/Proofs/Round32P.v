(** [binary_round] to 24 bits: the nearest single, ties to even. *)
From Coq Require Import ZArith List Bool Floats.SpecFloat Lia.
From Verif Require Import Base.Outcome Base.Arith Model.Field Proofs.FieldP Proofs.RoundP Spec.SingleSpec.
Local Open Scope Z_scope.

Notation fexp32 := (fexp 24 128).
Definition packed32 (s : bool) (q e : Z) : spec_float :=
  match q with
  | Z0 => S754_zero s
  | Zpos m => if e <=? 104 then S754_finite s m e else S754_infinity s
  | Zneg _ => S754_nan
  end.
(** The exponent [E] of the result and its mantissa [q]; a mantissa of 2^24 is normalised. *)
Lemma round_aux32 s num den m e l : 0 < num -> 0 < den -> 0 < m -> located num den (shr_record_of_loc m l) -> 
  let E := fexp32 (Zdigits2 m + e) in e <= E ->
  exists q, rounds num (den * 2 ^ (E - e)) q /\ 0 <= q <= 2 ^ 24 /\ (emin 24 128 < E -> 2 ^ 23 <= q)
    /\ binary_round_aux 24 128 s m e l = if q =? 2 ^ 24 then packed32 s (2 ^ 23) (E + 1) else packed32 s q E.
Proof.
  intros A D M L E GE. unfold binary_round_aux, shr_fexp at 1. fold E.
  assert (SH := located_shift num den (shr_record_of_loc m l) e (E - e) ltac:(lia) D ltac:(lia) L).
  destruct (shr (shr_record_of_loc m l) e (E - e)) as [x e'] eqn:SX. cbn [fst snd] in SH. destruct SH as [E' LX].
  replace (e + (E - e)) with E in E' by lia. subst e'.
  assert (P : 0 < 2 ^ (E - e)) by (apply Z.pow_pos_nonneg; lia).
  pose proof (located_round num _ x ltac:(lia) (Z.mul_pos_pos _ _ D P) LX) as R. pose proof (loc_m _ _ _ LX) as XM.
  set (q := round_nearest_even (shr_m x) (loc_of_shr_record x)) in *.
  assert (ML : m = num / den). { pose proof (loc_m _ _ _ L) as X. destruct l as [|[]]; exact X. }
  assert (XM' : shr_m x = m / 2 ^ (E - e)). { rewrite XM, ML, Z.div_div by lia. reflexivity. }
  pose proof (digits_bounds m M) as DB.
  assert (DP : 1 <= Zdigits2 m) by (destruct m; try lia; cbn [Zdigits2]; lia).
  assert (QB : shr_m x <= q <= shr_m x + 1).
  { unfold q, round_nearest_even. destruct (loc_of_shr_record x) as [|[]]; try lia. destruct (Z.even (shr_m x)); lia. }
  assert (EM : emin 24 128 <= E /\ Zdigits2 m + e - 24 <= E /\ (E = Zdigits2 m + e - 24 \/ E = emin 24 128)) by (unfold E, fexp; lia).
  destruct EM as (EM1 & EM2 & EM3).
  assert (UP : shr_m x < 2 ^ 24).
  { rewrite XM'. apply Z.div_lt_upper_bound; [lia|]. rewrite <- Z.pow_add_r by lia. eapply Z.lt_le_trans; [apply DB|]. apply Z.pow_le_mono_r; lia. }
  assert (LO : emin 24 128 < E -> 2 ^ 23 <= shr_m x).
  { intro X. rewrite XM'. apply Z.div_le_lower_bound; [lia|]. rewrite <- Z.pow_add_r by lia. eapply Z.le_trans; [|apply DB]. apply Z.pow_le_mono_r; lia. }
  assert (NN : 0 <= shr_m x) by (rewrite XM'; apply Z.div_pos; lia).
  exists q. splits; auto; try lia.
  destruct (Z.eqb_spec q (2 ^ 24)) as [EQ|NE].
  - unfold shr_fexp. rewrite EQ. assert (Zdigits2 (2 ^ 24) = 25) as -> by (vm_compute; reflexivity).
    replace (fexp32 (25 + E) - E) with 1 by (unfold fexp; lia).
    cbn [shr]. change (SpecFloat.iter_pos shr_1 1 (shr_record_of_loc (2 ^ 24) loc_Exact)) with (Build_shr_record (2 ^ 23) false false). reflexivity.
  - assert (X : fexp32 (Zdigits2 q + E) - E <= 0).
    { destruct (Z.eq_dec q 0) as [->|Nq]; [cbn [Zdigits2]; unfold fexp; lia|].
      assert (Zdigits2 q <= 24); [|unfold fexp; lia]. pose proof (digits_bounds q ltac:(lia)) as QD.
      destruct (Z.le_gt_cases (Zdigits2 q) 24); auto. assert (2 ^ 24 <= 2 ^ (Zdigits2 q - 1)) by (apply Z.pow_le_mono_r; lia). lia. }
    unfold shr_fexp. assert (SN : forall r e n, n <= 0 -> shr r e n = (r, e)) by (intros r0 e0 n0 Hn; destruct n0; try reflexivity; lia).
    rewrite SN by exact X. cbn [shr_record_of_loc shr_m]. unfold packed32. destruct q as [|p|p]; try lia; reflexivity.
Qed.



(** ** The nearest single *)
Lemma tie_free D z q k : 0 < D -> rounds z D q -> Z.abs (q * D - z) <= Z.abs (k * D - z).
Proof. intros P R. apply (rounds_near D z q k P R). Qed.
Lemma single_multiple y : single y -> exists k, y = k * 2 ^ 925.
Proof.
  intros (m & e & M & B & ->). exists (m * 2 ^ (e + 149)). rewrite <- Z.mul_assoc, <- Z.pow_add_r by lia. f_equal. f_equal. lia.
Qed.
Lemma near_any E v q : -149 <= E -> single (q * 2 ^ (E + 1074)) -> rounds v (2 ^ (E + 1074)) q ->
  (forall y, single y -> (exists k, y = k * 2 ^ (E + 1074)) \/ Z.abs (q * 2 ^ (E + 1074) - v) < Z.abs (y - v)) ->
  nearest_single v (q * 2 ^ (E + 1074)).
Proof.
  intros HE SG R ALL. assert (P : 0 < 2 ^ (E + 1074)) by (apply Z.pow_pos_nonneg; lia).
  split; [exact SG|split].
  - intros y Y. destruct (ALL y Y) as [[k ->]|L]; [apply (tie_free _ _ _ k P R)|lia].
  - intros y Y NE T. destruct (ALL y Y) as [[k ->]|L]; [|lia].
    destruct (rounds_near _ _ _ k P R) as [_ X]. destruct X as [X1 X2]; auto.
    + intros ->. apply NE. reflexivity.
    + exists q, E. splits; auto.
Qed.
Lemma near_low v q : 0 <= q <= 2 ^ 24 -> rounds v (2 ^ 925) q -> nearest_single v (q * 2 ^ 925).
Proof.
  intros Q R. change 925 with (-149 + 1074) in *. apply near_any; auto; try lia.
  - destruct (Z.eq_dec q (2 ^ 24)) as [->|NE].
    + exists (2 ^ 23), (-148). splits; lia.
    + exists q, (-149). splits; lia.
  - intros y Y. left. apply single_multiple, Y.
Qed.
Lemma near_high E v q : -149 <= E <= 104 -> 2 ^ (23 + (E + 1074)) <= v -> 2 ^ 23 <= q <= 2 ^ 24 -> (q = 2 ^ 24 -> E <= 103) ->
  rounds v (2 ^ (E + 1074)) q -> nearest_single v (q * 2 ^ (E + 1074)).
Proof.
  intros HE VB QB TOP R. assert (P : 0 < 2 ^ (E + 1074)) by (apply Z.pow_pos_nonneg; lia).
  assert (K : 2 ^ (23 + (E + 1074)) = 2 ^ 23 * 2 ^ (E + 1074)) by (apply Z.pow_add_r; lia).
  apply near_any; auto; try lia.
  - destruct (Z.eq_dec q (2 ^ 24)) as [->|NE].
    + exists (2 ^ 23), (E + 1). splits; try lia. replace (E + 1 + 1074) with (1 + (E + 1074)) by lia. rewrite (Z.pow_add_r 2 1) by lia. lia.
    + exists q, E. splits; lia.
  - intros y Y. destruct (Z.lt_ge_cases y (2 ^ (23 + (E + 1074)))) as [L|L].
    + right. pose proof (tie_free _ _ _ (2 ^ 23) P R). lia.
    + left. destruct Y as (m & e & M & B & ->). assert (E <= e).
      { destruct (Z.le_gt_cases E e) as [|X]; auto. exfalso.
        assert (B1 : 2 ^ (e + 1074) <= 2 ^ (E + 1073)) by (apply Z.pow_le_mono_r; lia).
        assert (B2 : 2 ^ (24 + (E + 1073)) = 2 ^ 24 * 2 ^ (E + 1073)) by (apply Z.pow_add_r; lia).
        replace (24 + (E + 1073)) with (23 + (E + 1074)) in B2 by lia. assert (0 < 2 ^ (e + 1074)) by (apply Z.pow_pos_nonneg; lia).
        assert (m * 2 ^ (e + 1074) < 2 ^ 24 * 2 ^ (e + 1074)) by nia. nia. }
      exists (m * 2 ^ (e - E)). rewrite <- Z.mul_assoc, <- Z.pow_add_r by lia. f_equal. f_equal. lia.
Qed.
Lemma rounds_scale num den q k : 0 < k -> rounds num den q -> rounds (num * k) (den * k) q.
Proof.
  intros K [A B]. unfold rounds. replace (q * (den * k) - num * k) with ((q * den - num) * k) by lia. rewrite Z.abs_mul, (Z.abs_eq k) by lia.
  split; [nia|]. intro X. apply B. nia.
Qed.
Lemma shift_value n p : Z.pos (shift_pos n p) = Z.pos p * 2 ^ Z.pos n.
Proof. rewrite (shift_pos_correct n p). unfold Z.pow. lia. Qed.
Lemma align p e E : let a := shl_align p e E in
  Z.pos (fst a) * 2 ^ (snd a + 1074) = Z.pos p * 2 ^ (e + 1074) \/ e < -1074 \/ E < -1074.
Proof.
  unfold shl_align. cbv zeta. destruct (E - e) as [|d|d] eqn:D; cbn [fst snd]; auto.
  destruct (Z.lt_ge_cases E (-1074)); auto. destruct (Z.lt_ge_cases e (-1074)); auto. left.
  rewrite shift_value, <- Z.mul_assoc, <- Z.pow_add_r by lia. f_equal. f_equal. lia.
Qed.
Lemma align_le p e E : snd (shl_align p e E) <= E.
Proof. unfold shl_align. destruct (E - e) eqn:D; cbn [snd]; lia. Qed.
Lemma align_digits p e E : Zdigits2 (Z.pos (fst (shl_align p e E))) + snd (shl_align p e E) = Z.pos (digits2_pos p) + e.
Proof.
  unfold shl_align. destruct (E - e) as [|d|d] eqn:D; cbn [fst snd]; try reflexivity.
  pose proof (digits_bounds (Z.pos p) ltac:(lia)) as DB. cbn [Zdigits2] in DB.
  rewrite (digits_unique _ (Z.pos (digits2_pos p) + Z.pos d)); try lia.
  rewrite shift_value. set (g := Z.pos (digits2_pos p)) in *.
  replace (g + Z.pos d - 1) with (g - 1 + Z.pos d) by lia. rewrite !Z.pow_add_r by (unfold g; lia).
  assert (0 < 2 ^ Z.pos d) by (apply Z.pow_pos_nonneg; lia). nia.
Qed.
Lemma binary_round_single s p e : -1074 <= e -> rounded s (Z.pos p * 2 ^ (e + 1074)) (binary_round 24 128 s p e).
Proof.
  intro HE. unfold binary_round. set (g := Z.pos (digits2_pos p)). remember (fexp32 (g + e)) as E eqn:EE.
  pose proof (align p e E) as AL. cbv zeta in AL. pose proof (align_le p e E) as LE. pose proof (align_digits p e E) as DG.
  assert (EM : E = Z.max (g + e - 24) (-149)) by (rewrite EE; unfold fexp, emin; lia).
  remember (Z.pos p * 2 ^ (e + 1074)) as v eqn:VE.
  assert (PE : 0 < 2 ^ (e + 1074)) by (apply Z.pow_pos_nonneg; lia).
  assert (VB : 2 ^ (g + e + 1073) <= v < 2 ^ (g + e + 1074)).
  { pose proof (digits_bounds (Z.pos p) ltac:(lia)) as DB. cbn [Zdigits2] in DB. fold g in DB. rewrite VE.
    assert (1 <= g) by (unfold g; lia).
    replace (g + e + 1073) with (g - 1 + (e + 1074)) by lia. replace (g + e + 1074) with (g + (e + 1074)) by lia.
    rewrite (Z.pow_add_r 2 (g - 1) (e + 1074)), (Z.pow_add_r 2 g (e + 1074)) by lia. nia. }
  destruct AL as [AL|[AL|AL]]; [|lia|lia].
  assert (GE : -1074 <= snd (shl_align p e E)) by (unfold shl_align; destruct (E - e); cbn [snd]; lia).
  destruct (shl_align p e E) as [mz ez]. cbn [fst snd] in *.
  assert (FE : fexp32 (Zdigits2 (Z.pos mz) + ez) = E) by (rewrite DG; symmetry; exact EE).
  destruct (round_aux32 s (Z.pos mz) 1 (Z.pos mz) ez loc_Exact) as (q & R & Q1 & Q2 & ->); try lia.
  { apply located_exact. lia. }
  rewrite FE in *. rewrite Z.mul_1_l in R.
  assert (PZ : 0 < 2 ^ (ez + 1074)) by (apply Z.pow_pos_nonneg; lia).
  apply (rounds_scale _ _ _ _ PZ) in R. rewrite AL, <- Z.pow_add_r in R by lia. replace (E - ez + (ez + 1074)) with (E + 1074) in R by lia.
  clear AL LE DG GE FE PZ mz ez.
  assert (PK : 0 < 2 ^ (E + 1074)) by (apply Z.pow_pos_nonneg; lia).
  assert (TOP : 2 ^ (104 + 1074) = 2 * 2 ^ (103 + 1074)) by (change (104 + 1074) with (1 + (103 + 1074)); apply (Z.pow_add_r 2 1); lia).
  assert (HI : -149 < E -> 2 ^ (23 + (E + 1074)) <= v).
  { intro X. replace (23 + (E + 1074)) with (g + e + 1073) by lia. apply VB. }
  assert (BIG : 104 < E -> too_large v).
  { intro X. specialize (HI ltac:(lia)). unfold too_large.
    assert (2 ^ (25 + (103 + 1074)) <= 2 ^ (23 + (E + 1074))) by (apply Z.pow_le_mono_r; lia).
    rewrite (Z.pow_add_r 2 25) in H by lia. assert (0 < 2 ^ (103 + 1074)) by (apply Z.pow_pos_nonneg; lia). lia. }
  assert (EDGE : E = 104 -> (too_large v <-> q = 2 ^ 24)).
  { intros ->. unfold too_large. destruct R as [R1 R2]. rewrite TOP in *. set (h := 2 ^ (103 + 1074)) in *. split.
    - intro T. destruct (Z.eq_dec q (2 ^ 24)) as [|NE]; auto. exfalso.
      assert (q = 2 ^ 24 - 1) by nia. subst q. assert (Z.even (2 ^ 24 - 1) = true) by (apply R2; lia). discriminate.
    - intros ->. lia. }
  assert (SMALL : E < 104 -> ~ too_large v).
  { intros X T. unfold too_large in T.
    assert (v < 2 ^ (24 + (103 + 1074))).
    { eapply Z.lt_le_trans; [apply VB|]. apply Z.pow_le_mono_r; lia. }
    rewrite (Z.pow_add_r 2 24) in H by lia. assert (0 < 2 ^ (103 + 1074)) by (apply Z.pow_pos_nonneg; lia). lia. }
  assert (NEAR : E <= 104 -> (q = 2 ^ 24 -> E <= 103) -> nearest_single v (q * 2 ^ (E + 1074))).
  { intros X Y. destruct (Z.eq_dec E (-149)) as [->|NE]; [apply near_low; auto|].
    apply near_high; auto; try lia. split; [|lia]. apply Q2. change (emin 24 128) with (-149). lia. }
  destruct (Z.eqb_spec q (2 ^ 24)) as [EQ|NE]; unfold packed32.
  - change (2 ^ 23) with (Z.pos 8388608). destruct (Z.leb_spec (E + 1) 104) as [L|L]; cbn [rounded].
    + split; [reflexivity|]. split; [lia|]. split; [lia|]. split.
      * replace (Z.pos 8388608 * 2 ^ (E + 1 + 1074)) with (q * 2 ^ (E + 1074)); [apply NEAR; lia|].
        rewrite EQ. replace (E + 1 + 1074) with (1 + (E + 1074)) by lia. rewrite (Z.pow_add_r 2 1) by lia. lia.
      * apply SMALL. lia.
    + split; auto. destruct (Z.eq_dec E 104); [apply EDGE; auto|apply BIG; lia].
  - destruct q as [|qp|qp]; [| |lia].
    + cbn [rounded]. split; auto.
      assert (E = -149) by (destruct (Z.eq_dec E (-149)); auto; specialize (Q2 ltac:(change (emin 24 128) with (-149); lia)); lia).
      replace 0 with (0 * 2 ^ (E + 1074)) at 2 by lia. apply NEAR; lia.
    + destruct (Z.leb_spec E 104) as [L|L]; cbn [rounded].
      * split; [reflexivity|]. split; [lia|]. split; [lia|]. split; [apply NEAR; lia|].
        destruct (Z.eq_dec E 104) as [E4|E4]; [intro T; apply NE; apply (EDGE E4); exact T|apply SMALL; lia].
      * split; [reflexivity|apply BIG; lia].
Qed.
