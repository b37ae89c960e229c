(** Fixed-point cells: how far a decimal is from what a gauge reads back. *)
From Coq Require Import ZArith QArith Qabs Qpower List Bool Floats.SpecFloat Lia Lqa.
From Verif Require Import Base.Arith Base.Outcome Model.Field Model.Metrics Spec.FieldSpec Spec.MetricsSpec Spec.DecimalSpec Proofs.FieldP Proofs.RoundP.
Local Open Scope Q_scope.

Lemma two_pos e : 0 < 2 ^ e.
Proof. apply Qpower_0_lt. reflexivity. Qed.
Lemma two_plus a b : 2 ^ (a + b) == 2 ^ a * 2 ^ b.
Proof. apply Qpower_plus. discriminate. Qed.
Lemma two_le a b : (a <= b)%Z -> 2 ^ a <= 2 ^ b.
Proof. intro H. apply Qpower_le_compat_l; [exact H|discriminate]. Qed.
Lemma two_lt_inv a b : 2 ^ a < 2 ^ b -> (a < b)%Z.
Proof. intro H. apply Qpower_lt_compat_l_inv in H; [exact H|reflexivity]. Qed.
Lemma two_Z d : (0 <= d)%Z -> inject_Z (2 ^ d) == 2 ^ d.
Proof. apply Zpower_Qpower. Qed.
Lemma inj_le a b : (a <= b)%Z -> inject_Z a <= inject_Z b.
Proof. rewrite <- Zle_Qle. auto. Qed.
Lemma inj_lt a b : (a < b)%Z -> inject_Z a < inject_Z b.
Proof. rewrite <- Zlt_Qlt. auto. Qed.

Lemma inj_neg p : inject_Z (Z.neg p) == - inject_Z (Z.pos p).
Proof. reflexivity. Qed.

Lemma rounds_Q num den q e d : (0 < den)%Z -> (0 <= d)%Z -> rounds num (den * 2 ^ d) q ->
  Qabs (inject_Z q * 2 ^ (e + d) - inject_Z num / inject_Z den * 2 ^ e) <= 2 ^ (e + d) * (1 # 2).
Proof.
  intros D N [R _].
  assert (A : (2 * (q * (den * 2 ^ d)) <= 2 * num + den * 2 ^ d)%Z) by lia.
  assert (B : (2 * num <= 2 * (q * (den * 2 ^ d)) + den * 2 ^ d)%Z) by lia. clear R.
  apply inj_le in A. apply inj_le in B. rewrite ?inject_Z_plus, ?inject_Z_mult, ?two_Z in A, B by exact N.
  apply inj_lt in D. set (k := inject_Z den) in *. set (n := inject_Z num) in *. set (w := 2 ^ d) in *.
  pose proof (two_pos e) as U. pose proof (two_pos d) as W. fold w in W. rewrite two_plus. fold w. set (u := 2 ^ e) in *. set (r := inject_Z q) in *.
  change (inject_Z 0) with 0 in D. change (inject_Z 2) with 2 in *.
  set (t := n / k). assert (T : n == t * k) by (unfold t; field; lra). rewrite T in A, B.
  assert (A' : 2 * (r * w) <= 2 * t + w). { apply Qmult_lt_0_le_reg_r with k; [exact D|]. lra. }
  assert (B' : 2 * t - w <= 2 * (r * w)). { apply Qmult_lt_0_le_reg_r with k; [exact D|]. lra. }
  assert (A2 : 2 * (r * w) * u <= (2 * t + w) * u) by (apply Qmult_le_compat_r; lra).
  assert (B2 : (2 * t - w) * u <= 2 * (r * w) * u) by (apply Qmult_le_compat_r; lra).
  apply Qabs_Qle_condition. split; lra.
Qed.

Definition sq (s : bool) (v : Q) : Q := if s then - v else v.
Lemma packed_value s q E : (0 <= q <= 2 ^ 53)%Z -> (E <= 970)%Z ->
  value (if (q =? 2 ^ 53)%Z then packed s (2 ^ 52) (E + 1) else packed s q E) (sq s (inject_Z q * 2 ^ E)).
Proof.
  intros Q1 B. destruct (Z.eqb_spec q (2 ^ 53)) as [->|NE].
  - change (2 ^ 52)%Z with (Z.pos 4503599627370496). cbn [packed]. destruct (Z.leb_spec (E + 1) 971); [|lia]. cbn [value].
    rewrite two_plus. change (2 ^ 1) with 2. change (2 ^ 53)%Z with 9007199254740992%Z. unfold sq. destruct s;
    [rewrite inj_neg|]; change (inject_Z 9007199254740992) with (2 * inject_Z 4503599627370496); ring.
  - destruct q as [|p|p]; cbn [packed]; [|destruct (Z.leb_spec E 971); [|lia]|lia].
    + cbn [value]. unfold sq. destruct s; ring.
    + cbn [value]. unfold sq. destruct s; [|reflexivity]. rewrite inj_neg. ring.
Qed.

(** ** The product *)
Lemma hundred_thousand : int_as_f64 modifier = S754_finite false 6871947673600000 (-36).
Proof. vm_compute. reflexivity. Qed.
Lemma mul_near s m e : inject_Z (Z.pos m) * 2 ^ e * 100000 < 2 ^ 52 ->
  exists p, value (f64_mul (S754_finite s m e) (int_as_f64 modifier)) (sq s p) /\ 0 <= p /\ Qabs (p - inject_Z (Z.pos m) * 2 ^ e * 100000) <= 1 # 4.
Proof.
  intro B. rewrite hundred_thousand. unfold f64_mul. cbn [SFmul]. rewrite xorb_false_r.
  set (M := (m * 6871947673600000)%positive).
  assert (V : inject_Z (Z.pos M) * 2 ^ (e + -36) == inject_Z (Z.pos m) * 2 ^ e * 100000).
  { unfold M. rewrite Pos2Z.inj_mul, inject_Z_mult, two_plus. change (2 ^ (-36)) with (1 # 68719476736). change (inject_Z 6871947673600000) with (100000 * 68719476736). 
    setoid_replace ((1 # 68719476736) : Q) with (/ 68719476736) by reflexivity. field. }
  set (e' := (e + -36)%Z) in *. assert (B' : inject_Z (Z.pos M) * 2 ^ e' < 2 ^ 52) by (rewrite V; exact B).
  pose proof (digits_bounds (Z.pos M) ltac:(lia)) as DB. set (d := Zdigits2 (Z.pos M)) in *.
  assert (D1 : (1 <= d)%Z) by (unfold d; cbn [Zdigits2]; lia).
  assert (DL : (d - 1 + e' < 52)%Z).
  { apply two_lt_inv. eapply Qle_lt_trans; [|exact B']. rewrite two_plus. apply Qmult_le_compat_r; [|apply Qlt_le_weak, two_pos].
    rewrite <- two_Z by lia. apply inj_le. lia. }
  assert (DG : (53 <= d)%Z).
  { destruct (Z.le_gt_cases 53 d) as [|X]; auto. assert (2 ^ d <= 2 ^ 52)%Z by (apply Z.pow_le_mono_r; lia).
    unfold M in DB. rewrite Pos2Z.inj_mul in DB. assert (1 <= Z.pos m)%Z by lia. lia. }
  destruct (round_aux s (Z.pos M) 1 (Z.pos M) e' loc_Exact) as (q & R & Q1 & _ & ->); try lia.
  { apply located_exact. lia. }
  { fold d. unfold fexp. lia. }
  fold d in R |- *. set (E := fexp 53 1024 (d + e')) in *. assert (EB : (e' <= E <= -1)%Z) by (unfold E, fexp, emin; lia).
  exists (inject_Z q * 2 ^ E). split; [apply packed_value; [exact Q1|lia]|]. pose proof (two_pos E) as PE.
  split. { apply Qmult_le_0_compat; [apply (inj_le 0); lia|lra]. }
  pose proof (rounds_Q _ 1 q e' (E - e') ltac:(lia) ltac:(lia) R) as RQ. replace (e' + (E - e'))%Z with E in RQ by lia.
  assert (RQ' : Qabs (inject_Z q * 2 ^ E - inject_Z (Z.pos m) * 2 ^ e * 100000) <= 2 ^ E * (1 # 2)).
  { eapply Qle_trans; [|exact RQ]. apply Qle_lteq. right. apply Qabs_wd. rewrite <- V. change (inject_Z 1) with 1. field. }
  assert (2 ^ E <= 1 # 2) by (change (1 # 2) with (2 ^ (-1)); apply two_le; lia). lra.
Qed.

(** ** Truncation *)
Lemma trunc_near m e : inject_Z (trunc_mag m e) <= inject_Z (Z.pos m) * 2 ^ e < inject_Z (trunc_mag m e) + 1.
Proof.
  unfold trunc_mag. destruct (Z.leb_spec 0 e) as [L|L].
  - rewrite inject_Z_mult, two_Z by lia. lra.
  - assert (P : (0 < 2 ^ (- e))%Z) by (apply Z.pow_pos_nonneg; lia).
    pose proof (Z.div_mod (Z.pos m) (2 ^ (- e)) ltac:(lia)) as DM. pose proof (Z.mod_pos_bound (Z.pos m) (2 ^ (- e)) P) as MB.
    set (t := (Z.pos m / 2 ^ (- e))%Z) in *. assert (A : (t * 2 ^ (- e) <= Z.pos m)%Z) by lia. assert (C : (Z.pos m < (t + 1) * 2 ^ (- e))%Z) by lia.
    apply inj_le in A. apply inj_lt in C. rewrite inject_Z_mult, two_Z in A, C by lia. rewrite inject_Z_plus in C. change (inject_Z 1) with 1 in C.
    assert (W : 2 ^ (- e) * 2 ^ e == 1). { rewrite <- two_plus. replace (- e + e)%Z with 0%Z by lia. reflexivity. }
    pose proof (two_pos e) as U. pose proof (two_pos (- e)) as U'. set (u := 2 ^ e) in *. set (w := 2 ^ (- e)) in *. set (n := inject_Z (Z.pos m)) in *. set (k := inject_Z t) in *.
    assert (A' : k * w * u <= n * u) by (apply Qmult_le_compat_r; lra).
    assert (C' : n * u < (k + 1) * w * u) by (apply Qmult_lt_compat_r; lra).
    assert (k * w * u == k) by (rewrite <- Qmult_assoc, W; ring). assert ((k + 1) * w * u == k + 1) by (rewrite <- Qmult_assoc, W; ring). lra.
Qed.
Lemma as_i64_near x s p : value x (sq s p) -> 0 <= p -> p <= 2 ^ 53 -> exists t, f64_as_i64 x = (if s then - t else t)%Z /\ (0 <= t)%Z /\ inject_Z t <= p < inject_Z t + 1.
Proof.
  intros V P B. destruct x as [s'|s'| |s' m e]; cbn [value] in V; try contradiction.
  - exists 0%Z. splits; [destruct s; reflexivity|lia| |]; change (inject_Z 0) with 0; destruct s; cbn [sq] in V; lra.
  - pose proof (trunc_near m e) as T. pose proof (trunc_mag_nonneg m e) as NN. pose proof (two_pos e) as U.
    assert (PM : 0 < inject_Z (Z.pos m) * 2 ^ e) by (apply Qmult_lt_0_compat; [apply (inj_lt 0); lia|exact U]).
    assert (NG : inject_Z (Z.neg m) * 2 ^ e == - (inject_Z (Z.pos m) * 2 ^ e)) by (rewrite inj_neg; ring).
    assert (ES : s' = s /\ p == inject_Z (Z.pos m) * 2 ^ e) by (destruct s, s'; cbn [sq] in V; split; try reflexivity; lra).
    destruct ES as [-> PE]. rewrite <- PE in T. exists (trunc_mag m e). splits; auto; try apply T.
    assert (TB : (trunc_mag m e <= 2 ^ 53)%Z). { rewrite Zle_Qle. rewrite two_Z by lia. lra. }
    cbn [f64_as_i64]. destruct s; lia.
Qed.
Lemma normalize_near x v : value x v -> Qabs v * 100000 < 2 ^ 52 -> Qabs (inject_Z (normalize_f64 x) - v * 100000) < 5 # 4.
Proof.
  intros V B. unfold normalize_f64. destruct x as [s|s| |s m e]; try contradiction.
  - rewrite hundred_thousand. unfold f64_mul. cbn [SFmul f64_as_i64]. cbn [value] in V. apply Qle_lt_trans with (Qabs 0); [|reflexivity].
    apply Qle_lteq. right. apply Qabs_wd. rewrite V. reflexivity.
  - cbn [value] in V. pose proof (two_pos e) as U. set (X := inject_Z (Z.pos m) * 2 ^ e).
    assert (PM : 0 < X) by (apply Qmult_lt_0_compat; [apply (inj_lt 0); lia|exact U]).
    assert (SV : v == sq s X). { rewrite V. unfold sq, X. destruct s; [|reflexivity]. rewrite inj_neg. ring. }
    assert (AV : Qabs v == X). { rewrite SV. unfold sq. destruct s; [rewrite Qabs_opp|]; apply Qabs_pos; lra. }
    rewrite AV in B. destruct (mul_near s m e B) as (p & PV & PP & PB). fold X in PB. apply Qabs_Qle_condition in PB.
    change (2 ^ 52) with 4503599627370496 in B.
    destruct (as_i64_near _ s p PV PP) as (t & -> & T0 & T). { change (2 ^ 53) with 9007199254740992. lra. }
    apply Qabs_Qlt_condition. destruct s; cbn [sq] in SV; rewrite ?inject_Z_opp; split; lra.
Qed.

(** ** The quotient *)
Lemma located_quotient num den q r : (0 < den)%Z -> Z.even den = true -> Z.div_eucl num den = (q, r) -> located num den (shr_record_of_loc q (new_location den r)).
Proof.
  intros D EV E. assert (Q1 : (num / den = q)%Z) by (unfold Z.div; rewrite E; reflexivity).
  assert (R1 : (num mod den = r)%Z) by (unfold Z.modulo; rewrite E; reflexivity).
  unfold new_location. rewrite EV. unfold new_location_even. rewrite <- Q1, <- R1. clear E Q1 R1 q r EV.
  pose proof (Z.mod_pos_bound num den D) as B. set (k := (num mod den)%Z) in *. set (q := (num / den)%Z).
  pose proof (Zeq_bool_if k 0) as Z0. destruct (Zeq_bool k 0).
  - constructor; cbn [shr_record_of_loc shr_m shr_r shr_s]; auto; fold k; rewrite Z0; [symmetry; apply Z.leb_gt; lia|reflexivity].
  - destruct (Z.compare_spec (2 * k) den) as [C|C|C]; constructor; cbn [shr_record_of_loc shr_m shr_r shr_s]; auto; fold k;
      repeat match goal with |- context [(?a <=? ?b)%Z] => destruct (Z.leb_spec a b) | |- context [(?a =? ?b)%Z] => destruct (Z.eqb_spec a b) end; cbn [orb negb]; auto; lia.
Qed.
Lemma div_near s m e : inject_Z (Z.pos m) * 2 ^ e <= 2 ^ 52 -> (1 <= Zdigits2 (Z.pos m) + e)%Z ->
  exists p, value (f64_div (S754_finite s m e) (int_as_f64 modifier)) (sq s p) /\ Qabs (p - inject_Z (Z.pos m) * 2 ^ e / 100000) <= 2 ^ (-18).
Proof.
  intros B DE. rewrite hundred_thousand. unfold f64_div. cbn [SFdiv]. rewrite xorb_false_r. unfold SFdiv_core_binary.
  pose proof (digits_bounds (Z.pos m) ltac:(lia)) as DB. set (d := Zdigits2 (Z.pos m)) in *.
  assert (D1 : (1 <= d)%Z) by (unfold d; cbn [Zdigits2]; lia).
  change (Zdigits2 6871947673600000) with 53%Z.
  assert (FE : fexp 53 1024 (d + e - (53 + -36)) = (d + e - 70)%Z) by (unfold fexp, emin; lia).
  rewrite FE. set (e' := Z.min (d + e - 70) (e - -36)). set (t := (e - -36 - e')%Z).
  assert (T : (0 <= t)%Z /\ (106 - d <= t)%Z /\ (e' = e + 36 - t)%Z) by (unfold t, e'; lia). destruct T as (T0 & T1 & T2).
  assert (SH : match t with Z0 => Z.pos m | Zpos _ => Z.shiftl (Z.pos m) t | Zneg _ => Z0 end = (Z.pos m * 2 ^ t)%Z).
  { clearbody t. destruct t as [|p|p]; [change (2 ^ 0)%Z with 1%Z; lia|apply Z.shiftl_mul_pow2; lia|lia]. }
  rewrite SH. set (num := (Z.pos m * 2 ^ t)%Z). set (den := 6871947673600000%Z).
  assert (P2 : (0 < 2 ^ t)%Z) by (apply Z.pow_pos_nonneg; lia).
  assert (NB : (2 ^ (d - 1 + t) <= num)%Z) by (unfold num; rewrite Z.pow_add_r by lia; apply Z.mul_le_mono_nonneg_r; lia).
  destruct (Z.div_eucl num den) as [q0 r0] eqn:DEq. pose proof (located_quotient num den q0 r0 eq_refl eq_refl DEq) as L.
  assert (Q0 : (num / den = q0)%Z) by (unfold Z.div; rewrite DEq; reflexivity).
  assert (QL : (2 ^ (d + t - 54) <= q0)%Z).
  { rewrite <- Q0. apply Z.div_le_lower_bound; [reflexivity|]. etransitivity; [|exact NB].
    replace (d - 1 + t)%Z with (53 + (d + t - 54))%Z by lia. rewrite Z.pow_add_r by lia. apply Z.mul_le_mono_nonneg_r; [apply Z.pow_nonneg; lia|vm_compute; discriminate]. }
  assert (QP : (0 < q0)%Z). { eapply Z.lt_le_trans; [|exact QL]. apply Z.pow_pos_nonneg; lia. }
  pose proof (digits_bounds q0 QP) as QD.
  assert (DQ : (d + t - 53 <= Zdigits2 q0)%Z).
  { destruct (Z.le_gt_cases (d + t - 53) (Zdigits2 q0)) as [|X]; auto. assert (2 ^ Zdigits2 q0 <= 2 ^ (d + t - 54))%Z by (apply Z.pow_le_mono_r; lia). lia. }
  (* the value of the exact quotient *)
  assert (V : inject_Z num / inject_Z den * 2 ^ e' == inject_Z (Z.pos m) * 2 ^ e / 100000).
  { unfold num. rewrite inject_Z_mult, two_Z by lia. change (inject_Z den) with (100000 * 68719476736).
    assert (W : 2 ^ t * 2 ^ e' == 2 ^ e * 68719476736). { rewrite <- two_plus. replace (t + e')%Z with (e + 36)%Z by lia. rewrite two_plus. reflexivity. }
    setoid_replace (inject_Z (Z.pos m) * 2 ^ t / (100000 * 68719476736) * 2 ^ e') with (inject_Z (Z.pos m) * (2 ^ t * 2 ^ e') / (100000 * 68719476736)) by field.
    rewrite W. field. }
  assert (VB : inject_Z (Z.pos m) * 2 ^ e / 100000 < 2 ^ 36).
  { change (2 ^ 52) with 4503599627370496 in B. change (2 ^ 36) with 68719476736.
    assert (inject_Z (Z.pos m) * 2 ^ e / 100000 == inject_Z (Z.pos m) * 2 ^ e * (1 # 100000)) by field. lra. }
  assert (QV : inject_Z q0 * 2 ^ e' <= inject_Z num / inject_Z den * 2 ^ e').
  { apply Qmult_le_compat_r; [|apply Qlt_le_weak, two_pos]. apply Qle_shift_div_l; [reflexivity|]. rewrite <- inject_Z_mult. apply inj_le.
    rewrite <- Q0, Z.mul_comm. apply Z.mul_div_le. reflexivity. }
  assert (DU : (Zdigits2 q0 - 1 + e' < 36)%Z).
  { apply two_lt_inv. eapply Qle_lt_trans; [|exact VB]. rewrite <- V. eapply Qle_trans; [|exact QV]. rewrite two_plus. apply Qmult_le_compat_r; [|apply Qlt_le_weak, two_pos].
    assert (0 <= Zdigits2 q0 - 1)%Z by (destruct q0; try lia; cbn [Zdigits2]; lia). rewrite <- two_Z by lia. apply inj_le. lia. }
  destruct (round_aux s num den q0 e' (new_location den r0)) as (q & R & Q1 & _ & RE); try lia; auto.
  { unfold fexp. lia. }
  rewrite RE. set (E := fexp 53 1024 (Zdigits2 q0 + e')) in *. assert (EB : (e' <= E <= -17)%Z) by (unfold E, fexp, emin; lia).
  exists (inject_Z q * 2 ^ E). split; [apply packed_value; [exact Q1|lia]|].
  pose proof (rounds_Q _ den q e' (E - e') eq_refl ltac:(lia) R) as RQ. replace (e' + (E - e'))%Z with E in RQ by lia.
  assert (RQ' : Qabs (inject_Z q * 2 ^ E - inject_Z (Z.pos m) * 2 ^ e / 100000) <= 2 ^ E * (1 # 2)).
  { eapply Qle_trans; [|exact RQ]. apply Qle_lteq. right. apply Qabs_wd. rewrite <- V. reflexivity. }
  assert (2 ^ E <= 2 ^ (-17)) by (apply two_le; lia). change (2 ^ (-17)) with (1 # 131072) in *. change (2 ^ (-18)) with (1 # 262144). lra.
Qed.
Lemma read_near z : (Z.abs z <= 2 ^ 52)%Z -> exists r, value (normalize_i64 z) r /\ Qabs (r - inject_Z z / 100000) <= 2 ^ (-18).
Proof.
  intro B. unfold normalize_i64.
  assert (K : forall s p, (Z.pos p <= 2 ^ 52)%Z -> exists r, value (f64_div (binary_round 53 1024 s p 0) (int_as_f64 modifier)) (sq s r) /\ Qabs (r - inject_Z (Z.pos p) / 100000) <= 2 ^ (-18)).
  { intros s p P. destruct (binary_round_exact s p ltac:(lia)) as (m & e & -> & E0 & M).
    assert (V : inject_Z (Z.pos m) * 2 ^ e == inject_Z (Z.pos p)).
    { rewrite M, inject_Z_mult, two_Z by lia. rewrite <- Qmult_assoc, <- two_plus. replace (- e + e)%Z with 0%Z by lia. change (2 ^ 0) with 1. ring. }
    destruct (div_near s m e) as (r & RV & RB).
    - rewrite V, <- two_Z by lia. apply inj_le. exact P.
    - pose proof (digits_bounds (Z.pos m) ltac:(lia)) as DB. assert (0 < 2 ^ (- e))%Z by (apply Z.pow_pos_nonneg; lia).
      assert (L : (2 ^ (- e) <= Z.pos m)%Z) by nia. set (d := Zdigits2 (Z.pos m)) in *.
      destruct (Z.le_gt_cases 1 (d + e)) as [|X]; auto. assert (0 <= d)%Z by (unfold d; cbn [Zdigits2]; lia).
      assert (2 ^ d <= 2 ^ (- e))%Z by (apply Z.pow_le_mono_r; lia). lia.
    - exists r. split; [exact RV|]. eapply Qle_trans; [|exact RB]. apply Qle_lteq. right. apply Qabs_wd. rewrite V. reflexivity. }
  unfold int_as_f64 at 1, binary_normalize. destruct z as [|p|p].
  - exists 0. rewrite hundred_thousand. split; [reflexivity|]. vm_compute. discriminate.
  - destruct (K false p) as (r & RV & RB); [lia|]. exists r. auto.
  - destruct (K true p) as (r & RV & RB); [lia|]. exists (- r). split; [exact RV|]. eapply Qle_trans; [|exact RB]. apply Qle_lteq. right.
    rewrite <- Qabs_opp. apply Qabs_wd. rewrite inj_neg. field.
Qed.

(** ** Set and read *)
Lemma decimal_near x v : value x v -> Qabs v * 100000 < 2 ^ 51 -> exists r, value (normalize_i64 (normalize_f64 x)) r /\ Qabs (r - v) < 2 # 100000.
Proof.
  intros V B. change (2 ^ 51) with 2251799813685248 in B.
  assert (N : Qabs (inject_Z (normalize_f64 x) - v * 100000) < 5 # 4). { apply normalize_near; [exact V|]. change (2 ^ 52) with 4503599627370496. lra. }
  set (z := normalize_f64 x) in *. apply Qabs_Qlt_condition in N.
  assert (VB : - Qabs v <= v <= Qabs v). { apply Qabs_Qle_condition. lra. }
  assert (ZB : (Z.abs z <= 2 ^ 52)%Z).
  { assert (A : inject_Z z < inject_Z (2 ^ 52)) by (change (inject_Z (2 ^ 52)) with 4503599627370496; lra).
    assert (C : inject_Z (- 2 ^ 52) < inject_Z z) by (change (inject_Z (- 2 ^ 52)) with (- 4503599627370496); lra).
    rewrite <- Zlt_Qlt in A, C. lia. }
  destruct (read_near z ZB) as (r & RV & RB). exists r. split; [exact RV|]. change (2 ^ (-18)) with (1 # 262144) in RB.
  apply Qabs_Qle_condition in RB. assert (EZ : inject_Z z / 100000 == inject_Z z * (1 # 100000)) by field. rewrite EZ in RB.
  apply Qabs_Qlt_condition. split; lra.
Qed.

(** ** Sums *)
Definition units (z : Z) (v : Q) : Prop := Qabs (inject_Z z - v * 100000) < 5 # 4.
Lemma units_sum zs vs : Forall2 units zs vs -> Qabs (inject_Z (zsum zs) - qsum vs * 100000) <= (5 # 4) * inject_Z (Z.of_nat (length vs)).
Proof.
  induction 1 as [|z v zs vs U F IH]; [vm_compute; discriminate|].
  unfold zsum, qsum in *. cbn [fold_right length]. rewrite Nat2Z.inj_succ. unfold Z.succ. rewrite !inject_Z_plus. unfold units in U. change (inject_Z 1) with 1.
  apply Qabs_Qle_condition in IH. apply Qabs_Qlt_condition in U. apply Qabs_Qle_condition. split; lra.
Qed.
Lemma sum_near cell zs vs : Forall2 units zs vs -> is_i64_of cell (zsum zs) -> Qabs (qsum vs) * 100000 <= 2 ^ 51 -> (Z.of_nat (length vs) <= 2 ^ 50)%Z ->
  exists r, value (normalize_i64 cell) r /\ close (r * 100000) (qsum vs * 100000) ((5 # 4) * inject_Z (Z.of_nat (length vs)) + (1 # 2)).
Proof.
  intros F C B L. pose proof (units_sum zs vs F) as S. apply Qabs_Qle_condition in S. rewrite Zle_Qle in L. change (inject_Z (2 ^ 50)) with 1125899906842624 in L.
  change (2 ^ 51) with 2251799813685248 in B. set (n := inject_Z (Z.of_nat (length vs))) in *. set (z := zsum zs) in *.
  assert (VB : - Qabs (qsum vs) <= qsum vs <= Qabs (qsum vs)). { apply Qabs_Qle_condition. lra. }
  assert (ZB : (Z.abs z <= 2 ^ 52)%Z).
  { assert (A : inject_Z z <= inject_Z (2 ^ 52)) by (change (inject_Z (2 ^ 52)) with 4503599627370496; lra).
    assert (D : inject_Z (- 2 ^ 52) <= inject_Z z) by (change (inject_Z (- 2 ^ 52)) with (- 4503599627370496); lra).
    rewrite <- Zle_Qle in A, D. lia. }
  assert (cell = z) as ->. { destruct C as [C1 C2]. apply Z.mod_divide in C2; [|lia]. destruct C2 as [k K]. lia. }
  destruct (read_near z ZB) as (r & RV & RB). exists r. split; [exact RV|]. change (2 ^ (-18)) with (1 # 262144) in RB.
  apply Qabs_Qle_condition in RB. assert (EZ : inject_Z z / 100000 == inject_Z z * (1 # 100000)) by field. rewrite EZ in RB.
  unfold close. split; lra.
Qed.
