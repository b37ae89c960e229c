(** Rounding of [SpecFloat]: to nearest, ties to even. *)
From Coq Require Import ZArith List Bool Floats.SpecFloat Lia.
From Verif Require Import Base.Outcome Base.Arith Model.Field Spec.FieldSpec Proofs.FieldP.
Local Open Scope Z_scope.

(** ** Shifting keeps the location of [num / den] *)
Record located (num den : Z) (x : shr_record) : Prop := {
  loc_m : shr_m x = num / den;
  loc_r : shr_r x = (den <=? 2 * (num mod den));
  loc_s : shr_s x = negb ((2 * (num mod den) =? 0) || (2 * (num mod den) =? den)) }.

Lemma shr_1_half m r s : 0 <= m -> shr_1 (Build_shr_record m r s) = Build_shr_record (m / 2) (Z.odd m) (orb r s).
Proof.
  intro H. destruct m as [|p|p]; [reflexivity| |lia].
  assert (Z.pos p / 2 = Z.div2 (Z.pos p)) as -> by (rewrite Z.div2_div; reflexivity).
  destruct p; reflexivity.
Qed.
Lemma halve num den : 0 < den -> num / (den * 2) = num / den / 2 /\ num mod (den * 2) = den * (num / den mod 2) + num mod den.
Proof.
  intro D. split; [rewrite Z.div_div by lia; reflexivity|]. rewrite Z.rem_mul_r by lia. lia.
Qed.
Lemma located_shr num den x : 0 <= num -> 0 < den -> located num den x -> located num (den * 2) (shr_1 x).
Proof.
  intros A D [M R S]. destruct x as [m r s]. cbn [shr_m shr_r shr_s] in *. subst m r s.
  rewrite shr_1_half by (apply Z.div_pos; lia). destruct (halve num den D) as [E1 E2].
  pose proof (Z.mod_pos_bound num den D) as B. set (q := num / den) in *. set (k := num mod den) in *.
  assert (O : q mod 2 = if Z.odd q then 1 else 0) by apply Zmod_odd.
  assert (O2 : num mod (den * 2) = if Z.odd q then den + k else k) by (rewrite E2, O; destruct (Z.odd q); lia).
  constructor; cbn [shr_m shr_r shr_s].
  - symmetry. exact E1.
  - rewrite O2. destruct (Z.odd q); symmetry; [apply Z.leb_le|apply Z.leb_gt]; lia.
  - rewrite O2. destruct (Z.odd q); destruct (Z.leb_spec den (2 * k)), (Z.eqb_spec (2 * k) 0), (Z.eqb_spec (2 * k) den); cbn [orb negb];
      repeat match goal with |- context [(?a =? ?b)] => destruct (Z.eqb_spec a b) end; cbn; auto; lia.
Qed.
Lemma iter_pos_succ {A} (f : A -> A) p : forall x, SpecFloat.iter_pos f (Pos.succ p) x = SpecFloat.iter_pos f p (f x).
Proof.
  assert (C : forall p x, SpecFloat.iter_pos f p (f x) = f (SpecFloat.iter_pos f p x)).
  { clear p. induction p as [p IH|p IH|]; intro x; cbn [SpecFloat.iter_pos]; rewrite ?IH; reflexivity. }
  induction p as [p IH|p IH|]; intro x; cbn [SpecFloat.iter_pos Pos.succ]; auto.
  rewrite !IH. f_equal. symmetry. apply C.
Qed.
Lemma located_iter num p : 0 <= num -> forall den x, 0 < den -> located num den x -> located num (den * 2 ^ Z.pos p) (SpecFloat.iter_pos shr_1 p x).
Proof.
  intro A. induction p as [|p IH] using Pos.peano_ind; intros den x D L.
  - change (2 ^ 1) with 2. apply located_shr; auto.
  - rewrite iter_pos_succ. replace (den * 2 ^ Z.pos (Pos.succ p)) with (den * 2 * 2 ^ Z.pos p).
    + apply IH; [lia|]. apply located_shr; auto.
    + rewrite Pos2Z.inj_succ, Z.pow_succ_r by lia. lia.
Qed.
Lemma located_shift num den x e n : 0 <= num -> 0 < den -> 0 <= n -> located num den x ->
  snd (shr x e n) = e + n /\ located num (den * 2 ^ n) (fst (shr x e n)).
Proof.
  intros A D N L. destruct n as [|p|p]; [|split; [reflexivity|apply located_iter; auto]|lia].
  cbn [shr fst snd]. change (2 ^ 0) with 1. rewrite Z.mul_1_r, Z.add_0_r. auto.
Qed.

(** ** What rounding chooses *)
Definition rounds (num den q : Z) : Prop := 2 * Z.abs (q * den - num) <= den /\ (2 * Z.abs (q * den - num) = den -> Z.even q = true).
Lemma located_round num den x : 0 <= num -> 0 < den -> located num den x ->
  rounds num den (round_nearest_even (shr_m x) (loc_of_shr_record x)).
Proof.
  intros A D [M R S]. destruct x as [m r s]. cbn [shr_m shr_r shr_s loc_of_shr_record] in *. subst m r s. unfold rounds.
  pose proof (Z.mod_pos_bound num den D) as B. pose proof (Z.div_mod num den ltac:(lia)) as E. set (q := num / den) in *. set (k := num mod den) in *.
  assert (X0 : q * den - num = - k) by lia. assert (X1 : (q + 1) * den - num = den - k) by lia.
  destruct (Z.leb_spec den (2 * k)) as [L|L], (Z.eqb_spec (2 * k) 0) as [Z0|Z0], (Z.eqb_spec (2 * k) den) as [Z1|Z1]; cbn [orb negb round_nearest_even]; try lia.
  - destruct (Z.even q) eqn:EV.
    + rewrite X0. split; [lia|auto].
    + rewrite X1. split; [lia|]. intros _. rewrite Z.even_add, EV. reflexivity.
Qed.

(** ** [binary_round_aux] *)
Lemma digits_bounds m : 0 < m -> 2 ^ (Zdigits2 m - 1) <= m < 2 ^ Zdigits2 m.
Proof.
  intro H. destruct m as [|p|p]; try lia. cbn [Zdigits2]. rewrite digits2_log2. pose proof (Z.log2_spec (Z.pos p) ltac:(lia)).
  replace (Z.log2 (Z.pos p) + 1 - 1) with (Z.log2 (Z.pos p)) by lia. rewrite Z.add_1_r. exact H0.
Qed.
Lemma digits_unique m d : 0 < m -> 0 < d -> 2 ^ (d - 1) <= m < 2 ^ d -> Zdigits2 m = d.
Proof.
  intros H D B. destruct m as [|p|p]; try lia. cbn [Zdigits2]. rewrite digits2_log2. rewrite (Z.log2_unique (Z.pos p) (d - 1)); [lia|lia|].
  replace (Z.succ (d - 1)) with d by lia. exact B.
Qed.
Notation fexp64 := (fexp 53 1024).
Definition packed (s : bool) (q e : Z) : spec_float :=
  match q with
  | Z0 => S754_zero s
  | Zpos m => if e <=? 971 then S754_finite s m e else S754_infinity s
  | Zneg _ => S754_nan
  end.
(** The exponent [E] of the result and its mantissa [q]; a mantissa of 2^53 is normalised. *)
Lemma round_aux s num den m e l : 0 < num -> 0 < den -> 0 < m -> located num den (shr_record_of_loc m l) -> 
  let E := fexp64 (Zdigits2 m + e) in e <= E ->
  exists q, rounds num (den * 2 ^ (E - e)) q /\ 0 <= q <= 2 ^ 53 /\ (emin 53 1024 < E -> 2 ^ 52 <= q)
    /\ binary_round_aux 53 1024 s m e l = if q =? 2 ^ 53 then packed s (2 ^ 52) (E + 1) else packed s q E.
Proof.
  intros A D M L E GE. unfold binary_round_aux, shr_fexp at 1. fold E.
  assert (SH := located_shift num den (shr_record_of_loc m l) e (E - e) ltac:(lia) D ltac:(lia) L).
  destruct (shr (shr_record_of_loc m l) e (E - e)) as [x e'] eqn:SX. cbn [fst snd] in SH. destruct SH as [E' LX].
  replace (e + (E - e)) with E in E' by lia. subst e'.
  assert (P : 0 < 2 ^ (E - e)) by (apply Z.pow_pos_nonneg; lia).
  pose proof (located_round num _ x ltac:(lia) (Z.mul_pos_pos _ _ D P) LX) as R. pose proof (loc_m _ _ _ LX) as XM.
  set (q := round_nearest_even (shr_m x) (loc_of_shr_record x)) in *.
  assert (ML : m = num / den). { pose proof (loc_m _ _ _ L) as X. destruct l as [|[]]; exact X. }
  assert (XM' : shr_m x = m / 2 ^ (E - e)). { rewrite XM, ML, Z.div_div by lia. reflexivity. }
  pose proof (digits_bounds m M) as DB.
  assert (DP : 1 <= Zdigits2 m) by (destruct m; try lia; cbn [Zdigits2]; lia).
  assert (QB : shr_m x <= q <= shr_m x + 1).
  { unfold q, round_nearest_even. destruct (loc_of_shr_record x) as [|[]]; try lia. destruct (Z.even (shr_m x)); lia. }
  assert (EM : emin 53 1024 <= E /\ Zdigits2 m + e - 53 <= E /\ (E = Zdigits2 m + e - 53 \/ E = emin 53 1024)) by (unfold E, fexp; lia).
  destruct EM as (EM1 & EM2 & EM3).
  assert (UP : shr_m x < 2 ^ 53).
  { rewrite XM'. apply Z.div_lt_upper_bound; [lia|]. rewrite <- Z.pow_add_r by lia. eapply Z.lt_le_trans; [apply DB|]. apply Z.pow_le_mono_r; lia. }
  assert (LO : emin 53 1024 < E -> 2 ^ 52 <= shr_m x).
  { intro X. rewrite XM'. apply Z.div_le_lower_bound; [lia|]. rewrite <- Z.pow_add_r by lia. eapply Z.le_trans; [|apply DB]. apply Z.pow_le_mono_r; lia. }
  assert (NN : 0 <= shr_m x) by (rewrite XM'; apply Z.div_pos; lia).
  exists q. splits; auto; try lia.
  destruct (Z.eqb_spec q (2 ^ 53)) as [EQ|NE].
  - unfold shr_fexp. rewrite EQ. assert (Zdigits2 (2 ^ 53) = 54) as -> by (vm_compute; reflexivity).
    replace (fexp64 (54 + E) - E) with 1 by (unfold fexp; lia).
    cbn [shr]. change (SpecFloat.iter_pos shr_1 1 (shr_record_of_loc (2 ^ 53) loc_Exact)) with (Build_shr_record (2 ^ 52) false false). reflexivity.
  - assert (X : fexp64 (Zdigits2 q + E) - E <= 0).
    { destruct (Z.eq_dec q 0) as [->|Nq]; [cbn [Zdigits2]; unfold fexp; lia|].
      assert (Zdigits2 q <= 53); [|unfold fexp; lia]. pose proof (digits_bounds q ltac:(lia)) as QD.
      destruct (Z.le_gt_cases (Zdigits2 q) 53); auto. assert (2 ^ 53 <= 2 ^ (Zdigits2 q - 1)) by (apply Z.pow_le_mono_r; lia). lia. }
    unfold shr_fexp. assert (SN : forall r e n, n <= 0 -> shr r e n = (r, e)) by (intros r0 e0 n0 Hn; destruct n0; try reflexivity; lia).
    rewrite SN by exact X. cbn [shr_record_of_loc shr_m]. unfold packed. destruct q as [|p|p]; try lia; reflexivity.
Qed.


(** ** Integers to floats *)
Lemma located_exact z : 0 <= z -> located z 1 (shr_record_of_loc z loc_Exact).
Proof.
  intro H. constructor; cbn [shr_record_of_loc shr_m shr_r shr_s].
  - symmetry. apply Z.div_1_r.
  - rewrite Z.mod_1_r. reflexivity.
  - rewrite Z.mod_1_r. reflexivity.
Qed.
Lemma rounds_near D z q k : 0 < D -> rounds z D q -> Z.abs (q * D - z) <= Z.abs (k * D - z) /\
  (k <> q -> Z.abs (k * D - z) = Z.abs (q * D - z) -> Z.even q = true /\ Z.abs (k * D - q * D) = D).
Proof.
  intros P [R1 R2]. destruct (Z.eq_dec k q) as [->|NE]; [split; [lia|intro X; congruence]|].
  assert (G : D <= Z.abs (k * D - q * D)).
  { rewrite <- Z.mul_sub_distr_r, Z.abs_mul, (Z.abs_eq D) by lia. assert (1 <= Z.abs (k - q)) by lia. nia. }
  split; [lia|]. intros _ T. split; [apply R2; lia|lia].
Qed.
Lemma near_pos E z q : 0 <= E <= 970 -> 2 ^ (52 + E) <= z < 2 ^ (53 + E) -> 2 ^ 52 <= q <= 2 ^ 53 -> rounds z (2 ^ E) q ->
  nearest_double z (q * 2 ^ E).
Proof.
  intros HE ZB QB R. assert (P : 0 < 2 ^ E) by (apply Z.pow_pos_nonneg; lia).
  assert (K52 : 2 ^ (52 + E) = 2 ^ 52 * 2 ^ E) by (apply Z.pow_add_r; lia).
  assert (BIG : forall y, double y -> 2 ^ (52 + E) <= y -> exists k, y = k * 2 ^ E).
  { intros y (m & e & M & [L _] & ->) G. assert (E <= e).
    { destruct (Z.le_gt_cases E e) as [|X]; auto. exfalso.
      assert (B1 : 2 ^ e <= 2 ^ (E - 1)) by (apply Z.pow_le_mono_r; lia).
      assert (B2 : 2 ^ (53 + (E - 1)) = 2 ^ 53 * 2 ^ (E - 1)) by (apply Z.pow_add_r; lia).
      replace (53 + (E - 1)) with (52 + E) in B2 by lia. assert (0 < 2 ^ e) by (apply Z.pow_pos_nonneg; lia).
      assert (m * 2 ^ e < 2 ^ 53 * 2 ^ e) by nia. nia. }
    exists (m * 2 ^ (e - E)). rewrite <- Z.mul_assoc, <- Z.pow_add_r by lia. f_equal. f_equal. lia. }
  assert (SMALL : forall y, y < 2 ^ (52 + E) -> Z.abs (q * 2 ^ E - z) < Z.abs (y - z)).
  { intros y L. pose proof (rounds_near _ _ _ (2 ^ 52) P R) as [N _]. lia. }
  split; [|split].
  - destruct (Z.eq_dec q (2 ^ 53)) as [->|NE].
    + exists (2 ^ 52), (E + 1). splits; try lia. rewrite Z.pow_add_r by lia. lia.
    + exists q, E. splits; lia.
  - intros y Y. destruct (Z.lt_ge_cases y (2 ^ (52 + E))) as [L|L]; [specialize (SMALL y L); lia|].
    destruct (BIG y Y L) as [k ->]. apply (rounds_near _ _ _ k P R).
  - intros y Y NE T. destruct (Z.lt_ge_cases y (2 ^ (52 + E))) as [L|L]; [specialize (SMALL y L); lia|].
    destruct (BIG y Y L) as [k ->]. exists q, E. destruct (rounds_near _ _ _ k P R) as [_ N]. destruct N as [N1 N2]; auto.
    + intros ->. apply NE. reflexivity.
    + splits; auto; lia.
Qed.
Lemma double_opp r : double r -> double (- r).
Proof. intros (m & e & M & L & ->). exists (- m), e. splits; lia. Qed.
Lemma nearest_opp z r : nearest_double z r -> nearest_double (- z) (- r).
Proof.
  intros (D & N & T). split; [|split].
  - apply double_opp, D.
  - intros y Y. apply double_opp in Y. specialize (N _ Y). lia.
  - intros y Y NE E. apply double_opp in Y. destruct (T _ Y) as (m & e & A & B & C & F); try lia.
    exists (- m), e. splits; auto; try lia. rewrite Z.even_opp. exact B.
Qed.
Definition sgn (s : bool) (z : Z) : Z := if s then - z else z.
Lemma binary_round_int s p : 2 ^ 53 <= Z.pos p < 2 ^ 1000 ->
  exists r, float_is (binary_round 53 1024 s p 0) (sgn s r) /\ nearest_double (Z.pos p) r.
Proof.
  intro B. unfold binary_round.
  pose proof (digits_bounds (Z.pos p) ltac:(lia)) as DB. cbn [Zdigits2] in DB. set (d := Z.pos (digits2_pos p)) in *.
  assert (D1 : 54 <= d). { destruct (Z.le_gt_cases 54 d); auto. assert (2 ^ d <= 2 ^ 53) by (apply Z.pow_le_mono_r; lia). lia. }
  assert (D2 : d <= 1000). { destruct (Z.le_gt_cases d 1000) as [|X]; auto. assert (2 ^ 1000 <= 2 ^ (d - 1)) by (apply Z.pow_le_mono_r; lia). exfalso. apply (Z.lt_irrefl (2 ^ 1000)). eapply Z.le_lt_trans; [eassumption|]. eapply Z.le_lt_trans; [apply DB|apply B]. }
  assert (FE : fexp64 (d + 0) = d - 53) by (unfold fexp, emin; lia).
  rewrite FE. assert (SA : shl_align p 0 (d - 53) = (p, 0)) by (unfold shl_align; destruct (d - 53 - 0) eqn:X; try reflexivity; lia).
  rewrite SA. destruct (round_aux s (Z.pos p) 1 (Z.pos p) 0 loc_Exact) as (q & R & Q1 & Q2 & ->); try lia.
  { apply located_exact. lia. }
  { cbn [Zdigits2]. fold d. rewrite FE. lia. }
  cbn [Zdigits2] in *. fold d in R, Q2 |- *. rewrite FE in *. rewrite Z.mul_1_l, Z.sub_0_r in R.
  assert (Q3 : 2 ^ 52 <= q) by (apply Q2; unfold emin; lia).
  exists (q * 2 ^ (d - 53)). split.
  - destruct (Z.eqb_spec q (2 ^ 53)) as [->|NE].
    + unfold packed. change (2 ^ 52) with (Z.pos 4503599627370496). destruct (Z.leb_spec (d - 53 + 1) 971) as [_|X]; [|lia].
      cbn [float_is]. left. split; [lia|]. rewrite Z.pow_add_r by lia. unfold sgn. destruct s; lia.
    + unfold packed. destruct q as [|qp|qp]; try lia. destruct (Z.leb_spec (d - 53) 971) as [_|X]; [|lia].
      cbn [float_is]. left. split; [lia|]. unfold sgn. destruct s; lia.
  - apply near_pos; auto; try lia. replace (52 + (d - 53)) with (d - 1) by lia. replace (53 + (d - 53)) with d by lia. exact DB.
Qed.
Lemma int_as_f64_nearest z : Z.abs z < 2 ^ 1000 -> exists r, float_is (int_as_f64 z) r /\ nearest_double z r.
Proof.
  intro B. destruct (Z.lt_ge_cases (Z.abs z) (2 ^ 53)) as [L|L].
  - exists z. split; [apply int_as_f64_exact; lia|]. split; [|split].
    + exists z, 0. splits; lia.
    + intros. lia.
    + intros. lia.
  - unfold int_as_f64, binary_normalize. destruct z as [|p|p]; try lia.
    + destruct (binary_round_int false p ltac:(lia)) as (r & F & N). exists r. auto.
    + destruct (binary_round_int true p ltac:(lia)) as (r & F & N). exists (- r). split; [exact F|].
      apply nearest_opp in N. exact N.
Qed.
Lemma to_f64_nearest f z : field_ok f -> integer_field f z -> exists x r, to_f64 f = Ok x /\ float_is x r /\ nearest_double z r.
Proof.
  intros OK H. assert (Z.abs z < 2 ^ 1000).
  { assert (Z.abs z < 2 ^ 64) by (destruct H; cbn in OK; unfold u64_ok, i64_ok in OK; lia).
    eapply Z.lt_trans; [eassumption|]. apply Z.pow_lt_mono_r; lia. }
  destruct (int_as_f64_nearest z) as (r & F & N); auto. exists (int_as_f64 z), r. split; auto. destruct H; reflexivity.
Qed.


(** ** Conversions outside the range *)
Lemma wrap_ints f z : field_ok f -> integer_field f z ->
  (exists n, to_u64 f = Ok n /\ u64_ok n /\ same_bits z (Z.of_N n)) /\ (exists i, to_i64 f = Ok i /\ i64_ok i /\ same_bits z i).
Proof.
  intros OK H.
  assert (U : forall z, u64_ok (wrap_u64 z) /\ same_bits z (Z.of_N (wrap_u64 z))).
  { intro y. unfold wrap_u64, u64_ok, same_bits. pose proof (Z.mod_pos_bound y (2 ^ 64) ltac:(lia)). split; [lia|].
    exists (- (y / 2 ^ 64)). rewrite Z2N.id by lia. rewrite Z.mod_eq by lia. lia. }
  assert (I : forall z, i64_ok (wrap_i64 z) /\ same_bits z (wrap_i64 z)).
  { intro y. unfold wrap_i64, i64_ok, same_bits. pose proof (Z.mod_pos_bound (y + 2 ^ 63) (2 ^ 64) ltac:(lia)). split; [lia|].
    exists (- ((y + 2 ^ 63) / 2 ^ 64)). rewrite Z.mod_eq by lia. lia. }
  assert (K : forall z, same_bits z z) by (intro y; exists 0; lia).
  destruct H; cbn [to_u64 to_i64]; split; eexists; (split; [reflexivity|]); auto; split; auto; exact OK.
Qed.
Lemma float_saturates x z : truncates x z ->
  (exists n, to_u64 (F64 x) = Ok n /\ saturates 0 (2 ^ 64 - 1) z (Z.of_N n)) /\
  (exists i, to_i64 (F64 x) = Ok i /\ saturates (- 2 ^ 63) (2 ^ 63 - 1) z i).
Proof.
  intro T. cbn [to_u64 to_i64]. split; eexists; (split; [reflexivity|]).
  - destruct x as [s|s| |s m e]; try (cbn [truncates] in T; subst; unfold saturates; cbn [f64_as_u64]; lia); [cbn [truncates] in T; tauto..|].
    pose proof (truncates_mag _ _ _ _ T) as M. pose proof (trunc_mag_nonneg m e) as NN. destruct T as [S _].
    unfold saturates. cbn [f64_as_u64]. destruct s; [lia|]. rewrite Z2N.id by lia. lia.
  - destruct x as [s|s| |s m e]; try (cbn [truncates] in T; subst; unfold saturates; cbn [f64_as_i64]; lia); [cbn [truncates] in T; tauto..|].
    pose proof (truncates_mag _ _ _ _ T) as M. pose proof (trunc_mag_nonneg m e) as NN. destruct T as [S _].
    unfold saturates. cbn [f64_as_i64]. destruct s; lia.
Qed.
