(** Proofs about dates: the computed calendar is the Gregorian one, and the texts determine the times. *)
From Coq Require Import String Ascii NArith ZArith List Bool Lia.
From Verif Require Import Base.Arith Base.Str Model.Field Model.Date Spec.DateSpec.
Local Open Scope Z_scope.

Ltac zdm := Z.div_mod_to_equations; lia.

(** *** a closed form of the day number *)
Definition years_before (y : Z) : Z := 365 * (y - 1970) + (y - 1) / 4 - (y - 1) / 100 + (y - 1) / 400 - 477.
Definition leap_day (y : Z) : Z := if leap y then 1 else 0.
Definition days_before (y m : Z) : Z :=
  match m with
  | 1 => 0 | 2 => 31 | 3 => 59 + leap_day y | 4 => 90 + leap_day y | 5 => 120 + leap_day y | 6 => 151 + leap_day y
  | 7 => 181 + leap_day y | 8 => 212 + leap_day y | 9 => 243 + leap_day y | 10 => 273 + leap_day y | 11 => 304 + leap_day y
  | 12 => 334 + leap_day y | _ => 0
  end.
Definition dn (a : Z * Z * Z) : Z := let '(y, m, d) := a in years_before y + days_before y m + (d - 1).

Lemma leap_cases y : leap_day y = 0 /\ leap y = false \/ leap_day y = 1 /\ leap y = true.
Proof. unfold leap_day. destruct (leap y); auto. Qed.
Lemma year_step y : years_before (y + 1) = years_before y + 365 + leap_day y.
Proof.
  unfold years_before, leap_day, leap. replace (y + 1 - 1) with y by lia.
  destruct (y mod 4 =? 0) eqn:E4, (y mod 100 =? 0) eqn:E100, (y mod 400 =? 0) eqn:E400; cbn [andb orb negb]; zdm.
Qed.
Ltac months m := assert (m = 1 \/ m = 2 \/ m = 3 \/ m = 4 \/ m = 5 \/ m = 6 \/ m = 7 \/ m = 8 \/ m = 9 \/ m = 10 \/ m = 11 \/ m = 12)
  as [->|[->|[->|[->|[->|[->|[->|[->|[->|[->|[->| ->]]]]]]]]]]] by lia.

Lemma month_len_step y m : 1 <= m < 12 -> days_before y (m + 1) = days_before y m + month_len y m.
Proof.
  intros H. assert (Hm : 1 <= m <= 12) by lia. months m; try lia; unfold days_before, month_len, leap_day; destruct (leap y); reflexivity.
Qed.
Lemma month_len_last y : days_before y 12 + month_len y 12 = 365 + leap_day y.
Proof. unfold days_before, month_len, leap_day. destruct (leap y); reflexivity. Qed.
Lemma month_len_pos y m : 28 <= month_len y m <= 31.
Proof. unfold month_len. destruct (m =? 2); [destruct (leap y); lia|]. destruct (_ || _); lia. Qed.

Definition valid3 (a : Z * Z * Z) : Prop := valid_date (fst (fst a)) (snd (fst a)) (snd a).
Lemma next_valid a b : valid3 a -> next_day a b -> valid3 b /\ dn b = dn a + 1.
Proof.
  destruct a as [[y m] d]. intros [Hm Hd] ->. cbn [fst snd] in *.
  destruct (d <? month_len y m) eqn:E; [apply Z.ltb_lt in E | apply Z.ltb_ge in E].
  - split; [split; cbn [fst snd]; lia | cbn [dn]; lia].
  - destruct (m <? 12) eqn:E2; [apply Z.ltb_lt in E2 | apply Z.ltb_ge in E2].
    + split; [split; cbn [fst snd]; [lia|]; pose proof (month_len_pos y (m + 1)); lia|].
      cbn [dn]. rewrite month_len_step by lia. lia.
    + assert (m = 12) as -> by lia. split; [split; cbn [fst snd]; [lia|]; pose proof (month_len_pos (y + 1) 1); lia|].
      cbn [dn]. rewrite year_step. pose proof (month_len_last y) as H.
      replace (days_before (y + 1) 1) with 0 by reflexivity. lia.
Qed.
Lemma number_dn n a : day_number n a -> valid3 a /\ dn a = n.
Proof.
  induction 1 as [|n a b H [IH E] N|n a b H [IH E] N V].
  - split; [vm_compute; intuition discriminate | reflexivity].
  - destruct (next_valid _ _ IH N) as [V' E']. split; [exact V' | lia].
  - destruct (next_valid _ _ V N) as [V' E']. split; [exact V | lia].
Qed.
Lemma prev_ex a : valid3 a -> exists b, next_day b a /\ valid3 b.
Proof.
  destruct a as [[y m] d]. intros [Hm Hd]. cbn [fst snd] in *.
  destruct (Z.eq_dec d 1) as [->|Hn].
  - destruct (Z.eq_dec m 1) as [->|Hm1].
    + exists (y - 1, 12, 31). split; [|split; cbn [fst snd]; [lia|]; change (month_len (y - 1) 12) with 31; lia].
      unfold next_day. replace (31 <? month_len (y - 1) 12) with false by reflexivity. replace (12 <? 12) with false by reflexivity.
      f_equal. f_equal. lia.
    + exists (y, m - 1, month_len y (m - 1)). pose proof (month_len_pos y (m - 1)). split; [|split; cbn [fst snd]; lia].
      unfold next_day. rewrite Z.ltb_irrefl. replace (m - 1 <? 12) with true by (symmetry; apply Z.ltb_lt; lia).
      f_equal. f_equal. lia.
  - exists (y, m, d - 1). split; [|split; cbn [fst snd]; lia].
    unfold next_day. replace (d - 1 <? month_len y m) with true by (symmetry; apply Z.ltb_lt; lia). f_equal. lia.
Qed.
Lemma number_ex n : exists a, day_number n a.
Proof.
  pattern n. apply Z.bi_induction.
  - intros x y ->. reflexivity.
  - exists (1970, 1, 1). constructor.
  - intros k. split.
    + intros [[[y m] d] H].
      eexists. rewrite <- Z.add_1_r. eapply day_after; [exact H | reflexivity].
    + intros [a H]. destruct (number_dn _ _ H) as [V _]. destruct (prev_ex a V) as (b & N & Vb).
      exists b. replace k with (Z.succ k - 1) by lia. eapply day_before; eauto.
Qed.

(** *** valid dates are determined by their number *)
Lemma years_mono y k : 0 <= k -> years_before y + 365 * k <= years_before (y + k).
Proof.
  intros Hk. pattern k. apply natlike_ind; [replace (y + 0) with y by lia; lia | | exact Hk].
  intros x Hx IH. cbv beta in *. replace (y + Z.succ x) with ((y + x) + 1) by lia. rewrite year_step.
  destruct (leap_cases (y + x)) as [[-> _]|[-> _]]; lia.
Qed.
Lemma month_in_year y m : 1 <= m <= 12 -> 0 <= days_before y m /\ days_before y m + month_len y m <= 365 + leap_day y.
Proof.
  intros Hm. months m; unfold days_before, month_len, leap_day; destruct (leap y); vm_compute; split; discriminate.
Qed.
Lemma day_in_year y m d : valid_date y m d -> years_before y <= dn (y, m, d) < years_before (y + 1).
Proof.
  intros [Hm Hd]. rewrite year_step. cbn [dn]. pose proof (month_in_year y m Hm). lia.
Qed.
Lemma dn_inj a b : valid3 a -> valid3 b -> dn a = dn b -> a = b.
Proof.
  destruct a as [[y m] d], b as [[y' m'] d']. unfold valid3. cbn [fst snd]. intros V V' E.
  pose proof (day_in_year _ _ _ V) as A. pose proof (day_in_year _ _ _ V') as B. rewrite E in A.
  assert (y = y') as <-.
  { destruct (Z.lt_trichotomy y y') as [L|[L|L]]; [|exact L|]; exfalso.
    - pose proof (years_mono (y + 1) (y' - (y + 1)) ltac:(lia)) as M. replace (y + 1 + (y' - (y + 1))) with y' in M by lia. lia.
    - pose proof (years_mono (y' + 1) (y - (y' + 1)) ltac:(lia)) as M. replace (y' + 1 + (y - (y' + 1))) with y in M by lia. lia. }
  clear A B. destruct V as [Hm Hd], V' as [Hm' Hd']. cbn [dn] in E.
  assert (mono : forall a k, 0 <= k -> 1 <= a -> a + k <= 12 -> 0 < k -> days_before y a + month_len y a <= days_before y (a + k)).
  { intros a k Hk Ha. pattern k. apply natlike_ind; [lia | | exact Hk].
    intros x Hx IH L _. cbv beta in *. replace (a + Z.succ x) with ((a + x) + 1) by lia. rewrite month_len_step by lia.
    destruct (Z.eq_dec x 0) as [->|Nx]; [rewrite Z.add_0_r; lia|].
    specialize (IH ltac:(lia) ltac:(lia)). pose proof (month_len_pos y (a + x)). lia. }
  assert (m = m') as <-.
  { destruct (Z.lt_trichotomy m m') as [L|[L|L]]; [|exact L|]; exfalso.
    - pose proof (mono m (m' - m) ltac:(lia) ltac:(lia) ltac:(lia) ltac:(lia)) as M. replace (m + (m' - m)) with m' in M by lia. lia.
    - pose proof (mono m' (m - m') ltac:(lia) ltac:(lia) ltac:(lia) ltac:(lia)) as M. replace (m' + (m - m')) with m in M by lia. lia. }
  f_equal. lia.
Qed.

(** *** the computed calendar *)
Definition valid_b (a : Z * Z * Z) : bool :=
  let '(y, m, d) := a in (1 <=? m) && (m <=? 12) && (1 <=? d) && (d <=? month_len y m).
Definition check_day (n : Z) : bool := let a := civil n in valid_b a && (dn a =? n).
Fixpoint check_from (k : nat) (n : Z) : bool :=
  match k with O => true | S k => check_day n && check_from k (n + 1) end.
Lemma check_from_ok k n : check_from k n = true -> forall i, n <= i < n + Z.of_nat k -> check_day i = true.
Proof.
  revert n. induction k as [|k IH]; intros n H i Hi; [lia|]. cbn in H. apply andb_true_iff in H as [H1 H2].
  destruct (Z.eq_dec i n) as [->|Hn]; [exact H1 | apply (IH _ H2); lia].
Qed.
Fixpoint check_blocks (k b : nat) (n : Z) : bool :=
  match k with O => true | S k => check_from b n && check_blocks k b (n + Z.of_nat b) end.
Lemma check_blocks_ok k b n : check_blocks k b n = true -> forall i, n <= i < n + Z.of_nat k * Z.of_nat b -> check_day i = true.
Proof.
  revert n. induction k as [|k IH]; intros n H i Hi; [lia|]. cbn [check_blocks] in H. apply andb_true_iff in H as [H1 H2].
  destruct (Z_lt_ge_dec i (n + Z.of_nat b)) as [L|G]; [apply (check_from_ok _ _ H1); lia | apply (IH _ H2); lia].
Qed.
Lemma check_era i : -719468 <= i < -719468 + 146097 -> check_day i = true.
Proof.
  intros H. refine (check_blocks_ok 383 382 (-719468) _ i _); [vm_cast_no_check (eq_refl true) | cbn [Z.of_nat]; lia].
Qed.
Lemma leap_400 y k : leap (y + 400 * k) = leap y.
Proof.
  unfold leap. replace ((y + 400 * k) mod 4) with (y mod 4) by zdm. replace ((y + 400 * k) mod 100) with (y mod 100) by zdm.
  replace ((y + 400 * k) mod 400) with (y mod 400) by zdm. reflexivity.
Qed.
Lemma years_400 y k : years_before (y + 400 * k) = years_before y + 146097 * k.
Proof. unfold years_before. zdm. Qed.
Lemma civil_shift i k : civil (i + 146097 * k) = let '(y, m, d) := civil i in (y + 400 * k, m, d).
Proof.
  unfold civil. replace (i + 146097 * k + 719468) with (i + 719468 + k * 146097) by lia.
  rewrite Z.div_add, Z.mod_add by lia. f_equal. f_equal. lia.
Qed.
Lemma civil_ok n : valid3 (civil n) /\ dn (civil n) = n.
Proof.
  pose (k := (n + 719468) / 146097). pose (i := n - 146097 * k).
  assert (Hi : -719468 <= i < -719468 + 146097) by (subst i k; zdm).
  replace n with (i + 146097 * k) by lia. clearbody i k. rewrite civil_shift.
  pose proof (check_era i Hi) as C. unfold check_day in C. destruct (civil i) as [[y m] d].
  apply andb_true_iff in C as [V E]. apply Z.eqb_eq in E. unfold valid_b in V. rewrite !andb_true_iff, !Z.leb_le in V.
  assert (Hl : month_len (y + 400 * k) m = month_len y m) by (unfold month_len; rewrite leap_400; reflexivity).
  split; [split; cbn [fst snd]; rewrite ?Hl; lia|].
  cbn [dn] in *. rewrite years_400. replace (days_before (y + 400 * k) m) with (days_before y m); [lia|].
  unfold days_before, leap_day. rewrite leap_400. reflexivity.
Qed.
(** The date of a day is the one the calendar gives it. *)
Lemma civil_number n a : day_number n a <-> a = civil n.
Proof.
  assert (U : forall a, day_number n a -> a = civil n).
  { intros b H. destruct (number_dn _ _ H) as [V E], (civil_ok n) as [V' E']. apply dn_inj; auto. congruence. }
  split; [apply U|]. intros ->. destruct (number_ex n) as [b H]. rewrite <- (U _ H). exact H.
Qed.

(** *** numbers with a fixed number of digits *)
Lemma digit_of_inj a b d : digit_of a = Some d -> digit_of b = Some d -> a = b.
Proof.
  unfold digit_of. destruct (_ && _) eqn:E; [|discriminate]. destruct ((48 <=? Z.of_N (N_of_ascii b)) && _) eqn:E'; [|discriminate].
  intros H H'. assert (Z.of_N (N_of_ascii a) = Z.of_N (N_of_ascii b)) as X by congruence || (injection H; injection H'; lia).
  apply N2Z.inj in X. rewrite <- (ascii_N_embedding a), <- (ascii_N_embedding b), X. reflexivity.
Qed.
Lemma digit_of_range a d : digit_of a = Some d -> 0 <= d <= 9.
Proof.
  unfold digit_of. destruct (_ && _) eqn:E; [|discriminate]. apply andb_true_iff in E as [A B]. apply Z.leb_le in A, B.
  intros H; injection H; lia.
Qed.
Lemma number_range w s n : number w s n -> 0 <= n < 10 ^ Z.of_nat w.
Proof.
  induction 1 as [|w s n a d H IH D]; [cbn; lia|]. apply digit_of_range in D.
  rewrite Nat2Z.inj_succ, Z.pow_succ_r by lia. lia.
Qed.
Lemma str_length_app s t : String.length (s ++ t) = (String.length s + String.length t)%nat.
Proof. induction s as [|a s IH]; cbn; [reflexivity | f_equal; exact IH]. Qed.
Lemma number_length w s n : number w s n -> String.length s = w.
Proof. induction 1 as [|w s n a d H IH D]; [reflexivity|]. rewrite str_length_app, IH. cbn. lia. Qed.
Lemma number_text w s s' n : number w s n -> number w s' n -> s = s'.
Proof.
  intros H. revert s'. induction H as [|w s n a d H IH D]; intros s' H'; [inversion H'; reflexivity|].
  remember (S w) as w' eqn:Ew. remember (10 * n + d) as n' eqn:En. destruct H' as [|w' s' n' a' d' H' D']; [discriminate|].
  injection Ew as ->. pose proof (digit_of_range _ _ D). pose proof (digit_of_range _ _ D').
  assert (n = n') as <- by lia. assert (d' = d) as -> by lia. rewrite (IH _ H'), (digit_of_inj _ _ _ D D'). reflexivity.
Qed.
Lemma app_inj_length s t s' t' : (s ++ t = s' ++ t')%string -> String.length s = String.length s' -> s = s' /\ t = t'.
Proof.
  revert s'. induction s as [|a s IH]; intros [|b s'] E L; cbn in *; try lia; [auto|].
  injection E as -> E. destruct (IH s' E ltac:(lia)) as [-> ->]. auto.
Qed.
Lemma number_value w w' s n n' : number w s n -> number w' s n' -> n = n'.
Proof.
  intros H. revert w' n'. induction H as [|w s n a d H IH D]; intros w' n' H'.
  - remember ""%string as s eqn:Es. destruct H' as [|w' s' n' a' d' H' D']; [reflexivity | destruct s'; discriminate].
  - remember (s ++ String a "")%string as s0 eqn:Es. destruct H' as [|w' s' n' a' d' H' D']; [destruct s; discriminate|].
    assert (L : String.length s' = String.length s).
    { apply (f_equal String.length) in Es. rewrite !str_length_app in Es. cbn in Es. lia. }
    destruct (app_inj_length _ _ _ _ Es L) as [-> E]. injection E as ->. rewrite (IH _ _ H'). congruence.
Qed.
Lemma digit_char_of d : (d < 10)%N -> digit_of (digit_char d) = Some (Z.of_N d).
Proof.
  intros H. unfold digit_of, digit_char. replace (d <? 10)%N with true by (symmetry; apply N.ltb_lt; lia).
  rewrite N_ascii_embedding by lia. replace (_ && _) with true by lia. f_equal. lia.
Qed.
Lemma digits_number w n : (n < 10 ^ N.of_nat w)%N -> number w (digits w n) (Z.of_N n).
Proof.
  revert n. induction w as [|w IH]; intros n H.
  - cbn in H. assert (n = 0%N) as -> by lia. constructor.
  - rewrite Nat2N.inj_succ, N.pow_succ_r' in H. cbn [digits].
    pose proof (N.mod_lt n 10 ltac:(lia)) as M. pose proof (N.div_mod n 10 ltac:(lia)) as E.
    replace (Z.of_N n) with (10 * Z.of_N (n / 10) + Z.of_N (n mod 10)) by lia.
    constructor; [apply IH; lia | apply digit_char_of; exact M].
Qed.
Lemma zdigits_number w z : 0 <= z < 10 ^ Z.of_nat w -> number w (zdigits w z) z.
Proof.
  intros H. unfold zdigits. rewrite <- (Z2N.id z) at 2 by lia. apply digits_number.
  apply N2Z.inj_lt. rewrite N2Z.inj_pow, Z2N.id, nat_N_Z by lia. cbn [Z.of_N]. lia.
Qed.

(** *** the number of decimal digits *)
Lemma print_length fuel n tail : (n < 10 ^ N.of_nat fuel)%N -> (0 < fuel)%nat ->
  exists k, String.length (print_digits fuel 10 n tail) = (S k + String.length tail)%nat /\
    (n < 10 ^ N.of_nat (S k))%N /\ (k = 0%nat \/ (10 ^ N.of_nat k <= n)%N).
Proof.
  revert n tail. induction fuel as [|f IH]; intros n tail Hn Hf; [lia|]. cbn [print_digits].
  destruct (N.ltb_spec n 10) as [L|G].
  - exists 0%nat. splits; [cbn; lia | cbn; lia | auto].
  - rewrite Nat2N.inj_succ, N.pow_succ_r' in Hn. pose proof (N.mod_lt n 10 ltac:(lia)) as M. pose proof (N.div_mod n 10 ltac:(lia)) as E.
    assert (0 < f)%nat by (destruct f; [cbn in Hn; lia | lia]).
    destruct (IH (n / 10)%N (String (digit_char (n mod 10)) tail) ltac:(lia) ltac:(lia)) as (k & A & B & C).
    exists (S k). splits.
    + rewrite A. cbn [String.length]. lia.
    + rewrite (Nat2N.inj_succ (S k)), N.pow_succ_r'. lia.
    + right. rewrite Nat2N.inj_succ, N.pow_succ_r'. destruct C as [->|C]; [cbn; lia|]. lia.
Qed.
Lemma dec_length n : exists k, String.length (dec n) = S k /\ Z.of_N n < 10 ^ Z.of_nat (S k) /\ (k = 0%nat \/ 10 ^ Z.of_nat k <= Z.of_N n).
Proof.
  destruct (print_length (print_fuel n) n "" (print_fuel_ok 10 n ltac:(lia))) as (k & A & B & C); [unfold print_fuel; lia|].
  exists k. splits.
  - unfold dec. rewrite A. cbn. lia.
  - apply N2Z.inj_lt in B. rewrite N2Z.inj_pow, nat_N_Z in B. exact B.
  - destruct C as [C|C]; [auto|]. right. apply N2Z.inj_le in C. rewrite N2Z.inj_pow, nat_N_Z in C. exact C.
Qed.

(** *** years *)
Definition abs_width (y : Z) : nat := Nat.max 4 (String.length (dec (Z.abs_N y))).
Lemma abs_width_ok y : number (abs_width y) (digits (abs_width y) (Z.abs_N y)) (Z.abs y) /\
  (abs_width y = 4%nat \/ (4 < abs_width y)%nat /\ 10 ^ (Z.of_nat (abs_width y) - 1) <= Z.abs y).
Proof.
  unfold abs_width. destruct (dec_length (Z.abs_N y)) as (k & A & B & C). rewrite N2Z.inj_abs_N in B, C. rewrite A. split.
  - rewrite <- N2Z.inj_abs_N. apply digits_number. apply N2Z.inj_lt. rewrite N2Z.inj_pow, nat_N_Z, N2Z.inj_abs_N. cbn [Z.of_N].
    eapply Z.lt_le_trans; [exact B|]. apply Z.pow_le_mono_r; lia.
  - destruct (Nat.max_spec 4 (S k)) as [[L ->]|[L ->]]; [right|auto]. split; [lia|].
    replace (Z.of_nat (S k) - 1) with (Z.of_nat k) by lia. destruct C as [C|C]; [lia | exact C].
Qed.
Lemma width_unique w w' n : 0 <= n < 10 ^ Z.of_nat w -> n < 10 ^ Z.of_nat w' ->
  (w = 4%nat \/ (4 < w)%nat /\ 10 ^ (Z.of_nat w - 1) <= n) -> (w' = 4%nat \/ (4 < w')%nat /\ 10 ^ (Z.of_nat w' - 1) <= n) -> w = w'.
Proof.
  assert (X : forall a b, n < 10 ^ Z.of_nat a -> 10 ^ (Z.of_nat b - 1) <= n -> (a < b)%nat -> False).
  { intros a b A B L. pose proof (Z.pow_le_mono_r 10 (Z.of_nat a) (Z.of_nat b - 1) ltac:(lia) ltac:(lia)). lia. }
  intros H H' C C'. destruct (Nat.lt_trichotomy w w') as [L|[L|L]]; [exfalso|exact L|exfalso].
  - destruct C' as [C'|[L' C']]; [lia|]. exact (X w w' ltac:(lia) C' L).
  - destruct C as [C|[L' C]]; [lia|]. exact (X w' w ltac:(lia) C L).
Qed.
Lemma year_str_text y : year_text (year_str y) y.
Proof.
  unfold year_str. fold (abs_width y). destruct (abs_width_ok y) as [A B].
  destruct ((0 <=? y) && (y <=? 9999)) eqn:E.
  - apply andb_true_iff in E as [E1 E2]. apply Z.leb_le in E1, E2. left.
    assert (abs_width y = 4%nat) as W.
    { destruct B as [B|[L B]]; [exact B|exfalso].
      pose proof (Z.pow_le_mono_r 10 4 (Z.of_nat (abs_width y) - 1) ltac:(lia) ltac:(lia)) as P. change (10 ^ 4) with 10000 in P. lia. }
    rewrite W in *. rewrite Z.abs_eq in A by lia. exact A.
  - right. exists (abs_width y), (digits (abs_width y) (Z.abs_N y)), (Z.abs y). splits; [exact A | exact B |].
    destruct (y <? 0) eqn:N; [left; apply Z.ltb_lt in N | right; apply Z.ltb_ge in N]; splits; auto; lia.
Qed.
Lemma number_digits w s n : number w s n -> all_chars (fun a => match digit_of a with Some _ => true | None => false end) s = true.
Proof. induction 1 as [|w s n a d H IH D]; [reflexivity|]. rewrite all_chars_app, IH. cbn. rewrite D. reflexivity. Qed.
Lemma year_text_unique s y s' : year_text s y -> year_text s' y -> s = s'.
Proof.
  intros [H|(w & t & n & H & W & C)] [H'|(w' & t' & n' & H' & W' & C')].
  - exact (number_text _ _ _ _ H H').
  - apply number_range in H. change (10 ^ Z.of_nat 4) with 10000 in H. lia.
  - apply number_range in H'. change (10 ^ Z.of_nat 4) with 10000 in H'. lia.
  - assert (n = n') as <- by (destruct C as [(_ & C & ?)|(_ & C & ?)], C' as [(_ & C' & ?)|(_ & C' & ?)]; lia).
    pose proof (number_range _ _ _ H). pose proof (number_range _ _ _ H').
    rewrite (width_unique w w' n ltac:(lia) ltac:(lia) W W') in H. rewrite (number_text _ _ _ _ H H') in C.
    destruct C as [(-> & C & ?)|(-> & C & ?)], C' as [(-> & C' & ?)|(-> & C' & ?)]; auto; lia.
Qed.
Lemma year_text_value s y y' : year_text s y -> year_text s y' -> y = y'.
Proof.
  assert (X : forall w t n c u, number w t n -> t = (String c u) -> digit_of c <> None).
  { intros w t n c u H ->. apply number_digits in H. cbn in H. destruct (digit_of c); [discriminate|discriminate]. }
  assert (M : digit_of "-"%char = None /\ digit_of "+"%char = None) by (split; reflexivity). destruct M as [M P].
  intros [H|(w & t & n & H & W & C)] [H'|(w' & t' & n' & H' & W' & C')].
  - exact (number_value _ _ _ _ _ H H').
  - destruct C' as [(E & _)|(E & _)]; destruct (X _ _ _ _ _ H E); auto.
  - destruct C as [(E & _)|(E & _)]; destruct (X _ _ _ _ _ H' E); auto.
  - destruct C as [(-> & -> & ?)|(-> & -> & ?)], C' as [(E & -> & ?)|(E & -> & ?)]; cbn in E; try discriminate; injection E as <-;
      rewrite (number_value _ _ _ _ _ H H'); reflexivity.
Qed.

(** *** texts of times *)
Lemma time_parts ms : let t := ms mod 86400000 in
  ms = ms / 86400000 * 86400000 + t / 3600000 * 3600000 + t / 60000 mod 60 * 60000 + t / 1000 mod 60 * 1000 + t mod 1000 /\
  0 <= t / 3600000 < 24 /\ 0 <= t / 60000 mod 60 < 60 /\ 0 <= t / 1000 mod 60 < 60 /\ 0 <= t mod 1000 < 1000.
Proof. intros t. subst t. splits; zdm. Qed.
Lemma parts_unique ms days h mi se ml : 0 <= h < 24 -> 0 <= mi < 60 -> 0 <= se < 60 -> 0 <= ml < 1000 ->
  ms = days * 86400000 + h * 3600000 + mi * 60000 + se * 1000 + ml ->
  let t := ms mod 86400000 in
  ms / 86400000 = days /\ t / 3600000 = h /\ t / 60000 mod 60 = mi /\ t / 1000 mod 60 = se /\ t mod 1000 = ml.
Proof.
  intros Hh Hm Hs Hl E t. assert (T : t = h * 3600000 + mi * 60000 + se * 1000 + ml /\ ms / 86400000 = days) by (subst t; zdm).
  destruct T as [T D]. clearbody t. splits; [exact D| | | |]; zdm.
Qed.
Lemma rfc3339_text ms : utc_text (rfc3339 ms) ms.
Proof.
  unfold rfc3339. pose proof (civil_ok (ms / 86400000)) as [V _].
  pose proof (proj2 (civil_number (ms / 86400000) _) eq_refl) as D. destruct (civil (ms / 86400000)) as [[y m] d].
  destruct V as [Vm Vd]. cbn [fst snd] in *. pose proof (month_len_pos y m). destruct (time_parts ms) as (E & Hh & Hm & Hs & Hl).
  assert (P2 : 10 ^ Z.of_nat 2 = 100) by reflexivity. assert (P3 : 10 ^ Z.of_nat 3 = 1000) by reflexivity.
  exists (year_str y), y, (zdigits 2 m), m, (zdigits 2 d), d.
  exists (zdigits 2 (ms mod 86400000 / 3600000)), (ms mod 86400000 / 3600000).
  exists (zdigits 2 (ms mod 86400000 / 60000 mod 60)), (ms mod 86400000 / 60000 mod 60).
  exists (zdigits 2 (ms mod 86400000 / 1000 mod 60)), (ms mod 86400000 / 1000 mod 60).
  exists (zdigits 3 (ms mod 86400000 mod 1000)), (ms mod 86400000 mod 1000), (ms / 86400000).
  splits; try (apply zdigits_number; lia); try lia; [reflexivity | apply year_str_text | split; assumption | exact D].
Qed.
Lemma text_rfc3339 s ms : utc_text s ms -> s = rfc3339 ms.
Proof.
  intros (sy & y & sm & m & sd & d & sh & h & smi & mi & ss & se & sml & ml & days & -> & Y & M & D & H & MI & SE & ML & V & Lh & Lm & Ls & N & E).
  pose proof (number_range _ _ _ H). pose proof (number_range _ _ _ MI). pose proof (number_range _ _ _ SE). pose proof (number_range _ _ _ ML).
  assert (P3 : 10 ^ Z.of_nat 3 = 1000) by reflexivity. assert (P2 : 10 ^ Z.of_nat 2 = 100) by reflexivity.
  destruct (parts_unique ms days h mi se ml ltac:(lia) ltac:(lia) ltac:(lia) ltac:(lia) E) as (Dq & Hq & Mq & Sq & Lq).
  unfold rfc3339. rewrite Dq. apply civil_number in N. rewrite <- N. cbv zeta. rewrite Hq, Mq, Sq, Lq.
  rewrite (year_text_unique _ _ _ Y (year_str_text y)).
  pose proof (number_range _ _ _ M). pose proof (number_range _ _ _ D).
  rewrite (number_text _ _ _ _ M (zdigits_number 2 m ltac:(lia))), (number_text _ _ _ _ D (zdigits_number 2 d ltac:(lia))).
  rewrite (number_text _ _ _ _ H (zdigits_number 2 h ltac:(lia))), (number_text _ _ _ _ MI (zdigits_number 2 mi ltac:(lia))).
  rewrite (number_text _ _ _ _ SE (zdigits_number 2 se ltac:(lia))), (number_text _ _ _ _ ML (zdigits_number 3 ml ltac:(lia))). reflexivity.
Qed.
(** a text tells its time *)
Lemma app_inj_tail_length s t s' t' : (s ++ t = s' ++ t')%string -> String.length t = String.length t' -> s = s' /\ t = t'.
Proof.
  intros E L. apply (app_inj_length _ _ _ _ E). apply (f_equal String.length) in E. rewrite !str_length_app in E. lia.
Qed.
Lemma utc_text_time s a b : utc_text s a -> utc_text s b -> a = b.
Proof.
  intros (sy & y & sm & m & sd & d & sh & h & smi & mi & ss & se & sml & ml & days & -> & Y & M & D & H & MI & SE & ML & V & Lh & Lm & Ls & N & ->).
  intros (sy' & y' & sm' & m' & sd' & d' & sh' & h' & smi' & mi' & ss' & se' & sml' & ml' & days' & E & Y' & M' & D' & H' & MI' & SE' & ML' & V' & Lh' & Lm' & Ls' & N' & ->).
  assert (L : String.length sm = String.length sm' /\ String.length sd = String.length sd' /\ String.length sh = String.length sh' /\
    String.length smi = String.length smi' /\ String.length ss = String.length ss' /\ String.length sml = String.length sml').
  { rewrite (number_length _ _ _ M), (number_length _ _ _ M'), (number_length _ _ _ D), (number_length _ _ _ D'), (number_length _ _ _ H), (number_length _ _ _ H'),
      (number_length _ _ _ MI), (number_length _ _ _ MI'), (number_length _ _ _ SE), (number_length _ _ _ SE'), (number_length _ _ _ ML), (number_length _ _ _ ML'). splits; reflexivity. }
  destruct L as (L1 & L2 & L3 & L4 & L5 & L6).
  apply app_inj_tail_length in E as [-> E]; [|rewrite !str_length_app; cbn [String.length]; lia].
  apply app_inj_length in E as [_ E]; [|reflexivity].
  apply app_inj_length in E as [-> E]; [|assumption]. apply app_inj_length in E as [_ E]; [|reflexivity].
  apply app_inj_length in E as [-> E]; [|assumption]. apply app_inj_length in E as [_ E]; [|reflexivity].
  apply app_inj_length in E as [-> E]; [|assumption]. apply app_inj_length in E as [_ E]; [|reflexivity].
  apply app_inj_length in E as [-> E]; [|assumption]. apply app_inj_length in E as [_ E]; [|reflexivity].
  apply app_inj_length in E as [-> E]; [|assumption]. apply app_inj_length in E as [_ E]; [|reflexivity].
  apply app_inj_length in E as [-> E]; [|assumption].
  rewrite (year_text_value _ _ _ Y Y') in N. rewrite (number_value _ _ _ _ _ M M'), (number_value _ _ _ _ _ D D') in N.
  apply number_dn in N as [_ N]. apply number_dn in N' as [_ N'].
  rewrite (number_value _ _ _ _ _ H H'), (number_value _ _ _ _ _ MI MI'), (number_value _ _ _ _ _ SE SE'), (number_value _ _ _ _ _ ML ML'). lia.
Qed.
