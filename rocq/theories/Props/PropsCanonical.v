(** Property C191: addresses are printed in the recommended form. *)
From Coq Require Import String Ascii List NArith Arith Lia Bool.
From Verif Require Import Base.Arith Base.Str Base.Outcome Spec.TextSpec Spec.CanonicalSpec Model.IpUtils Model.Ip Proofs.IpV4P Proofs.IpPrintP.
Import ListNotations.
Local Open Scope string_scope.
Local Open Scope N_scope.

(** * Numerals *)

Lemma pd_acc f r : forall n acc, print_digits f r n acc = print_digits f r n "" ++ acc.
Proof.
  induction f as [|f IH]; intros n acc; [reflexivity|]. cbn [print_digits]. destruct (n <? r); [reflexivity|].
  rewrite (IH _ (String (digit_char (n mod r)) acc)), (IH _ (String (digit_char (n mod r)) "")), str_app_assoc. reflexivity.
Qed.
Lemma pd_fuel r f : 2 <= r -> forall g n, (0 < f)%nat -> (0 < g)%nat -> n < r ^ N.of_nat f -> n < r ^ N.of_nat g ->
  print_digits f r n "" = print_digits g r n "".
Proof.
  intros R. induction f as [|f IH]; intros [|g] n F G A B; try lia. cbn [print_digits]. destruct (N.ltb_spec n r) as [L|L]; [reflexivity|].
  rewrite Nat2N.inj_succ, N.pow_succ_r' in A, B. rewrite pd_acc, (pd_acc g). f_equal. apply IH.
  - destruct f; [cbn in A; lia|lia].
  - destruct g; [cbn in B; lia|lia].
  - apply N.div_lt_upper_bound; lia.
  - apply N.div_lt_upper_bound; lia.
Qed.
Definition num (r n : N) : string := print_digits (print_fuel n) r n "".
Lemma num_step r n : 2 <= r -> r <= n -> num r n = num r (n / r) ++ String (digit_char (n mod r)) "".
Proof.
  intros R L. unfold num. rewrite (pd_fuel r _ R (S (print_fuel n)) n); [| unfold print_fuel; lia | lia | apply print_fuel_ok; exact R |].
  - cbn [print_digits]. destruct (N.ltb_spec n r); [lia|]. rewrite pd_acc. f_equal. apply pd_fuel; [exact R|unfold print_fuel; lia|unfold print_fuel; lia| |apply print_fuel_ok; exact R].
    apply N.le_lt_trans with n; [apply N.div_le_upper_bound; nia|apply print_fuel_ok; exact R].
  - apply N.lt_le_trans with (r ^ N.of_nat (print_fuel n)); [apply print_fuel_ok; exact R|]. apply N.pow_le_mono_r; lia.
Qed.
Lemma num_digit r n : n < r -> num r n = String (digit_char n) "".
Proof. intros L. unfold num, print_fuel. cbn [print_digits]. destruct (N.ltb_spec n r); [|lia]. rewrite N.mod_small by exact L. reflexivity. Qed.
Lemma num_induction r (P : N -> Prop) : 2 <= r -> (forall n, n < r -> P n) -> (forall n, r <= n -> P (n / r) -> P n) -> forall n, P n.
Proof.
  intros R A B n. induction n as [n IH] using (well_founded_induction N.lt_wf_0). destruct (N.lt_ge_cases n r) as [L|L]; [apply A, L|].
  apply B; [exact L|]. apply IH. apply N.div_lt; lia.
Qed.
Lemma num_ne r n : 2 <= r -> num r n <> "".
Proof.
  intros R. destruct (N.lt_ge_cases n r) as [L|L]; [rewrite num_digit by exact L; discriminate|]. rewrite num_step by assumption.
  destruct (num r (n / r)); discriminate.
Qed.
Lemma zero_char d : d < 16 -> digit_char d = "0"%char -> d = 0.
Proof. intros L H. apply (f_equal N_of_ascii) in H. unfold digit_char in H. destruct (d <? 10) eqn:E; rewrite N_ascii_digit in H by lia; change (N_of_ascii "0") with 48 in H; lia. Qed.
Lemma num_head r n : 2 <= r <= 16 -> 0 < n -> exists d t, 0 < d < r /\ num r n = String (digit_char d) t.
Proof.
  intros R. revert n. apply (num_induction r (fun n => 0 < n -> exists d t, 0 < d < r /\ num r n = String (digit_char d) t)); [lia| |].
  - intros n L P. exists n, "". split; [lia|apply num_digit, L].
  - intros n L IH _. destruct IH as (d & t & D & E); [apply N.div_str_pos; lia|]. rewrite num_step, E by lia. exists d, (t ++ String (digit_char (n mod r)) "").
    split; [exact D|reflexivity].
Qed.
Lemma num_numeral (D : ascii -> N -> Prop) r n : 2 <= r <= 16 -> (forall d, d < r -> D (digit_char d) d) -> numeral D r (num r n) n.
Proof.
  intros R Hd. split; [apply num_ne; lia|]. split.
  - revert n. apply (num_induction r); [lia| |].
    + intros n L. rewrite num_digit by exact L. change (String (digit_char n) "") with ("" ++ String (digit_char n) "").
      replace n with (r * 0 + n) at 2 by lia. constructor; [constructor|apply Hd, L].
    + intros n L IH. rewrite num_step by lia. rewrite (N.div_mod n r) at 3 by lia. constructor; [exact IH|apply Hd, N.mod_lt; lia].
  - intros t E. destruct (N.lt_ge_cases n r) as [L|L]; [rewrite num_digit in E by exact L; congruence|].
    destruct (num_head r n R) as (d & u & X & Y); [lia|]. rewrite Y in E. assert (digit_char d = "0"%char) by congruence. apply zero_char in H; lia.
Qed.
(** ... and it is the only one *)
Lemma denotes_pos (D : ascii -> N -> Prop) r s v a t : (forall a d, D a d -> d = 0 -> a = "0"%char) -> 2 <= r -> denotes D r s v -> s = String a t -> a <> "0"%char -> 0 < v.
Proof.
  intros Z R H. revert t. induction H as [|s v b d H IH X]; intros t E N; [discriminate|]. destruct s as [|c s].
  - injection E as -> _. destruct (N.eq_dec d 0) as [K|K]; [exfalso; apply N, (Z _ _ X K)|lia].
  - injection E as -> _. specialize (IH s eq_refl N). nia.
Qed.
Lemma numeral_num (D : ascii -> N -> Prop) r s v : 2 <= r <= 16 -> (forall a d, D a d -> d < r /\ a = digit_char d) -> numeral D r s v -> s = num r v.
Proof.
  intros R Hd (N0 & H & Z). induction H as [|s v a d H IH X]; [congruence|]. destruct (Hd a d X) as (L & ->).
  destruct s as [|c s].
  - inversion H as [|s' v' a' d' H' X' E]; [|destruct s'; discriminate]. rewrite N.mul_0_r, N.add_0_l, num_digit by exact L. reflexivity.
  - assert (C : c <> "0"%char) by (intros ->; specialize (Z _ eq_refl); destruct s; discriminate).
    assert (P : 0 < v).
    { eapply (denotes_pos D r _ _ c s); [|lia|exact H|reflexivity|exact C]. intros a' d' X' ->. destruct (Hd _ _ X') as (_ & ->). reflexivity. }
    rewrite num_step by nia. replace ((r * v + d) / r) with v by (apply N.div_unique with d; lia). replace ((r * v + d) mod r) with d by (apply N.mod_unique with v; lia).
    f_equal. apply IH; [discriminate|]. intros u [= -> _]. congruence.
Qed.
Lemma upto16 d : d < 16 -> In d [0; 1; 2; 3; 4; 5; 6; 7; 8; 9; 10; 11; 12; 13; 14; 15].
Proof. intros L. cbn [In]. lia. Qed.
Lemma get_short n s a : String.get n s = Some a -> (n < String.length s)%nat.
Proof. revert n. induction s as [|b s IH]; intros [|n] H; cbn in *; try discriminate; [lia|]. apply IH in H. lia. Qed.
Lemma hex_digits a d : lower_hex_digit a d <-> d < 16 /\ a = digit_char d.
Proof.
  unfold lower_hex_digit. split.
  - intros H. assert (L : d < 16) by (apply get_short in H; cbn in H; lia). split; [exact L|]. apply upto16 in L. cbn [In] in L.
    repeat destruct L as [<-|L]; try contradiction; vm_compute in H; injection H as <-; reflexivity.
  - intros (L & ->). apply upto16 in L. cbn [In] in L. repeat destruct L as [<-|L]; try contradiction; reflexivity.
Qed.
Lemma dec_digits a d : decimal_digit a d <-> d < 10 /\ a = digit_char d.
Proof.
  unfold decimal_digit. split.
  - intros H. assert (L : d < 10) by (apply get_short in H; cbn in H; lia). split; [exact L|]. assert (L' : d < 16) by lia. apply upto16 in L'. cbn [In] in L'.
    repeat destruct L' as [<-|L']; try contradiction; try lia; vm_compute in H; injection H as <-; reflexivity.
  - intros (L & ->). assert (L' : d < 16) by lia. apply upto16 in L'. cbn [In] in L'. repeat destruct L' as [<-|L']; try contradiction; try lia; reflexivity.
Qed.
Lemma hex_numeral n : numeral lower_hex_digit 16 (hex n) n.
Proof. apply (num_numeral lower_hex_digit 16 n); [lia|]. intros d L. apply hex_digits. auto. Qed.
Lemma dec_numeral n : numeral decimal_digit 10 (dec n) n.
Proof. apply (num_numeral decimal_digit 10 n); [lia|]. intros d L. apply dec_digits. auto. Qed.
Lemma numeral_hex s n : numeral lower_hex_digit 16 s n -> s = hex n.
Proof. apply numeral_num; [lia|]. intros a d H. apply hex_digits, H. Qed.
Lemma numeral_dec s n : numeral decimal_digit 10 s n -> s = dec n.
Proof. apply numeral_num; [lia|]. intros a d H. apply dec_digits, H. Qed.

(** * The longest run of zero groups *)

Lemma zeros_len l i n : zeros l i n -> (0 < n)%nat -> (i + n <= length l)%nat.
Proof. intros H P. assert (L : nth_error l (i + n - 1) = Some 0) by (apply H; lia). assert (nth_error l (i + n - 1) <> None) by congruence. apply nth_error_Some in H0. lia. Qed.
Lemma zeros_app l m i n : (i + n <= length l)%nat -> zeros (l ++ m) i n <-> zeros l i n.
Proof. intros L. split; intros H k K; specialize (H k K); rewrite nth_error_app1 in *; try lia; exact H. Qed.
Lemma zeros_empty l i : zeros l i 0.
Proof. intros k K. lia. Qed.
(** what the loop knows of the groups it has passed *)
Definition passed (p : list N) (cur best : nat * nat) : Prop :=
  (snd cur <= length p)%nat /\ (0 < snd cur -> fst cur = length p - snd cur)%nat /\ zeros p (length p - snd cur) (snd cur) /\
  (forall k, k <= length p -> zeros p (length p - k) k -> k <= snd cur)%nat /\
  zeros p (fst best) (snd best) /\ (forall j n, zeros p j n -> n <= snd best)%nat /\ (0 < snd best -> forall j, zeros p j (snd best) -> fst best <= j)%nat.
Lemma zeros_snoc p i n : zeros (p ++ [0]) i n <-> (if Nat.leb (i + n) (length p) then zeros p i n else n = 0%nat \/ (i + n = S (length p) /\ zeros p i (n - 1))%nat).
Proof.
  destruct (Nat.leb_spec (i + n) (length p)) as [L|L]; [apply zeros_app; exact L|]. split.
  - intros H. destruct n as [|n]; [left; reflexivity|]. right. pose proof (zeros_len _ _ _ H ltac:(lia)) as G. rewrite app_length in G. cbn [length] in G.
    split; [lia|]. intros k K. specialize (H k ltac:(lia)). rewrite nth_error_app1 in H by lia. exact H.
  - intros [->|(E & H)]; [apply zeros_empty|]. intros k K. destruct (Nat.eq_dec k (length p)) as [->|K'].
    + rewrite nth_error_app2, Nat.sub_diag by lia. reflexivity.
    + rewrite nth_error_app1 by lia. apply H. lia.
Qed.
Lemma zeros_other p g i n : g <> 0 -> zeros (p ++ [g]) i n -> (0 < n)%nat -> (i + n <= length p)%nat /\ zeros p i n.
Proof.
  intros G H P. pose proof (zeros_len _ _ _ H P) as L. rewrite app_length in L. cbn [length] in L.
  destruct (Nat.eq_dec (i + n) (S (length p))) as [E|E].
  - specialize (H (length p) ltac:(lia)). rewrite nth_error_app2, Nat.sub_diag in H by lia. cbn in H. congruence.
  - split; [lia|]. apply (zeros_app p [g]); [lia|exact H].
Qed.
Lemma longest_passed l : forall p cur best, passed p cur best -> exists cur', passed (p ++ l) cur' (longest_zeros l (length p) cur best).
Proof.
  induction l as [|g l IH]; intros p cur best I; [exists cur; rewrite app_nil_r; exact I|]. cbn [longest_zeros].
  replace (p ++ g :: l)%list with ((p ++ [g]) ++ l)%list by (rewrite <- app_assoc; reflexivity).
  replace (S (length p)) with (length (p ++ [g])) by (rewrite app_length; cbn; lia).
  destruct cur as (cs, cl), best as (bs, bl). destruct I as (I1 & I2 & I3 & I4 & I5 & I6 & I7). cbn [fst snd] in *.
  destruct (N.eqb_spec g 0) as [->|G].
  - apply IH. unfold passed. rewrite app_length. cbn [length fst snd].
    assert (B : forall n : nat, (0 < bl)%nat -> zeros p bs bl -> (bs + bl <= length p)%nat) by (intros _ P Z; apply (zeros_len _ _ _ Z P)).
    assert (C : zeros (p ++ [0]) (length p - cl) (S cl)).
    { apply zeros_snoc. destruct (Nat.leb_spec (length p - cl + S cl) (length p)); [lia|]. right. split; [lia|]. replace (S cl - 1)%nat with cl by lia. exact I3. }
    assert (T : forall k, (k <= length p + 1)%nat -> zeros (p ++ [0]) (length p + 1 - k) k -> (k <= S cl)%nat).
    { intros k K Z. apply zeros_snoc in Z. destruct (Nat.leb_spec (length p + 1 - k + k) (length p)); [lia|]. destruct Z as [->|(_ & Z)]; [lia|].
      destruct k as [|k]; [lia|]. apply le_n_S. apply I4; [lia|]. replace (length p - k)%nat with (length p + 1 - S k)%nat by lia. replace k with (S k - 1)%nat at 2 by lia. exact Z. }
    assert (A : forall j n, zeros (p ++ [0]) j n -> (n <= bl \/ j + n = S (length p) /\ n <= S cl)%nat).
    { intros j n Z. pose proof Z as Z'. apply zeros_snoc in Z. destruct (Nat.leb_spec (j + n) (length p)); [left; apply (I6 j), Z|]. destruct Z as [->|(E & Z)]; [left; lia|].
      right. split; [exact E|]. apply T; [lia|]. replace (length p + 1 - n)%nat with j by lia. exact Z'. }
    assert (FST : ((if Nat.eqb cl 0 then length p else cs) = length p - cl)%nat) by (destruct (Nat.eqb_spec cl 0); [lia|apply I2; lia]).
    splits; [lia|intros _; rewrite FST; lia|replace (length p + 1 - S cl)%nat with (length p - cl)%nat by lia; exact C|exact T| | |].
    + destruct (Nat.ltb_spec bl (S cl)); cbn [fst snd]; [rewrite FST; exact C|]. destruct (Nat.eq_dec bl 0) as [->|]; [apply zeros_empty|]. apply zeros_app; [apply (B 0%nat); [lia|exact I5]|exact I5].
    + intros j n Z. destruct (A j n Z) as [X|(_ & X)]; destruct (Nat.ltb_spec bl (S cl)); cbn [snd]; lia.
    + destruct (Nat.ltb_spec bl (S cl)) as [L|L]; cbn [fst snd]; intros P j Z.
      * destruct (A j _ Z) as [X|(X & _)]; [lia|]. rewrite FST. lia.
      * destruct (le_lt_dec (j + bl) (length p)) as [Q|Q]; [apply I7; [exact P|]; apply (zeros_app p [0]); assumption|].
        pose proof (B 0%nat P I5). lia.
  - apply IH. unfold passed. rewrite app_length. cbn [length fst snd]. splits; [lia|lia|apply zeros_empty| | | |].
    + intros k K Z. destruct (Nat.eq_dec k 0) as [->|]; [lia|]. apply zeros_other in Z; [lia|exact G|lia].
    + destruct (Nat.eq_dec bl 0) as [->|]; [apply zeros_empty|]. apply zeros_app; [apply (zeros_len _ _ _ I5); lia|exact I5].
    + intros j n Z. destruct (Nat.eq_dec n 0) as [->|]; [lia|]. apply zeros_other in Z as (_ & Z); [apply (I6 j), Z|exact G|lia].
    + intros P j Z. apply zeros_other in Z as (_ & Z); [apply I7; assumption|exact G|exact P].
Qed.
Lemma longest_found l : let z := longest_zeros l 0 (0, 0)%nat (0, 0)%nat in
  zeros l (fst z) (snd z) /\ (forall j n, zeros l j n -> (n <= snd z)%nat) /\ ((0 < snd z)%nat -> forall j, zeros l j (snd z) -> (fst z <= j)%nat).
Proof.
  destruct (longest_passed l [] (0, 0)%nat (0, 0)%nat) as (c & _ & _ & _ & _ & A & B & C).
  - unfold passed. cbn. splits; try lia; try apply zeros_empty. intros j n Z. destruct n as [|n]; [lia|]. specialize (Z j ltac:(lia)). destruct j; discriminate.
  - auto.
Qed.

(** * C191 *)

Lemma join_sep c l : join c l = sep_by c l.
Proof. induction l as [|x [|y r] IH]; [reflexivity|reflexivity|]. change (join c (x :: y :: r)) with (x ++ String c (join c (y :: r))). rewrite IH. reflexivity. Qed.
Theorem C191_ipv6 : forall n, n < 2 ^ 128 -> ~ (65535 * 2 ^ 32 <= n < 65536 * 2 ^ 32) -> canonical_v6 (groups n) (ipv6_to_str n).
Proof.
  intros n B M. unfold ipv6_to_str. destruct (N.eqb_spec (N.shiftr n 32) 65535) as [E|_]; [exfalso; apply M, mapped_alt, E|].
  rewrite segments_eq. fold (groups n). cbv zeta. pose proof (longest_found (groups n)) as F. cbv zeta in F.
  destruct (longest_zeros (groups n) 0 (0, 0)%nat (0, 0)%nat) as (i, len). cbn [fst snd] in *. destruct F as (Z & Mx & Fi).
  exists (map hex (groups n)). split.
  - generalize (groups n). intros l. induction l as [|g l IH]; constructor; [apply hex_numeral|exact IH].
  - unfold fmt_subslice. rewrite !join_sep. destruct (Nat.ltb_spec 1 len) as [L|L].
    + right. exists i, len. splits; [lia|exact Z|exact Mx|apply Fi; lia|]. rewrite firstn_map, skipn_map. reflexivity.
    + left. split; [|reflexivity]. intros j Zj. apply Mx in Zj. lia.
Qed.
Theorem C191_ipv4 : forall n, canonical_v4 n (ipv4_to_str n).
Proof.
  intros n. unfold ipv4_to_str. eexists [_; _; _; _]. split; [|reflexivity].
  assert (G : forall k, numeral decimal_digit 10 (dec (N.land (N.shiftr n (8 * k)) 255)) ((n / 2 ^ (8 * k)) mod 256)).
  { intros k. change 255 with (N.ones 8). rewrite N.land_ones, N.shiftr_div_pow2. apply dec_numeral. }
  rewrite !N.shiftr_shiftr. constructor; [exact (G 3)|]. constructor; [exact (G 2)|]. constructor; [exact (G 1)|]. constructor; [|constructor].
  specialize (G 0). rewrite N.mul_0_r, N.shiftr_0_r in G. exact G.
Qed.
Theorem C191_mapped : forall n, 65535 * 2 ^ 32 <= n < 65536 * 2 ^ 32 ->
  exists s, canonical_v4 (n mod 2 ^ 32) s /\ ipv6_to_str n = "::ffff:" ++ s.
Proof.
  intros n M. unfold ipv6_to_str. destruct (N.eqb_spec (N.shiftr n 32) 65535) as [E|E]; [|exfalso; apply E, mapped_alt, M].
  exists (ipv4_to_str (N.land n 4294967295)). split; [|reflexivity]. change 4294967295 with (N.ones 32). rewrite N.land_ones. apply C191_ipv4.
Qed.
(** An address has only one text of this form. *)
Lemma forall2_same {A B} (P : A -> B -> Prop) f ts l : (forall t x, P t x -> t = f x) -> Forall2 P ts l -> ts = map f l.
Proof. intros H F. induction F as [|t x ts l T F IH]; [reflexivity|]. cbn [map]. rewrite (H t x T), IH. reflexivity. Qed.
Theorem C191_unique : (forall l s t, canonical_v6 l s -> canonical_v6 l t -> s = t) /\ (forall v s t, canonical_v4 v s -> canonical_v4 v t -> s = t).
Proof.
  split.
  - intros l s t (ts & F & A) (us & G & B). apply (forall2_same _ hex) in F, G; try (intros x y; apply numeral_hex). subst ts us.
    destruct A as [(A & ->)|(i & n & A1 & A2 & A3 & A4 & ->)], B as [(B & ->)|(j & m & B1 & B2 & B3 & B4 & ->)]; [reflexivity| | |].
    + exfalso. apply (A j). intros k K. apply B2. lia.
    + exfalso. apply (B i). intros k K. apply A2. lia.
    + assert (n = m) by (apply A3 in B2; apply B3 in A2; lia). subst m. assert (i = j) by (apply A4 in B2; apply B4 in A2; lia). subst j. reflexivity.
  - intros v s t (ts & F & ->) (us & G & ->).
    apply (forall2_same _ (fun k => dec ((v / 2 ^ (8 * k)) mod 256))) in F, G; try (intros x y; apply numeral_dec). congruence.
Qed.

(** the first of two longest runs; a single zero group is written; lower case *)
Example C191_cases : ipv6_to_str (2 ^ 112 + 2 ^ 64) = "1:0:0:1::" /\ ipv6_to_str (2 ^ 112 + 2 ^ 64 + 2 ^ 16 + 1) = "1::1:0:0:1:1" /\
  ipv6_to_str (0x20010DB8000100020003000400050006) = "2001:db8:1:2:3:4:5:6" /\ ipv6_to_str (0x00010000000200030004000500060007) = "1:0:2:3:4:5:6:7".
Proof. splits; vm_compute; reflexivity. Qed.

Print Assumptions C191_ipv6.
Print Assumptions C191_ipv4.
Print Assumptions C191_mapped.
Print Assumptions C191_unique.
