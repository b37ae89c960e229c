(** Properties C08 and C98, exactly: when two numbers print as the same MAC address, and what the 128-bit parser returns. *)
From Coq Require Import String Ascii List NArith Arith Lia.
From Verif Require Import Base.Arith Base.Str Base.Outcome Spec.TextSpec Spec.MacSpec Model.Mac Proofs.TextP Proofs.MacP Props.PropsMac.
Import ListNotations.
Local Open Scope string_scope.
Local Open Scope N_scope.

Lemma be_octets_mod k n : be_value 256 (be_octets k n) = n mod 2 ^ (8 * N.of_nat k).
Proof.
  induction k as [|k IH].
  - cbn. rewrite N.mod_1_r. reflexivity.
  - cbn [be_octets]. unfold be_value. cbn [fold_left].
    assert (Hbe : forall l acc, fold_left (fun acc d => acc * 256 + d) l acc = acc * 256 ^ N.of_nat (length l) + be_value 256 l).
    { clear. unfold be_value. intros l. induction l as [|d l IH] using rev_ind; intros acc; [cbn; lia|].
      rewrite !fold_left_app, app_length. cbn [fold_left length]. rewrite IH.
      replace (N.of_nat (length l + 1)) with (1 + N.of_nat (length l)) by lia.
      rewrite N.pow_add_r. change (256 ^ 1) with 256. nia. }
    rewrite Hbe, be_octets_len, IH.
    replace (8 * N.of_nat (S k)) with (8 * N.of_nat k + 8) by lia.
    replace (256 ^ N.of_nat k) with (2 ^ (8 * N.of_nat k)) by (rewrite N.pow_mul_r; reflexivity).
    rewrite N.pow_add_r.
    rewrite N.mod_mul_r by (try apply N.pow_nonzero; discriminate). change (2 ^ 8) with 256. lia.
Qed.
Lemma canonical_inj xs ys : octets xs -> octets ys -> length xs = length ys -> (length xs = 6 \/ length xs = 8 \/ length xs = 16)%nat ->
  canonical_mac xs = canonical_mac ys -> be_value 256 xs = be_value 256 ys.
Proof.
  intros A B L W E.
  assert (X : mac_text (canonical_mac xs) xs) by (apply canonical_mac_text; [destruct xs; [cbn in W; lia|discriminate]|exact A]).
  assert (Y : mac_text (canonical_mac ys) ys) by (apply canonical_mac_text; [destruct ys; [cbn in *; lia|discriminate]|exact B]).
  pose proof (mac_any_parse _ _ X W) as P. pose proof (mac_any_parse _ _ Y ltac:(lia)) as Q. rewrite E in P. rewrite P in Q. congruence.
Qed.

(** Exactly which numbers of 128 bits print alike: two different ones do when both are shown as eight octets, so at least 2^48 and
    below 2^96, and agree in the low 64 bits. *)
Theorem C08_printed_alike : forall a b, a < 2 ^ 128 -> b < 2 ^ 128 ->
  (mac_u128_to_str a = mac_u128_to_str b <->
   a = b \/ (2 ^ 48 <= a < 2 ^ 96 /\ 2 ^ 48 <= b < 2 ^ 96 /\ a mod 2 ^ 64 = b mod 2 ^ 64)).
Proof.
  intros a b A B. rewrite (mac_u128_print a A), (mac_u128_print b B).
  assert (W : forall n, (print_width n = 6%nat /\ n < 2 ^ 48) \/ (print_width n = 8%nat /\ 2 ^ 48 <= n < 2 ^ 96) \/ (print_width n = 16%nat /\ 2 ^ 96 <= n)).
  { intros n. unfold print_width. assert (2 ^ 48 < 2 ^ 96) by reflexivity. destruct (N.leb_spec (2 ^ 96) n), (N.leb_spec (2 ^ 48) n); auto 6; lia. }
  assert (NE : forall n, be_octets (print_width n) n <> []).
  { intros n E. apply (f_equal (@length _)) in E. rewrite be_octets_len in E. destruct (W n) as [(X & _)|[(X & _)|(X & _)]]; rewrite X in E; discriminate. }
  split.
  - intros E. assert (L : print_width a = print_width b).
    { pose proof (f_equal String.length E) as L. rewrite !canonical_len in L by (try apply be_octets_octets; apply NE). rewrite !be_octets_len in L.
      destruct (W a) as [(X & _)|[(X & _)|(X & _)]], (W b) as [(Y & _)|[(Y & _)|(Y & _)]]; rewrite X, Y in *; congruence || (cbn in L; discriminate L). }
    assert (V : a mod 2 ^ (8 * N.of_nat (print_width a)) = b mod 2 ^ (8 * N.of_nat (print_width b))).
    { rewrite <- !be_octets_mod. apply canonical_inj; try apply be_octets_octets; rewrite ?be_octets_len; [exact L| |exact E].
      destruct (W a) as [(X & _)|[(X & _)|(X & _)]]; rewrite X; auto. }
    destruct (W a) as [(X & XA)|[(X & XA)|(X & XA)]], (W b) as [(Y & YA)|[(Y & YA)|(Y & YA)]]; rewrite X, Y in L, V; try discriminate.
    + left. change (8 * N.of_nat 6) with 48 in V. rewrite !N.mod_small in V by assumption. exact V.
    + right. change (8 * N.of_nat 8) with 64 in V. splits; try assumption; lia.
    + left. change (8 * N.of_nat 16) with 128 in V. rewrite !N.mod_small in V by assumption. exact V.
  - intros [-> | (XA & YA & M)]; [reflexivity|].
    assert (X : print_width a = 8%nat) by (assert (2 ^ 48 < 2 ^ 96) by reflexivity; destruct (W a) as [(X & ?)|[(X & ?)|(X & ?)]]; [lia|exact X|lia]).
    assert (Y : print_width b = 8%nat) by (assert (2 ^ 48 < 2 ^ 96) by reflexivity; destruct (W b) as [(Y & ?)|[(Y & ?)|(Y & ?)]]; [lia|exact Y|lia]).
    rewrite X, Y. f_equal. change (2 ^ 64) with (2 ^ (8 * N.of_nat 8)) in M. rewrite <- !be_octets_mod in M.
    pose proof (be_octets_of_value (be_octets 8 a) (be_octets_octets 8 a)) as P. pose proof (be_octets_of_value (be_octets 8 b) (be_octets_octets 8 b)) as Q.
    rewrite be_octets_len in P, Q. rewrite <- P, <- Q, M. reflexivity.
Qed.
Print Assumptions C08_printed_alike.
(** So numbers of a MAC address of six or eight octets are told apart by their texts. *)
Theorem C08_distinct_below_64_bits : forall a b, a < 2 ^ 64 -> b < 2 ^ 64 -> mac_u128_to_str a = mac_u128_to_str b -> a = b.
Proof.
  intros a b A B E. assert (2 ^ 64 < 2 ^ 128) by reflexivity. apply C08_printed_alike in E; [|lia|lia].
  destruct E as [E | (_ & _ & E)]; [exact E|]. rewrite !N.mod_small in E by assumption. exact E.
Qed.
Print Assumptions C08_distinct_below_64_bits.

Lemma octet_number p v : hex_octet p v -> hex_number p v.
Proof.
  intros (L & D). exists ""%string, p. splits; [left; reflexivity|reflexivity|intros ->; discriminate|exact D].
Qed.
Fixpoint seven_up (k : nat) : list N := match k with O => [] | S k' => 8 * N.of_nat k' + 7 :: seven_up k' end.
Lemma placed_seven vs : octets vs -> 8 * N.of_nat (length vs) + 7 <= 128 -> placed 128 (seven_up (length vs)) vs = be_value 256 vs * 2 ^ 7.
Proof.
  intros O. induction O as [|v vs V O IH]; intros L; [reflexivity|]. cbn [length seven_up placed]. cbn [length] in L. rewrite IH by lia. clear IH.
  assert (Hbe : forall l acc, fold_left (fun acc d => acc * 256 + d) l acc = acc * 256 ^ N.of_nat (length l) + be_value 256 l).
  { clear. unfold be_value. intros l. induction l as [|d l IH] using rev_ind; intros acc; [cbn; lia|].
    rewrite !fold_left_app, app_length. cbn [fold_left length]. rewrite IH.
    replace (N.of_nat (length l + 1)) with (1 + N.of_nat (length l)) by lia.
    rewrite N.pow_add_r. change (256 ^ 1) with 256. nia. }
  unfold be_value at 2. cbn [fold_left]. rewrite Hbe. replace (256 ^ N.of_nat (length vs)) with (2 ^ (8 * N.of_nat (length vs))) by (rewrite N.pow_mul_r; reflexivity).
  rewrite N.mod_small; [rewrite N.pow_add_r; lia|].
  apply N.lt_le_trans with (2 ^ 8 * 2 ^ (8 * N.of_nat (length vs) + 7)).
  - apply N.mul_lt_mono_pos_r; [apply N.neq_0_lt_0, N.pow_nonzero; discriminate|exact V].
  - rewrite <- N.pow_add_r. apply N.pow_le_mono_r; lia.
Qed.
Lemma two_firstn {A B} (R : A -> B -> Prop) k : forall x y, Forall2 R x y -> Forall2 R (firstn k x) (firstn k y).
Proof. induction k as [|k IH]; intros x y H; [constructor|]. destruct H; constructor; auto. Qed.
Lemma firstn_octets k os : octets os -> octets (firstn k os).
Proof. revert os. induction k as [|k IH]; intros os H; [constructor|]. destruct H; constructor; auto. apply IH. assumption. Qed.

(** The parser made for 16 octets leaves out the last octet and doubles seven times what the others make, *)
Theorem C08_mac128 : forall s os, mac_text s os -> octets os -> length os = 16%nat ->
  mac_str_to_u128 s = Val (Some (be_value 256 (firstn 15 os) * 2 ^ 7)).
Proof.
  intros s os M O L. apply (C59_exact_128 s (split_pred is_mac_sep s) (parts_split s)).
  exists (firstn 15 os). pose proof (mac_text_split s os M) as F. pose proof (firstn_octets 15 os O) as O'.
  assert (L' : length (firstn 15 os) = 15%nat) by (rewrite firstn_length; lia).
  split; [exact L'|]. split; [|split].
  - cbn [length]. apply two_firstn with (k := 15%nat) in F. clear -F. induction F as [|p v ps vs H F IH]; constructor; [|exact IH].
    split; [apply octet_number; exact H|]. apply hex_octet_lt in H. apply N.lt_trans with 256; [exact H|reflexivity].
  - change [119; 111; 103; 95; 87; 79; 71; 63; 55; 47; 39; 31; 23; 15; 7] with (seven_up 15). symmetry.
    pose proof (placed_seven _ O') as P. rewrite L' in P. apply P. discriminate.
  - pose proof (be_value_lt _ O') as B. rewrite L' in B. change (256 ^ N.of_nat 15) with (2 ^ 120) in B.
    apply N.lt_le_trans with (2 ^ 120 * 2 ^ 7); [apply N.mul_lt_mono_pos_r; [reflexivity|exact B]|]. discriminate.
Qed.
Print Assumptions C08_mac128.
(** ... so the address of sixteen zeros is the only one it reads right. *)
Theorem C98_mac128_only_zero_refuted : forall s os, mac_text s os -> octets os -> length os = 16%nat ->
  (mac_str_to_u128 s = Val (Some (be_value 256 os)) <-> be_value 256 os = 0).
Proof.
  intros s os M O L. rewrite (C08_mac128 s os M O L).
  assert (E : exists x, os = (firstn 15 os ++ [x])%list /\ x < 256).
  { pose proof (firstn_skipn 15 os) as F. assert (LS : length (skipn 15 os) = 1%nat) by (rewrite skipn_length; lia).
    destruct (skipn 15 os) as [|x [|y r]]; try discriminate. exists x. split; [congruence|].
    unfold octets in O. rewrite Forall_forall in O. apply O. rewrite <- F. apply in_or_app. right. left. reflexivity. }
  destruct E as (x & E & X). rewrite E at 2 3. rewrite be_value_app. set (b := be_value 256 (firstn 15 os)). change (2 ^ 7) with 128. split.
  - intros H. injection H as H. lia.
  - intros H. f_equal. f_equal. lia.
Qed.
Print Assumptions C98_mac128_only_zero_refuted.

(** * Cases *)
Example C08_alike_case : mac_u128_to_str (5 * 2 ^ 64 + 2 ^ 50) = mac_u128_to_str (2 ^ 50) /\ 2 ^ 48 <= 5 * 2 ^ 64 + 2 ^ 50 < 2 ^ 96 /\
  mac_u128_to_str (2 ^ 96 + 2 ^ 50) <> mac_u128_to_str (2 ^ 50).
Proof.
  splits; [reflexivity|discriminate|reflexivity|]. intros E. apply C08_printed_alike in E; [|reflexivity|reflexivity].
  destruct E as [E | ((_ & E) & _)]; [discriminate E|]. vm_compute in E. discriminate E.
Qed.
Definition counting : list N := [0; 1; 2; 3; 4; 5; 6; 7; 8; 9; 10; 11; 12; 13; 14; 15].
Example C08_mac128_case : octets counting /\ mac_text (canonical_mac counting) counting /\
  mac_str_to_u128 (canonical_mac counting) = Val (Some (be_value 256 [0; 1; 2; 3; 4; 5; 6; 7; 8; 9; 10; 11; 12; 13; 14] * 2 ^ 7)).
Proof.
  assert (O : octets counting) by (repeat constructor). assert (M : mac_text (canonical_mac counting) counting) by (apply canonical_mac_text; [discriminate|exact O]).
  splits; [exact O|exact M|]. exact (C08_mac128 _ _ M O eq_refl).
Qed.
