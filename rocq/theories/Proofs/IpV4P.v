From Coq Require Import String Ascii List Bool.
From Verif Require Import Base.Arith.
From Verif Require Import Base.Str Base.Outcome Spec.TextSpec Proofs.TextP Model.IpUtils.
Import ListNotations.
Local Open Scope string_scope.
Local Open Scope N_scope.
Ltac Zify.zify_post_hook ::= Z.div_mod_to_equations.

(** Little-endian base-256 value. *)
Fixpoint le256 (l : list N) : N := match l with [] => 0 | d :: r => d + 256 * le256 r end.

Lemma le256_be l : be_value 256 l = le256 (rev l).
Proof.
  induction l as [|d l IH] using rev_ind; [reflexivity|].
  rewrite be_value_app, rev_app_distr. simpl. rewrite <- IH. lia.
Qed.

Lemma ipv4_loop_spec parts number k v :
  ipv4_loop parts number (8 * N.of_nat k) = Ok v <->
  (length parts + k <= 4 \/ parts = [])%nat /\
  exists vs, Forall2 octet_text parts vs /\ v = number + 2 ^ (8 * N.of_nat k) * le256 vs.
Proof.
  revert number k. induction parts as [|p r IH]; intros number k; cbn [ipv4_loop].
  - split.
    + intros H; inversion H; subst. split; [auto|]. exists []. split; [constructor|]. simpl; lia.
    + intros (_ & vs & Hf & ->). inversion Hf; subst. simpl. f_equal; lia.
  - destruct (N.leb_spec 32 (8 * N.of_nat k)) as [Hk|Hk].
    + split; [discriminate|]. intros ([Hl|Hl] & _); [simpl in Hl; lia|discriminate].
    + destruct (parse_u8 p) as [x|] eqn:E.
      * replace (8 * N.of_nat k + 8) with (8 * N.of_nat (S k)) by lia.
        rewrite IH. rewrite N.shiftl_mul_pow2. apply parse_u8_iff in E.
        assert (E2 : 2 ^ (8 * N.of_nat (S k)) = 256 * 2 ^ (8 * N.of_nat k)).
        { replace (8 * N.of_nat (S k)) with (8 + 8 * N.of_nat k) by lia. rewrite N.pow_add_r. reflexivity. }
        rewrite E2. split.
        -- intros (Hl & vs & Hf & ->). split.
           ++ left. destruct Hl as [Hl| ->]; simpl in *; lia.
           ++ exists (x :: vs). split; [constructor; auto|]. cbn [le256]. nia.
        -- intros (Hl & vs & Hf & ->). inversion Hf as [|? y ? ys Hy Hys]; subst. split.
           ++ destruct Hl as [Hl|Hl]; [|discriminate]. left; simpl in Hl; lia.
           ++ exists ys. split; [exact Hys|]. cbn [le256].
              assert (x = y).
              { apply parse_u8_iff in E. apply parse_u8_iff in Hy. congruence. }
              subst. nia.
      * split; [discriminate|]. intros (_ & vs & Hf & _). inversion Hf as [|? y ? ys Hy Hys]; subst.
        apply parse_u8_iff in Hy. congruence.
Qed.

Lemma Forall2_rev {A B} (R : A -> B -> Prop) l m : Forall2 R l m -> Forall2 R (rev l) (rev m).
Proof.
  induction 1; simpl; [constructor|]. apply Forall2_app; auto.
Qed.

Lemma ipv4_from_str_iff s v :
  ipv4_from_str s = Ok v <->
  exists parts vs, (1 <= length parts <= 4)%nat /\ s = sep_by "." parts /\
                   Forall2 octet_text parts vs /\ v = be_value 256 vs.
Proof.
  unfold ipv4_from_str. change 0 with (8 * N.of_nat 0) at 2. rewrite ipv4_loop_spec.
  rewrite rev_length. split.
  - intros (Hl & vs & Hf & ->). exists (split_on "." s), (rev vs).
    pose proof (split_on_nonempty "." s) as Hne.
    split; [|split; [|split]].
    + destruct Hl as [Hl|Hl].
      * destruct (split_on "." s); [congruence|simpl in *; lia].
      * apply (f_equal (@length _)) in Hl. rewrite rev_length in Hl. destruct (split_on "." s); [congruence|discriminate].
    + rewrite sep_by_join. symmetry; apply join_split_on.
    + apply Forall2_rev in Hf. rewrite rev_involutive in Hf. exact Hf.
    + rewrite le256_be, rev_involutive. change (2 ^ (8 * N.of_nat 0)) with 1. lia.
  - intros (parts & vs & Hl & -> & Hf & ->).
    assert (E : split_on "." (sep_by "." parts) = parts).
    { rewrite sep_by_join. apply split_on_join; [destruct parts; [simpl in Hl; lia|discriminate]|].
      clear Hl. induction Hf as [|p x ps xs [Hp _] Hps IH]; constructor; auto.
      eapply decimal_text_chars; [exact Hp|reflexivity|discriminate]. }
    rewrite E. split; [left; lia|]. exists (rev vs). split; [apply Forall2_rev; exact Hf|].
    rewrite le256_be. change (2 ^ (8 * N.of_nat 0)) with 1. lia.
Qed.

Lemma octet_text_dec n : n <= 255 -> octet_text (dec n) n.
Proof. intros H. apply parse_u8_iff. apply parse_dec. exact H. Qed.

Lemma land_255 n : N.land n 255 = n mod 256.
Proof. change 255 with (N.ones 8). rewrite N.land_ones. reflexivity. Qed.
Lemma shiftr_8 n : N.shiftr n 8 = n / 256.
Proof. rewrite N.shiftr_div_pow2. reflexivity. Qed.

Lemma ipv4_to_str_octets n : ipv4_to_str n =
  dec (n / 16777216 mod 256) ++ "." ++ dec (n / 65536 mod 256) ++ "." ++ dec (n / 256 mod 256) ++ "." ++ dec (n mod 256).
Proof.
  unfold ipv4_to_str. rewrite !land_255, !shiftr_8, !N.div_div by lia. reflexivity.
Qed.

Lemma ipv4_quad_parse a b c d va vb vc vd :
  octet_text a va -> octet_text b vb -> octet_text c vc -> octet_text d vd ->
  ipv4_from_str (a ++ "." ++ b ++ "." ++ c ++ "." ++ d) =
  Ok (va * 2 ^ 24 + vb * 2 ^ 16 + vc * 2 ^ 8 + vd).
Proof.
  intros Ha Hb Hc Hd. apply ipv4_from_str_iff. exists [a; b; c; d], [va; vb; vc; vd].
  split; [simpl; lia|]. split; [reflexivity|]. split; [repeat (apply Forall2_cons; [assumption|]); apply Forall2_nil|].
  unfold be_value; cbn [fold_left]. lia.
Qed.

Lemma ipv4_roundtrip n : n < 2 ^ 32 -> ipv4_from_str (ipv4_to_str n) = Ok n.
Proof.
  intros Hn. change (2 ^ 32) with 4294967296 in Hn. rewrite ipv4_to_str_octets.
  rewrite (ipv4_quad_parse _ _ _ _ (n / 16777216 mod 256) (n / 65536 mod 256) (n / 256 mod 256) (n mod 256)).
  - f_equal. change (2 ^ 24) with 16777216. change (2 ^ 16) with 65536. change (2 ^ 8) with 256. lia.
  - apply octet_text_dec; lia.
  - apply octet_text_dec; lia.
  - apply octet_text_dec; lia.
  - apply octet_text_dec; lia.
Qed.

Lemma be256_bound vs k : Forall (fun x => x <= 255) vs -> length vs = k -> be_value 256 vs < 256 ^ N.of_nat k.
Proof.
  intros H <-. induction vs as [|d l IH] using rev_ind; [reflexivity|].
  apply Forall_app in H as [H1 H2]. inversion H2; subst.
  rewrite be_value_app, app_length. simpl length.
  replace (N.of_nat (length l + 1)) with (1 + N.of_nat (length l)) by lia.
  rewrite N.pow_add_r. specialize (IH H1). change (256 ^ 1) with 256. lia.
Qed.

Lemma Forall2_octet_bound ps vs : Forall2 octet_text ps vs -> Forall (fun x => x <= 255) vs.
Proof. induction 1 as [|p v ps vs [_ H] Hs IH]; constructor; auto. Qed.

Lemma Forall2_len {A B} (R : A -> B -> Prop) l m : Forall2 R l m -> length l = length m.
Proof. induction 1; simpl; congruence. Qed.

Lemma ipv4_from_str_range s v : ipv4_from_str s = Ok v -> v < 2 ^ 32.
Proof.
  rewrite ipv4_from_str_iff. intros (ps & vs & Hl & -> & Hf & ->).
  pose proof (be256_bound vs _ (Forall2_octet_bound _ _ Hf) eq_refl) as B.
  rewrite <- (Forall2_len _ _ _ Hf) in B.
  eapply N.lt_le_trans; [exact B|]. change (2 ^ 32) with (256 ^ 4). apply N.pow_le_mono_r; lia.
Qed.

Lemma is_local_ipv4_iff n : n < 2 ^ 32 -> (is_local_ipv4 n = true <-> private_v4 n).
Proof.
  intros Hn. change (2 ^ 32) with 4294967296 in Hn.
  unfold is_local_ipv4, private_v4, in_range.
  rewrite land_255, !N.shiftr_div_pow2. unfold quad.
  change (2 ^ 24) with 16777216. change (2 ^ 16) with 65536. change (2 ^ 8) with 256.
  destruct (N.eqb_spec (n / 16777216) 10) as [H|H]; [split; [lia|reflexivity]|].
  destruct ((n / 16777216 =? 172) && ((16 <=? n / 65536 mod 256) && (n / 65536 mod 256 <=? 31))) eqn:E1.
  { split; [lia|reflexivity]. }
  destruct ((n / 16777216 =? 192) && (n / 65536 mod 256 =? 168)) eqn:E2.
  { split; [lia|reflexivity]. }
  destruct ((n / 16777216 =? 100) && ((64 <=? n / 65536 mod 256) && (n / 65536 mod 256 <=? 127))) eqn:E3.
  { split; [lia|reflexivity]. }
  split; [discriminate|]. lia.
Qed.

Lemma is_local_ipv6_iff n : n < 2 ^ 128 -> (is_local_ipv6 n = true <-> private_v6 n).
Proof.
  intros Hn. unfold is_local_ipv6, private_v6, in_range. rewrite N.shiftr_div_pow2.
  assert (Hb : n / 2 ^ 120 < 256).
  { apply N.div_lt_upper_bound; [discriminate|]. exact Hn. }
  assert (S : forallb (fun k => Bool.eqb (N.land k 254 =? 252) ((252 <=? k) && (k <=? 253))) (map N.of_nat (seq 0 256)) = true)
    by (vm_compute; reflexivity).
  rewrite forallb_forall in S. specialize (S (n / 2 ^ 120)).
  assert (Hin : In (n / 2 ^ 120) (map N.of_nat (seq 0 256))).
  { apply in_map_iff. exists (N.to_nat (n / 2 ^ 120)). split; [apply N2Nat.id|]. apply in_seq. lia. }
  specialize (S Hin). cbv beta in S. apply eqb_prop in S. rewrite S. clear S Hin.
  change (0xfc00 * 2 ^ 112) with (252 * 2 ^ 120). change (0xfe00 * 2 ^ 112 - 1) with (254 * 2 ^ 120 - 1).
  rewrite andb_true_iff, !N.leb_le. split.
  - intros [H1 H2]. split.
    + pose proof (N.mul_div_le n (2 ^ 120) ltac:(discriminate)). nia.
    + pose proof (N.mul_succ_div_gt n (2 ^ 120) ltac:(discriminate)). nia.
  - intros [H1 H2]. split.
    + apply N.div_le_lower_bound; [discriminate|]. lia.
    + assert (n / 2 ^ 120 < 254); [|lia]. apply N.div_lt_upper_bound; [discriminate|]. lia.
Qed.

Lemma ipv4_port_parse ip port :
  ip < 2 ^ 32 -> port < 2 ^ 16 ->
  parse_ipv4_port (ipv4_to_str ip ++ ":" ++ dec port) = Some (ip, port).
Proof.
  intros H1 H2. unfold parse_ipv4_port. cbn [append].
  rewrite rcut_app by (apply dec_no_char; reflexivity).
  rewrite (ipv4_roundtrip _ H1). unfold port_to_u16, parse_u16. rewrite parse_dec; [reflexivity|].
  unfold u16_max. lia.
Qed.

Lemma is_ipv4_port_agrees s : is_ipv4_port s = true <-> exists r, parse_ipv4_port s = Some r.
Proof.
  unfold is_ipv4_port, parse_ipv4_port. destruct (rcut ":" s) as [[a p]|].
  - destruct (ipv4_from_str a), (port_to_u16 p); split; try discriminate; eauto; intros [r H]; discriminate.
  - split; [discriminate|]. intros [r H]; discriminate.
Qed.

Lemma parse_ipv4_port_iff s ip port :
  parse_ipv4_port s = Some (ip, port) <->
  exists a p, s = a ++ ":" ++ p /\ str_has ":" p = false /\ ipv4_from_str a = Ok ip /\ decimal_text p port /\ port < 2 ^ 16.
Proof.
  unfold parse_ipv4_port. split.
  - destruct (rcut ":" s) as [[a p]|] eqn:E; [|discriminate].
    apply rcut_some in E as [-> Hp]. destruct (ipv4_from_str a) eqn:Ea; [|discriminate].
    unfold port_to_u16, parse_u16. destruct (parse_uint 10 u16_max p) eqn:Ep; [|discriminate].
    intros H; inversion H; subst. apply parse_uint_10 in Ep as [Ep1 Ep2]. exists a, p.
    repeat split; auto. unfold u16_max in Ep2. lia.
  - intros (a & p & -> & Hp & Ha & Hd & Hb). cbn [append]. rewrite (rcut_app _ _ _ Hp), Ha.
    unfold port_to_u16, parse_u16.
    assert (E : parse_uint 10 u16_max p = Some port) by (apply parse_uint_10; split; [exact Hd|unfold u16_max; lia]).
    rewrite E. reflexivity.
Qed.
