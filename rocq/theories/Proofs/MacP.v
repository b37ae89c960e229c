From Coq Require Import String Ascii List Bool.
From Verif Require Import Base.Arith Base.Str Base.Outcome Spec.TextSpec Spec.MacSpec Proofs.TextP Proofs.IpV4P Proofs.IpV6P Model.Mac.
Import ListNotations.
Local Open Scope string_scope.
Local Open Scope N_scope.
Ltac Zify.zify_post_hook ::= Z.div_mod_to_equations.

Lemma digit_val_16 a d : digit_val 16 a = Some d <-> hex_digit a d.
Proof.
  rewrite <- hex_to_digit_spec.
  assert (S : forallb (fun a => opt_eqb (digit_val 16 a) (IpUtils.hex_to_digit a)) ascii_all = true) by (vm_compute; reflexivity).
  rewrite forallb_forall in S. specialize (S a (ascii_all_in a)). apply opt_eqb_eq in S. rewrite S. tauto.
Qed.

Lemma hex_octet_lt s v : hex_octet s v -> v < 256.
Proof.
  intros [Hl Hd]. apply denotes_hexs in Hd as (ds & Hh & ->).
  pose proof (hexs_len _ _ Hh) as L. rewrite bytes_len, Hl in L. apply hexs_bound in Hh.
  destruct ds as [|a [|b [|]]]; try discriminate L.
  inversion Hh as [|? ? Ha Hb]; subst. inversion Hb; subst. unfold be_value; cbn [fold_left]. lia.
Qed.

Lemma hex_octet_parse bits s v : 8 <= bits -> hex_octet s v -> parse_uint 16 (2 ^ bits - 1) s = Some v.
Proof.
  intros Hb H. pose proof (hex_octet_lt _ _ H) as Hv. destruct H as [Hl Hd].
  assert (Hm : v <= 2 ^ bits - 1).
  { assert (2 ^ 8 <= 2 ^ bits) by (apply N.pow_le_mono_r; lia). change (2 ^ 8) with 256 in *. lia. }
  assert (P : parse_digits 16 (2 ^ bits - 1) 0 s = Some v).
  { apply (parse_digits_complete hex_digit 16); [apply digit_val_16|lia|exact Hd|exact Hm]. }
  destruct s as [|a r]; [discriminate Hl|]. cbn [parse_uint].
  destruct (Ascii.eqb_spec a "+"%char) as [->|]; [|exact P].
  cbn [parse_digits] in P. change (digit_val 16 "+") with (@None N) in P. discriminate.
Qed.

Lemma hex_octet_chars s v : hex_octet s v -> all_chars (fun a => negb (is_mac_sep a)) s = true.
Proof.
  intros [_ Hd]. induction Hd as [|s v a d H IH Ha]; [reflexivity|].
  rewrite all_chars_app, IH. cbn [all_chars andb]. rewrite andb_true_r. apply digit_val_16 in Ha.
  unfold is_mac_sep. destruct (Ascii.eqb_spec a "-"%char); [subst; discriminate|].
  destruct (Ascii.eqb_spec a ":"%char); [subst; discriminate|]. reflexivity.
Qed.

Lemma mac_text_split s vs : mac_text s vs -> Forall2 hex_octet (split_pred is_mac_sep s) vs.
Proof.
  induction 1 as [p v Hp|p v c s vs Hp Hc Hs IH].
  - rewrite split_pred_no_sep by (eapply hex_octet_chars; eauto). constructor; [exact Hp|constructor].
  - rewrite split_pred_app_sep; [constructor; auto|eapply hex_octet_chars; eauto|].
    destruct Hc as [-> | ->]; reflexivity.
Qed.

(** The parse loop over [k] remaining octets. *)
Lemma mac_loop_spec bits k parts vs rest ret :
  Forall2 hex_octet parts vs -> length vs = k -> 8 * N.of_nat k <= bits ->
  ret < 2 ^ bits -> (exists q, ret = q * 2 ^ (8 * N.of_nat k)) ->
  mac_loop bits (steps_rev k) (parts ++ rest) ret = Val (Some (ret + be_value 256 vs)).
Proof.
  intros H. revert k ret. induction H as [|p v parts vs Hp Hf IH]; intros k ret Hk Hb Hr Hq.
  - subst k. cbn. f_equal. f_equal. unfold be_value. cbn. lia.
  - destruct k as [|k]; [discriminate|]. cbn [length] in Hk. cbn [app mac_loop steps_rev].
    rewrite (hex_octet_parse bits p v); [|lia|exact Hp].
    pose proof (hex_octet_lt _ _ Hp) as Hv.
    destruct Hq as [q Hq].
    assert (E8 : 2 ^ (8 * N.of_nat (S k)) = 256 * 2 ^ (8 * N.of_nat k)).
    { replace (8 * N.of_nat (S k)) with (8 + 8 * N.of_nat k) by lia. rewrite N.pow_add_r. reflexivity. }
    assert (Hpow : 0 < 2 ^ (8 * N.of_nat k)) by (apply N.neq_0_lt_0, N.pow_nonzero; discriminate).
    assert (Eb : 2 ^ bits = 2 ^ (bits - 8 * N.of_nat (S k)) * 2 ^ (8 * N.of_nat (S k))).
    { rewrite <- N.pow_add_r. f_equal. lia. }
    set (P := 2 ^ (8 * N.of_nat k)) in *. set (M := 2 ^ (bits - 8 * N.of_nat (S k))) in *.
    assert (Hqm : q + 1 <= M).
    { rewrite E8 in Eb, Hq. nia. }
    assert (Hvk : v * P < 2 ^ bits) by (rewrite Eb, E8; nia).
    rewrite N.shiftl_mul_pow2. fold P. rewrite N.mod_small by exact Hvk.
    assert (Hlt : ret + v * P < 2 ^ bits).
    { rewrite Eb, Hq, E8. nia. }
    replace (ret + v * P <? 2 ^ bits) with true by lia.
    rewrite IH; [|lia|lia|exact Hlt|].
    + f_equal. f_equal.
      assert (Hbe : forall l acc, fold_left (fun acc d => acc * 256 + d) l acc = acc * 256 ^ N.of_nat (length l) + be_value 256 l).
      { clear. unfold be_value. intros l. induction l as [|d l IH] using rev_ind; intros acc; [cbn; lia|].
        rewrite !fold_left_app, app_length. cbn [fold_left length]. rewrite IH.
        replace (N.of_nat (length l + 1)) with (1 + N.of_nat (length l)) by lia.
        rewrite N.pow_add_r. change (256 ^ 1) with 256. nia. }
      unfold be_value at 2. cbn [fold_left]. rewrite Hbe. replace (length vs) with k by lia.
      unfold P. rewrite N.pow_mul_r. change (2 ^ 8) with 256. lia.
    + exists (q * 256 + v). rewrite Hq, E8. fold P. nia.
Qed.

Lemma mac_parse_gen bits k s vs :
  mac_text s vs -> length vs = k -> 8 * N.of_nat k <= bits ->
  mac_loop bits (steps_rev k) (split_pred is_mac_sep s) 0 = Val (Some (be_value 256 vs)).
Proof.
  intros H Hk Hb. apply mac_text_split in H.
  rewrite <- (app_nil_r (split_pred is_mac_sep s)).
  rewrite (mac_loop_spec bits k _ vs []); auto.
  - apply N.neq_0_lt_0, N.pow_nonzero; discriminate.
  - exists 0. lia.
Qed.

Lemma mac_u48_parse s vs : mac_text s vs -> length vs = 6%nat -> mac_str_to_u48 s = Val (Some (be_value 256 vs)).
Proof. intros H Hl. apply mac_parse_gen; auto. lia. Qed.
Lemma mac_u64_parse s vs : mac_text s vs -> length vs = 8%nat -> mac_str_to_u64 s = Val (Some (be_value 256 vs)).
Proof. intros H Hl. apply mac_parse_gen; auto. lia. Qed.
Lemma mac_any_parse s vs : mac_text s vs -> (length vs = 6 \/ length vs = 8 \/ length vs = 16)%nat ->
  mac_str_to_u128_any s = Val (Some (be_value 256 vs)).
Proof.
  intros H Hl. unfold mac_str_to_u128_any.
  pose proof (Forall2_len _ _ _ (mac_text_split _ _ H)) as L. rewrite L.
  replace (negb (Nat.eqb (length vs) 6) && negb (Nat.eqb (length vs) 8) && negb (Nat.eqb (length vs) 16)) with false
    by (symmetry; destruct Hl as [-> | [-> | ->]]; reflexivity).
  apply mac_parse_gen; auto. lia.
Qed.

(** ** Printing *)
Lemma hex2_nibbles o : o < 256 -> hex2 o = nibble (o / 16) ++ nibble (o mod 16).
Proof.
  intros H.
  assert (S : forallb (fun o => String.eqb (hex2 o) (nibble (o / 16) ++ nibble (o mod 16))) (map N.of_nat (seq 0 256)) = true)
    by (vm_compute; reflexivity).
  rewrite forallb_forall in S. apply String.eqb_eq, S. apply in_map_iff. exists (N.to_nat o).
  split; [apply N2Nat.id|apply in_seq; lia].
Qed.

Lemma hex2_octet o : o < 256 -> hex_octet (hex2 o) o.
Proof.
  intros H. split; [reflexivity|]. unfold hex2.
  replace o with (16 * (16 * 0 + o / 16) + o mod 16) at 3 by lia.
  change (String (digit_char (o / 16)) (String (digit_char (o mod 16)) ""))
    with (("" ++ String (digit_char (o / 16)) "") ++ String (digit_char (o mod 16)) "").
  constructor; [constructor; [constructor|]|]; apply digit_val_16, digit_val_char; lia.
Qed.

Fixpoint be_octets (k : nat) (n : N) : list N :=
  match k with O => [] | S k' => (n / 2 ^ (8 * N.of_nat k')) mod 256 :: be_octets k' n end.

Lemma mac_print_octets k n :
  mac_print (steps_rev k) n = fold_right (fun o s => hex2 o ++ ":" ++ s) "" (be_octets k n).
Proof.
  induction k as [|k IH]; [reflexivity|]. cbn [steps_rev mac_print be_octets fold_right].
  rewrite land_255, N.shiftr_div_pow2, IH. reflexivity.
Qed.

Lemma str_pop_snoc s a : str_pop (s ++ String a "") = s.
Proof.
  induction s as [|x s IH]; [reflexivity|]. cbn [append].
  change (str_pop (String x (s ++ String a ""))) with
    (match (s ++ String a "") with EmptyString => EmptyString | _ => String x (str_pop (s ++ String a "")) end).
  rewrite IH. destruct s; reflexivity.
Qed.

Lemma mac_pop_join os : os <> [] -> str_pop (fold_right (fun o s => hex2 o ++ ":" ++ s) "" os) = sep_by ":" (map hex2 os).
Proof.
  intros Hne.
  assert (E : fold_right (fun o s => hex2 o ++ ":" ++ s) "" os = sep_by ":" (map hex2 os) ++ ":").
  { induction os as [|o os IH]; [congruence|]. destruct os as [|o2 os]; [reflexivity|].
    cbn [fold_right]. cbn [fold_right] in IH. rewrite IH by discriminate.
    change (map hex2 (o :: o2 :: os)) with (hex2 o :: hex2 o2 :: map hex2 os).
    change (sep_by ":" (hex2 o :: hex2 o2 :: map hex2 os)) with (hex2 o ++ String ":" (sep_by ":" (map hex2 (o2 :: os)))).
    rewrite str_app_assoc. reflexivity. }
  rewrite E. apply str_pop_snoc.
Qed.

Lemma be_octets_octets k n : octets (be_octets k n).
Proof. induction k as [|k IH]; constructor; [lia|exact IH]. Qed.
Lemma be_octets_len k n : length (be_octets k n) = k.
Proof. induction k as [|k IH]; simpl; congruence. Qed.

Lemma canonical_hex2 os : octets os -> canonical_mac os = sep_by ":" (map hex2 os).
Proof.
  intros H. unfold canonical_mac. f_equal. apply map_ext_in. intros o Ho.
  unfold octets in H. rewrite Forall_forall in H. symmetry. apply hex2_nibbles; auto.
Qed.

Lemma canonical_mac_text os : os <> [] -> octets os -> mac_text (canonical_mac os) os.
Proof.
  intros Hne H. rewrite canonical_hex2 by exact H. induction H as [|o os Ho Hos IH]; [congruence|].
  destruct os as [|o2 os]; [constructor; apply hex2_octet; exact Ho|].
  change (sep_by ":" (map hex2 (o :: o2 :: os))) with (hex2 o ++ String ":" (sep_by ":" (map hex2 (o2 :: os)))).
  constructor; [apply hex2_octet; exact Ho|auto|apply IH; discriminate].
Qed.

Lemma mac_print_gen k n : (1 <= k)%nat -> str_pop (mac_print (steps_rev k) n) = canonical_mac (be_octets k n).
Proof.
  intros Hk. rewrite mac_print_octets, mac_pop_join, canonical_hex2; [reflexivity|apply be_octets_octets|].
  destruct k; [lia|discriminate].
Qed.

Lemma be_octets_value k n : n < 2 ^ (8 * N.of_nat k) -> be_value 256 (be_octets k n) = n.
Proof.
  assert (G : forall k n, be_value 256 (be_octets k n) = n mod 2 ^ (8 * N.of_nat k)).
  { clear. intros k n. induction k as [|k IH].
    - cbn. rewrite N.mod_1_r. reflexivity.
    - cbn [be_octets]. unfold be_value. cbn [fold_left].
      assert (Hbe : forall l acc, fold_left (fun acc d => acc * 256 + d) l acc = acc * 256 ^ N.of_nat (length l) + be_value 256 l).
      { clear. unfold be_value. intros l. induction l as [|d l IH] using rev_ind; intros acc; [cbn; lia|].
        rewrite !fold_left_app, app_length. cbn [fold_left length]. rewrite IH.
        replace (N.of_nat (length l + 1)) with (1 + N.of_nat (length l)) by lia.
        rewrite N.pow_add_r. change (256 ^ 1) with 256. nia. }
      rewrite Hbe, be_octets_len, IH.
      replace (8 * N.of_nat (S k)) with (8 * N.of_nat k + 8) by lia.
      replace (256 ^ N.of_nat k) with (2 ^ (8 * N.of_nat k)) by (rewrite N.pow_mul_r; reflexivity).
      rewrite N.pow_add_r.
      rewrite N.mod_mul_r by (try apply N.pow_nonzero; discriminate). change (2 ^ 8) with 256. lia. }
  intros H. rewrite G. apply N.mod_small; exact H.
Qed.

Lemma be_octets_of_value os : octets os -> be_octets (length os) (be_value 256 os) = os.
Proof.
  intros H.
  assert (inj : forall a b : list N, length a = length b -> octets a -> octets b -> be_value 256 a = be_value 256 b -> a = b).
  { clear. induction a as [|x a IH] using rev_ind; intros b Hl Ha Hb E.
    - destruct b; [reflexivity|discriminate].
    - destruct (exists_last (l := b)) as (b' & y & ->).
      { intros ->. rewrite app_length in Hl. simpl in Hl; lia. }
      rewrite !app_length in Hl. cbn [length] in Hl.
      apply Forall_app in Ha as [Ha1 Ha2]. apply Forall_app in Hb as [Hb1 Hb2].
      inversion Ha2; inversion Hb2; subst. rewrite !be_value_app in E.
      assert (x = y) by lia. subst. f_equal. apply IH; auto; lia. }
  apply inj; [apply be_octets_len|apply be_octets_octets|exact H|].
  apply be_octets_value.
  assert (B : Forall (fun x => x <= 255) os) by (eapply Forall_impl; [|exact H]; intros; cbv beta in *; lia).
  pose proof (be256_bound os _ B eq_refl) as L. rewrite N.pow_mul_r. exact L.
Qed.

Lemma mac_u48_roundtrip n : n < 2 ^ 48 -> mac_str_to_u48 (mac_u48_to_str n) = Val (Some n).
Proof.
  intros H. unfold mac_u48_to_str. rewrite mac_print_gen by lia.
  rewrite (mac_u48_parse _ (be_octets 6 n)).
  - rewrite be_octets_value by exact H. reflexivity.
  - apply canonical_mac_text; [discriminate|apply be_octets_octets].
  - apply be_octets_len.
Qed.
Lemma mac_u64_roundtrip n : n < 2 ^ 64 -> mac_str_to_u64 (mac_u64_to_str n) = Val (Some n).
Proof.
  intros H. unfold mac_u64_to_str. rewrite mac_print_gen by lia.
  rewrite (mac_u64_parse _ (be_octets 8 n)).
  - rewrite be_octets_value by exact H. reflexivity.
  - apply canonical_mac_text; [discriminate|apply be_octets_octets].
  - apply be_octets_len.
Qed.

(** The printed text is the canonical one. *)
Lemma mac_u48_print os : octets os -> length os = 6%nat -> mac_u48_to_str (be_value 256 os) = canonical_mac os.
Proof. intros H Hl. unfold mac_u48_to_str. rewrite mac_print_gen by lia. rewrite <- Hl, be_octets_of_value by exact H. reflexivity. Qed.
Lemma mac_u64_print os : octets os -> length os = 8%nat -> mac_u64_to_str (be_value 256 os) = canonical_mac os.
Proof. intros H Hl. unfold mac_u64_to_str. rewrite mac_print_gen by lia. rewrite <- Hl, be_octets_of_value by exact H. reflexivity. Qed.

(** ** Any width *)
Lemma lz_lt n k : k <= 128 -> n < 2 ^ 128 -> (leading_zeros_128 n <? k) = (2 ^ (128 - k) <=? n) \/ k = 0.
Proof.
  intros Hk Hn. destruct (N.eq_dec k 0) as [|Hk0]; [right; assumption|left].
  unfold leading_zeros_128. destruct (N.eq_dec n 0) as [->|Hn0].
  - change (N.size 0) with 0. replace (128 - 0 <? k) with false by lia.
    symmetry. apply N.leb_gt. apply N.neq_0_lt_0, N.pow_nonzero; discriminate.
  - rewrite N.size_log2 by exact Hn0.
    assert (L : N.log2 n < 128) by (apply N.log2_lt_pow2; lia).
    destruct (N.leb_spec (2 ^ (128 - k)) n) as [H|H].
    + apply N.log2_le_pow2 in H; [|lia]. lia.
    + apply N.log2_lt_pow2 in H; [|lia]. lia.
Qed.

Definition print_width (n : N) : nat := if 2 ^ 96 <=? n then 16%nat else if 2 ^ 48 <=? n then 8%nat else 6%nat.

Lemma mac_u128_print n : n < 2 ^ 128 -> mac_u128_to_str n = canonical_mac (be_octets (print_width n) n).
Proof.
  intros Hn. unfold mac_u128_to_str, print_width.
  destruct (lz_lt n 32 ltac:(lia) Hn) as [E1|]; [|discriminate].
  destruct (lz_lt n 80 ltac:(lia) Hn) as [E2|]; [|discriminate].
  rewrite E1, E2. change (128 - 32) with 96. change (128 - 80) with 48.
  apply mac_print_gen. destruct (2 ^ 96 <=? n), (2 ^ 48 <=? n); lia.
Qed.

Lemma canonical_len os : octets os -> os <> [] -> String.length (canonical_mac os) = (3 * length os - 1)%nat.
Proof.
  intros H Hne. rewrite canonical_hex2 by exact H. clear H. induction os as [|o os IH]; [congruence|].
  destruct os as [|o2 os]; [reflexivity|].
  change (sep_by ":" (map hex2 (o :: o2 :: os))) with (hex2 o ++ String ":" (sep_by ":" (map hex2 (o2 :: os)))).
  unfold hex2 at 1. cbn [append String.length]. rewrite IH by discriminate. cbn [length]. lia.
Qed.

Lemma be_value_lt os : octets os -> be_value 256 os < 256 ^ N.of_nat (length os).
Proof.
  intros H. apply be256_bound; [|reflexivity]. eapply Forall_impl; [|exact H]. intros; cbv beta in *; lia.
Qed.

(** Exactly when parse-then-print is the identity. *)
Lemma mac_any_roundtrip os : octets os -> (length os = 6 \/ length os = 8 \/ length os = 16)%nat ->
  mac_u128_to_str (be_value 256 os) = canonical_mac os <->
  (length os = 6%nat \/ length os = 8%nat /\ 2 ^ 48 <= be_value 256 os \/ length os = 16%nat /\ 2 ^ 96 <= be_value 256 os).
Proof.
  intros H Hl.
  assert (Hb : be_value 256 os < 2 ^ 128).
  { pose proof (be_value_lt os H) as B. eapply N.lt_le_trans; [exact B|]. change (2 ^ 128) with (256 ^ 16).
    apply N.pow_le_mono_r; lia. }
  rewrite mac_u128_print by exact Hb.
  assert (E : canonical_mac (be_octets (print_width (be_value 256 os)) (be_value 256 os)) = canonical_mac os <->
              print_width (be_value 256 os) = length os).
  { split.
    - intros E. apply (f_equal String.length) in E.
      rewrite !canonical_len in E; auto using be_octets_octets.
      + rewrite be_octets_len in E. unfold print_width in *. destruct (2 ^ 96 <=? be_value 256 os); [|destruct (2 ^ 48 <=? be_value 256 os)]; lia.
      + intros ->; simpl in Hl; lia.
      + intros E2. apply (f_equal (@length _)) in E2. rewrite be_octets_len in E2. cbn [length] in E2.
        unfold print_width in E2. destruct (2 ^ 96 <=? be_value 256 os); [|destruct (2 ^ 48 <=? be_value 256 os)]; lia.
    - intros ->. rewrite be_octets_of_value by exact H. reflexivity. }
  rewrite E. clear E.
  pose proof (be_value_lt os H) as B. unfold print_width.
  destruct (N.leb_spec (2 ^ 96) (be_value 256 os)) as [H1|H1];
  destruct (N.leb_spec (2 ^ 48) (be_value 256 os)) as [H2|H2].
  - destruct Hl as [L|[L|L]]; rewrite L in *.
    + exfalso. change (256 ^ N.of_nat 6) with (2 ^ 48) in B. lia.
    + change (256 ^ N.of_nat 8) with (2 ^ 64) in B. exfalso. assert (2 ^ 64 < 2 ^ 96) by reflexivity. lia.
    + split; [intros _; right; right; auto|reflexivity].
  - exfalso. assert (2 ^ 48 < 2 ^ 96) by reflexivity. lia.
  - destruct Hl as [L|[L|L]]; rewrite L in *.
    + exfalso. change (256 ^ N.of_nat 6) with (2 ^ 48) in B. lia.
    + split; [intros _; right; left; auto|reflexivity].
    + split; [discriminate|]. intros [?|[[? _]|[_ ?]]]; [discriminate|discriminate|lia].
  - destruct Hl as [L|[L|L]]; rewrite L in *.
    + split; [intros _; left; reflexivity|reflexivity].
    + split; [discriminate|]. intros [?|[[_ ?]|[? _]]]; [discriminate|lia|discriminate].
    + split; [discriminate|]. intros [?|[[? _]|[_ ?]]]; [discriminate|discriminate|lia].
Qed.

Lemma mac_any_not_roundtrip_8 : exists os v, length os = 8%nat /\ octets os /\
  mac_str_to_u128_any (canonical_mac os) = Val (Some v) /\ mac_u128_to_str v <> canonical_mac os.
Proof.
  exists [0;0;1;2;3;4;5;6], 1108152157446. splits; [reflexivity|repeat constructor|vm_compute; reflexivity|].
  vm_compute. discriminate.
Qed.
Lemma mac_any_not_roundtrip_16 : exists os v, length os = 16%nat /\ octets os /\
  mac_str_to_u128_any (canonical_mac os) = Val (Some v) /\ mac_u128_to_str v <> canonical_mac os.
Proof.
  exists [0;0;0;0;1;2;3;4;5;6;7;8;9;10;11;12], (be_value 256 [0;0;0;0;1;2;3;4;5;6;7;8;9;10;11;12]).
  splits; [reflexivity|repeat constructor|vm_compute; reflexivity|]. vm_compute. discriminate.
Qed.
(** Printing loses bits: two different values print alike. *)
Lemma mac_u128_print_collision : exists a b, a <> b /\ a < 2 ^ 128 /\ b < 2 ^ 128 /\ mac_u128_to_str a = mac_u128_to_str b.
Proof. exists (2 ^ 64 + 2 ^ 48), (2 ^ 48). splits; [discriminate|reflexivity|reflexivity|vm_compute; reflexivity]. Qed.

(** The dedicated 128-bit parser shifts by 119, 111, .. instead of 120, 112, .. *)
Lemma mac_u128_wrong : exists os v, length os = 16%nat /\ octets os /\
  mac_str_to_u128 (canonical_mac os) = Val (Some v) /\ v <> be_value 256 os.
Proof.
  exists [0;0;0;0;0;0;0;0;0;0;0;0;0;0;1;2], 128.
  splits; [reflexivity|repeat constructor|vm_compute; reflexivity|]. vm_compute. discriminate.
Qed.

Lemma mac_u48_out_of_range : exists s v, mac_str_to_u48 s = Val (Some v) /\ 2 ^ 48 <= v.
Proof. exists "fff:0:0:0:0:0", (4095 * 2 ^ 40). split; [vm_compute; reflexivity|vm_compute; discriminate]. Qed.
Lemma mac_u64_panics : exists s, mac_str_to_u64 s = Panic.
Proof. exists "ff:ffff:0:0:0:0:0:0". vm_compute. reflexivity. Qed.
Lemma mac_extra_octets : exists s vs, mac_text s vs /\ length vs = 7%nat /\ mac_str_to_u48 s = Val (Some (be_value 256 (firstn 6 vs))).
Proof.
  exists (canonical_mac [1;2;3;4;5;6;7]), [1;2;3;4;5;6;7].
  splits; [apply canonical_mac_text; [discriminate|repeat constructor]|reflexivity|vm_compute; reflexivity].
Qed.

(** ** What holds of the parsers on arbitrary text whose parts have at most two characters *)
Lemma parse_digits_bound radix max : forall s acc v, 0 < radix -> parse_digits radix max acc s = Some v ->
  v < (acc + 1) * radix ^ N.of_nat (String.length s).
Proof.
  induction s as [|a s IH]; intros acc v Hr E.
  - cbn [parse_digits String.length] in *. injection E as <-. change (radix ^ N.of_nat 0) with 1. lia.
  - cbn [parse_digits String.length] in *. destruct (digit_val radix a) as [d|] eqn:D; [|discriminate].
    destruct (acc * radix + d <=? max); [|discriminate]. apply IH in E; [|exact Hr].
    assert (Hd : d < radix).
    { unfold digit_val in D. cbv zeta in D.
      match type of D with (match ?o with _ => _ end) = _ => destruct o as [w|]; [|discriminate] end.
      destruct (w <? radix) eqn:L; [|discriminate]. injection D as <-. apply N.ltb_lt in L. exact L. }
    replace (N.of_nat (S (String.length s))) with (1 + N.of_nat (String.length s)) by lia.
    rewrite N.pow_add_r, N.pow_1_r. eapply N.lt_le_trans; [exact E|].
    rewrite N.mul_assoc. apply N.mul_le_mono_r. nia.
Qed.

Lemma parse_two_chars max p v : (String.length p <= 2)%nat -> parse_uint 16 max p = Some v -> v < 256.
Proof.
  intros Hl E.
  assert (G : forall q, (String.length q <= 2)%nat -> parse_digits 16 max 0 q = Some v -> v < 256).
  { intros q Hq Eq. apply parse_digits_bound in Eq; [|lia]. eapply N.lt_le_trans; [exact Eq|].
    change 256 with (16 ^ 2). rewrite N.mul_1_l. apply N.pow_le_mono_r; lia. }
  destruct p as [|a r]; [discriminate|]. cbn [parse_uint] in E.
  destruct (Ascii.eqb a "+"%char).
  - destruct r as [|b r]; [discriminate|]. apply G in E; [exact E|]. cbn [String.length] in *. lia.
  - apply G in E; [exact E|exact Hl].
Qed.

Lemma mac_loop_short bits k : forall parts ret,
  8 * N.of_nat k <= bits -> Forall (fun p => (String.length p <= 2)%nat) parts ->
  ret < 2 ^ bits -> (exists q, ret = q * 2 ^ (8 * N.of_nat k)) ->
  exists r, mac_loop bits (steps_rev k) parts ret = Val r /\
            forall v, r = Some v -> v < ret + 2 ^ (8 * N.of_nat k) /\ (k <= length parts)%nat.
Proof.
  induction k as [|k IH]; intros parts ret Hb Hf Hr Hq.
  - eexists; split; [reflexivity|]. intros v [= <-]. split; [change (2 ^ (8 * N.of_nat 0)) with 1; lia|lia].
  - cbn [mac_loop steps_rev]. destruct parts as [|p parts]; [eexists; split; [reflexivity|discriminate]|].
    destruct (parse_uint 16 (2 ^ bits - 1) p) as [v|] eqn:P; [|eexists; split; [reflexivity|discriminate]].
    inversion Hf as [|? ? Hp Hf']; subst. pose proof (parse_two_chars _ _ _ Hp P) as Hv.
    destruct Hq as [q Hq].
    assert (E8 : 2 ^ (8 * N.of_nat (S k)) = 256 * 2 ^ (8 * N.of_nat k)).
    { replace (8 * N.of_nat (S k)) with (8 + 8 * N.of_nat k) by lia. rewrite N.pow_add_r. reflexivity. }
    assert (Hpow : 0 < 2 ^ (8 * N.of_nat k)) by (apply N.neq_0_lt_0, N.pow_nonzero; discriminate).
    assert (Eb : 2 ^ bits = 2 ^ (bits - 8 * N.of_nat (S k)) * 2 ^ (8 * N.of_nat (S k))).
    { rewrite <- N.pow_add_r. f_equal. lia. }
    set (P2 := 2 ^ (8 * N.of_nat k)) in *. set (M := 2 ^ (bits - 8 * N.of_nat (S k))) in *.
    assert (Hqm : q + 1 <= M) by (rewrite E8 in Eb, Hq; nia).
    assert (Hvk : v * P2 < 2 ^ bits) by (rewrite Eb, E8; nia).
    rewrite N.shiftl_mul_pow2. fold P2. rewrite N.mod_small by exact Hvk.
    assert (Hlt : ret + v * P2 < 2 ^ bits) by (rewrite Eb, Hq, E8; nia).
    replace (ret + v * P2 <? 2 ^ bits) with true by lia.
    destruct (IH parts (ret + v * P2)) as (r & Er & Hr2); [lia|exact Hf'|exact Hlt| |].
    + exists (q * 256 + v). fold P2. rewrite Hq, E8. lia.
    + exists r. split; [exact Er|]. intros w Hw. destruct (Hr2 w Hw) as [H1 H2]. fold P2 in H1.
      cbn [length]. split; [rewrite E8; nia|lia].
Qed.

Lemma mac_short_total s : Forall (fun p => (String.length p <= 2)%nat) (split_pred is_mac_sep s) ->
  (exists r, mac_str_to_u48 s = Val r /\ forall v, r = Some v -> v < 2 ^ 48) /\
  (exists r, mac_str_to_u64 s = Val r /\ forall v, r = Some v -> v < 2 ^ 64) /\
  (exists r, mac_str_to_u128_any s = Val r /\ forall v, r = Some v -> v < 2 ^ 128).
Proof.
  intros H. splits.
  - destruct (mac_loop_short 64 6 (split_pred is_mac_sep s) 0) as (r & E & B); try exact H; try lia; [exists 0; lia|].
    exists r. split; [exact E|]. intros v Hv. destruct (B v Hv) as [L _]. exact L.
  - destruct (mac_loop_short 64 8 (split_pred is_mac_sep s) 0) as (r & E & B); try exact H; try lia; [exists 0; lia|].
    exists r. split; [exact E|]. intros v Hv. destruct (B v Hv) as [L _]. exact L.
  - unfold mac_str_to_u128_any. set (ps := split_pred is_mac_sep s) in *.
    destruct (negb (Nat.eqb (length ps) 6) && negb (Nat.eqb (length ps) 8) && negb (Nat.eqb (length ps) 16)) eqn:C;
      [eexists; split; [reflexivity|discriminate]|].
    assert (Hl : (length ps = 6 \/ length ps = 8 \/ length ps = 16)%nat).
    { destruct (Nat.eqb_spec (length ps) 6), (Nat.eqb_spec (length ps) 8), (Nat.eqb_spec (length ps) 16); auto; discriminate C. }
    destruct (mac_loop_short 128 (length ps) ps 0) as (r & E & B); try exact H; try lia; [exists 0; lia|].
    exists r. split; [exact E|]. intros v Hv. destruct (B v Hv) as [L _].
    eapply N.lt_le_trans; [exact L|]. rewrite N.add_0_l. apply N.pow_le_mono_r; lia.
Qed.

(** ** Exactly what the parsers do *)
Lemma sep_iff c : is_mac_sep c = true <-> separator c.
Proof. unfold is_mac_sep, separator. rewrite orb_true_iff, !Ascii.eqb_eq. tauto. Qed.
Lemma no_separator_chars p : no_separator p <-> all_chars (fun a => negb (is_mac_sep a)) p = true.
Proof.
  split.
  - intro H. induction H as [|c p N H IH]; [reflexivity|]. cbn [all_chars]. rewrite IH, andb_true_r. apply negb_true_iff. destruct (is_mac_sep c) eqn:E; [|reflexivity].
    destruct N. apply sep_iff. exact E.
  - induction p as [|c p IH]; cbn [all_chars]; intro H; constructor; apply andb_true_iff in H as [A B]; auto.
    intro X. apply sep_iff in X. rewrite X in A. discriminate.
Qed.
Lemma parts_split s : mac_parts s (split_pred is_mac_sep s).
Proof.
  induction s as [|a s IH]; [cbn; constructor; constructor|].
  destruct (is_mac_sep a) eqn:A.
  - cbn [split_pred]. rewrite A. apply (parts_more "" a s); [constructor|apply sep_iff; exact A|exact IH].
  - assert (NS : ~ separator a) by (intro X; apply sep_iff in X; congruence).
    remember (split_pred is_mac_sep s) as ps eqn:E. destruct IH as [p N|p c s ps N C H].
    + rewrite split_pred_no_sep; [constructor; constructor; auto|]. cbn [all_chars]. rewrite A. cbn. apply no_separator_chars. exact N.
    + change (String a (p ++ String c s)) with (String a p ++ String c s). rewrite split_pred_app_sep; [|apply no_separator_chars; constructor; auto|apply sep_iff; exact C].
      rewrite split_pred_app_sep in E; [|apply no_separator_chars; exact N|apply sep_iff; exact C]. injection E as <-. constructor; [constructor; auto|exact C|exact H].
Qed.
Lemma mac_parts_split s ps : mac_parts s ps -> ps = split_pred is_mac_sep s.
Proof.
  intro H. induction H as [p N|p c s ps N C H IH].
  - symmetry. apply split_pred_no_sep, no_separator_chars, N.
  - rewrite split_pred_app_sep; [rewrite IH; reflexivity|apply no_separator_chars, N|apply sep_iff, C].
Qed.
Lemma parse_uint_16 max s v : parse_uint 16 max s = Some v <-> hex_number s v /\ v <= max.
Proof.
  assert (HP : forall s v, parse_digits 16 max 0 s = Some v <-> denotes hex_digit 16 s v /\ v <= max)
    by (intros; apply parse_digits_iff; [apply digit_val_16|lia]).
  unfold hex_number. split.
  - destruct s as [|a r]; cbn [parse_uint]; [discriminate|].
    destruct (Ascii.eqb_spec a "+"%char) as [->|Hn].
    + destruct r as [|b r]; [discriminate|]. intros H; apply HP in H as [H1 H2].
      split; [|exact H2]. exists "+", (String b r). splits; auto. discriminate.
    + intros H; apply HP in H as [H1 H2]. split; [|exact H2].
      exists "", (String a r). splits; auto. discriminate.
  - intros [(sign & digits & Hs & -> & Hne & Hd) Hm].
    assert (H : parse_digits 16 max 0 digits = Some v) by (apply HP; auto).
    destruct Hs as [-> | ->]; cbn [append].
    + destruct digits as [|a r]; [congruence|]. cbn [parse_uint].
      destruct (Ascii.eqb_spec a "+"%char) as [->|Hn]; [|exact H].
      cbn [parse_digits] in H. change (digit_val 16 "+") with (@None N) in H. discriminate.
    + destruct digits as [|a r]; [congruence|]. exact H.
Qed.
Lemma hex_number_fits bits s v : parse_uint 16 (2 ^ bits - 1) s = Some v <-> hex_number s v /\ v < 2 ^ bits.
Proof.
  rewrite parse_uint_16. assert (0 < 2 ^ bits) by (apply N.neq_0_lt_0, N.pow_nonzero; discriminate).
  generalize dependent (2 ^ bits). intros. split; intros [A B]; split; auto; lia.
Qed.
Notation fits bits := (fun p v => hex_number p v /\ v < 2 ^ bits).
Lemma two_cons {A B} (R : A -> B -> Prop) x y l m : Forall2 R (x :: l) (y :: m) -> R x y /\ Forall2 R l m.
Proof. intro H. inversion H. auto. Qed.
Lemma loop_value bits shifts : forall ps ret v, ret < 2 ^ bits ->
  mac_loop bits shifts ps ret = Val (Some v) <->
  exists vs, length vs = length shifts /\ Forall2 (fits bits) (firstn (length shifts) ps) vs /\ v = ret + placed bits shifts vs /\ v < 2 ^ bits.
Proof.
  induction shifts as [|i shifts IH]; intros ps ret v R; cbn [mac_loop].
  - split; [intro H; injection H as <-; exists []; cbn; splits; auto; lia|]. intros (vs & L & _ & -> & _). destruct vs; [|discriminate]. cbn. do 2 f_equal. lia.
  - destruct ps as [|p ps]; [split; [discriminate|]; intros (vs & L & F & _); inversion F; subst; discriminate|].
    destruct (parse_uint 16 (2 ^ bits - 1) p) as [x|] eqn:E.
    + apply hex_number_fits in E. rewrite N.shiftl_mul_pow2. remember ((x * 2 ^ i) mod 2 ^ bits) as y eqn:Ey.
      destruct (N.ltb_spec (ret + y) (2 ^ bits)) as [S|S].
      * rewrite IH by exact S. split.
        -- intros (vs & L & F & -> & B). exists (x :: vs). cbn [length firstn placed]. splits; auto; rewrite <- ?Ey; try lia.
        -- intros (vs & L & F & -> & B). destruct vs as [|x' vs']; [discriminate L|]. cbn [firstn length] in F. apply two_cons in F. destruct F as [Hx Fr].
           assert (x' = x) as ->. { apply hex_number_fits in E. apply hex_number_fits in Hx. congruence. }
           exists vs'. cbn [length placed] in *. rewrite <- ?Ey in * |-. splits; auto; try lia.
      * split; [discriminate|]. intros (vs & L & F & -> & B). destruct vs as [|x' vs']; [discriminate L|]. cbn [firstn length] in F. apply two_cons in F. destruct F as [Hx Fr].
        assert (x' = x) as ->. { apply hex_number_fits in E. apply hex_number_fits in Hx. congruence. }
        cbn [placed] in B. rewrite <- Ey in B. lia.
    + split; [discriminate|]. intros (vs & L & F & -> & B). destruct vs as [|x' vs']; [discriminate L|]. cbn [firstn length] in F. apply two_cons in F. destruct F as [Hx Fr]. apply hex_number_fits in Hx. congruence.
Qed.
Lemma loop_panic bits shifts : forall ps ret, ret < 2 ^ bits ->
  mac_loop bits shifts ps ret = Panic <->
  exists vs, (length vs <= length shifts)%nat /\ Forall2 (fits bits) (firstn (length vs) ps) vs /\ 2 ^ bits <= ret + placed bits shifts vs.
Proof.
  induction shifts as [|i shifts IH]; intros ps ret R; cbn [mac_loop].
  - split; [discriminate|]. intros (vs & _ & _ & B). cbn in B. lia.
  - destruct ps as [|p ps].
    { split; [discriminate|]. intros (vs & L & F & B). rewrite firstn_nil in F. inversion F; subst. cbn in B. lia. }
    destruct (parse_uint 16 (2 ^ bits - 1) p) as [x|] eqn:E.
    + apply hex_number_fits in E. rewrite N.shiftl_mul_pow2. remember ((x * 2 ^ i) mod 2 ^ bits) as y eqn:Ey.
      destruct (N.ltb_spec (ret + y) (2 ^ bits)) as [S|S].
      * rewrite IH by exact S. split.
        -- intros (vs & L & F & B). exists (x :: vs). cbn [length firstn placed]. splits; auto; rewrite <- ?Ey; try lia.
        -- intros (vs & L & F & B). destruct vs as [|x' vs]; [cbn in B; lia|]. cbn [firstn length] in F. apply two_cons in F. destruct F as [Hx Fr].
           assert (x' = x) as ->. { apply hex_number_fits in E. apply hex_number_fits in Hx. congruence. }
           exists vs. cbn [length placed] in *. rewrite <- ?Ey in * |-. splits; auto; try lia.
      * split; [intros _|reflexivity]. exists [x]. cbn [length firstn placed]. rewrite <- Ey. splits; [lia|constructor; [exact E|constructor]|].
        destruct shifts; cbn [placed]; lia.
    + split; [discriminate|]. intros (vs & L & F & B). destruct vs as [|x' vs]; [cbn in B; lia|]. cbn [firstn length] in F. apply two_cons in F. destruct F as [Hx Fr].
      apply hex_number_fits in Hx. congruence.
Qed.
Lemma loop_ends bits shifts : forall ps ret, mac_loop bits shifts ps ret <> OutOfFuel.
Proof.
  induction shifts as [|i shifts IH]; intros ps ret; cbn [mac_loop]; [discriminate|]. destruct ps as [|p ps]; [discriminate|].
  destruct (parse_uint _ _ p); [|discriminate]. destruct (_ <? _); [apply IH|discriminate].
Qed.
Lemma loop_exact bits shifts ps :
  (forall v, mac_loop bits shifts ps 0 = Val (Some v) <-> reads bits shifts ps v) /\
  (mac_loop bits shifts ps 0 = Panic <-> overflows bits shifts ps) /\ mac_loop bits shifts ps 0 <> OutOfFuel.
Proof.
  assert (0 < 2 ^ bits) by (apply N.neq_0_lt_0, N.pow_nonzero; discriminate). splits; [intro v; apply loop_value; assumption|apply loop_panic; assumption|apply loop_ends].
Qed.
