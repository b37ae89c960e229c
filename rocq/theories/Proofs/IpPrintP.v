(** [ipv6_to_str]: what it prints, and reading it back. *)
From Coq Require Import String Ascii List Bool.
From Verif Require Import Base.Arith Base.Str Base.Outcome Spec.TextSpec Proofs.TextP Model.IpUtils Model.Ip
  Proofs.IpV4P Proofs.IpV6P Proofs.IpV6G Proofs.IpExtra Proofs.MacP.
Import ListNotations.
Local Open Scope string_scope.
Local Open Scope N_scope.
Ltac Zify.zify_post_hook ::= Z.div_mod_to_equations.

(** ** Groups: all 65536 of them *)
Definition hex_ok (v : N) : bool :=
  let s := hex v in
  let l := String.length s in
  Nat.leb 1 l && Nat.leb l 4 && Bool.eqb (Nat.eqb l 4) (4096 <=? v)
  && match parse_digits 16 65535 0 s with Some w => w =? v | None => false end
  && negb (str_has ":" s) && negb (str_has "." s).
Definition upto (n : N) : list N := N.recursion [] (fun k l => k :: l) n.
Lemma upto_in n v : v < n -> In v (upto n).
Proof.
  unfold upto. revert v. apply (N.peano_ind (fun n => forall v, v < n -> In v (N.recursion [] (fun k l => k :: l) n))).
  - intros v H. lia.
  - intros k IH v H. rewrite N.recursion_succ by (try reflexivity; intros ? ? -> ? ? ->; reflexivity).
    destruct (N.eq_dec v k) as [->|]; [left; reflexivity|right; apply IH; lia].
Qed.
Lemma hex_ok_all : forallb hex_ok (upto 65536) = true.
Proof. vm_compute. reflexivity. Qed.

Lemma hex_group v : v < 65536 ->
  group_text (hex v) v /\ str_has ":" (hex v) = false /\ str_has "." (hex v) = false /\
  (String.length (hex v) = 4%nat <-> 4096 <= v).
Proof.
  intros H. pose proof (proj1 (forallb_forall _ _) hex_ok_all v (upto_in _ _ H)) as K.
  unfold hex_ok in K. cbv zeta in K. rewrite !andb_true_iff, !negb_true_iff in K.
  destruct K as (((((K1 & K2) & K3) & K4) & K5) & K6).
  apply Nat.leb_le in K1, K2. apply eqb_prop in K3.
  splits; auto.
  - split; [lia|]. destruct (parse_digits 16 65535 0 (hex v)) as [w|] eqn:E; [|discriminate].
    apply N.eqb_eq in K4. subst w.
    apply (parse_digits_iff hex_digit 16 digit_val_16) in E; [tauto|lia].
  - destruct (Nat.eqb_spec (String.length (hex v)) 4), (N.leb_spec 4096 v); split; try congruence; lia.
Qed.

Lemma hex_inj a b : a < 65536 -> b < 65536 -> hex a = hex b -> a = b.
Proof.
  intros Ha Hb E. pose proof (parse_hex 65535 a ltac:(lia)) as P1. pose proof (parse_hex 65535 b ltac:(lia)) as P2. congruence.
Qed.

(** ** Segments *)
Lemma land_65535 n : N.land n 65535 = n mod 65536.
Proof. change 65535 with (N.ones 16). rewrite N.land_ones. reflexivity. Qed.

Lemma segments_eq ip : segments ip = map (fun k => (ip / 2 ^ (16 * k)) mod 65536) [7;6;5;4;3;2;1;0].
Proof. unfold segments. apply map_ext. intros k. rewrite land_65535, N.shiftr_div_pow2. reflexivity. Qed.
Lemma segments_len ip : length (segments ip) = 8%nat.
Proof. reflexivity. Qed.
Lemma segments_bound ip : Forall (fun g => g < 65536) (segments ip).
Proof. rewrite segments_eq. apply Forall_forall. intros g H. apply in_map_iff in H as (k & <- & _). lia. Qed.

Fixpoint segs_of (k : nat) (n : N) : list N :=
  match k with O => [] | S k => (n / 65536 ^ N.of_nat k) mod 65536 :: segs_of k n end.
Lemma segs_of_8 ip : segs_of 8 ip = segments ip.
Proof.
  rewrite segments_eq. cbn [segs_of map].
  repeat (f_equal; [do 2 f_equal; reflexivity|]). reflexivity.
Qed.
Lemma be_fold radix l : forall acc, fold_left (fun acc d => acc * radix + d) l acc = acc * radix ^ N.of_nat (length l) + be_value radix l.
Proof.
  unfold be_value. induction l as [|d l IH] using rev_ind; intros acc; [cbn; lia|].
  rewrite !fold_left_app, app_length. cbn [fold_left length]. rewrite IH.
  replace (N.of_nat (length l + 1)) with (1 + N.of_nat (length l)) by lia.
  rewrite N.pow_add_r, N.pow_1_r. nia.
Qed.
Lemma be_value_cons radix d l : be_value radix (d :: l) = d * radix ^ N.of_nat (length l) + be_value radix l.
Proof. unfold be_value at 1. cbn [fold_left]. rewrite be_fold. lia. Qed.
Lemma segs_of_len k n : length (segs_of k n) = k.
Proof. induction k; simpl; congruence. Qed.
Lemma segs_of_value k n : be_value 65536 (segs_of k n) = n mod 65536 ^ N.of_nat k.
Proof.
  induction k as [|k IH]; [cbn [segs_of]; change (65536 ^ N.of_nat 0) with 1; rewrite N.mod_1_r; reflexivity|].
  cbn [segs_of]. rewrite be_value_cons, segs_of_len, IH.
  replace (N.of_nat (S k)) with (N.of_nat k + 1) by lia. rewrite N.pow_add_r, N.pow_1_r.
  rewrite N.mod_mul_r by (try apply N.pow_nonzero; discriminate). lia.
Qed.
Lemma segments_value ip : ip < 2 ^ 128 -> be_value 65536 (segments ip) = ip.
Proof. intros H. rewrite <- segs_of_8, segs_of_value. apply N.mod_small. exact H. Qed.

(** ** The zero run *)
Definition run_at (l : list N) (z : nat * nat) : Prop :=
  snd z = 0%nat \/ exists a c, l = (a ++ repeat 0 (snd z) ++ c)%list /\ length a = fst z.
Definition run_end (l : list N) (z : nat * nat) : Prop :=
  snd z = 0%nat \/ exists a, l = (a ++ repeat 0 (snd z))%list /\ length a = fst z.

Lemma longest_zeros_run r : forall pre cur best,
  run_end pre cur -> run_at pre best -> run_at (pre ++ r) (longest_zeros r (length pre) cur best).
Proof.
  induction r as [|g r IH]; intros pre cur best Hc Hb; cbn [longest_zeros]; [rewrite app_nil_r; exact Hb|].
  replace (pre ++ g :: r)%list with ((pre ++ [g]) ++ r)%list by (rewrite <- app_assoc; reflexivity).
  replace (S (length pre)) with (length (pre ++ [g])) by (rewrite app_length; simpl; lia).
  assert (Hb' : run_at (pre ++ [g]) best).
  { destruct Hb as [Hb|(a & c & -> & Ha)]; [left; exact Hb|right]. exists a, (c ++ [g])%list.
    rewrite <- !app_assoc. auto. }
  destruct (N.eqb_spec g 0) as [->|Hg].
  - cbv zeta. apply IH.
    + right. cbn [fst snd]. destruct Hc as [Hc|(a & -> & Ha)].
      * rewrite Hc. cbn [Nat.eqb]. exists pre. auto.
      * destruct (snd cur) as [|n] eqn:En.
        { cbn [Nat.eqb repeat]. exists a. split; [rewrite app_nil_r; reflexivity|cbn [repeat]; rewrite app_nil_r; reflexivity]. }
        cbn [Nat.eqb]. exists a. split; [|exact Ha]. rewrite <- app_assoc. f_equal.
        change (repeat 0 (S n) ++ [0])%list with ([0] ++ repeat 0 n ++ [0])%list. rewrite repeat_snoc. reflexivity.
    + destruct (Nat.ltb (snd best) _); [|exact Hb'].
      right. cbn [fst snd]. destruct Hc as [Hc|(a & -> & Ha)].
      * rewrite Hc. cbn [Nat.eqb]. exists pre, []. rewrite app_nil_r. auto.
      * destruct (snd cur) as [|n] eqn:En.
        { cbn [Nat.eqb repeat]. exists a, []. split; [rewrite !app_nil_r; reflexivity|cbn [repeat]; rewrite app_nil_r; reflexivity]. }
        cbn [Nat.eqb]. exists a, []. split; [|exact Ha]. rewrite <- app_assoc, app_nil_r. f_equal.
        change (repeat 0 (S n) ++ [0])%list with ([0] ++ repeat 0 n ++ [0])%list. rewrite repeat_snoc. reflexivity.
  - apply IH; [left; reflexivity|exact Hb'].
Qed.

Lemma longest_zeros_split l z : longest_zeros l 0 (0%nat, 0%nat) (0%nat, 0%nat) = z -> (1 < snd z)%nat ->
  l = (firstn (fst z) l ++ repeat 0 (snd z) ++ skipn (fst z + snd z) l)%list /\
  (length (firstn (fst z) l) + snd z + length (skipn (fst z + snd z) l) = length l)%nat.
Proof.
  intros E Hz. pose proof (longest_zeros_run l [] (0%nat,0%nat) (0%nat,0%nat) (or_introl eq_refl) (or_introl eq_refl)) as R.
  cbn [app length] in R. rewrite E in R. destruct R as [R|(a & c & El & Ha)]; [lia|].
  rewrite El. rewrite firstn_app, <- Ha, firstn_all, Nat.sub_diag. cbn [firstn]. rewrite app_nil_r.
  assert (S : skipn (length a + snd z) (a ++ repeat 0 (snd z) ++ c) = c).
  { rewrite <- (repeat_length 0 (snd z)) at 1. rewrite <- app_length, app_assoc. apply skipn_app_len. }
  rewrite S. split; [reflexivity|]. rewrite !app_length, repeat_length. lia.
Qed.

(** ** The printed text *)
Lemma fmt_groups l : Forall (fun g => g < 65536) l -> Forall2 group_text (map hex l) l.
Proof. induction 1 as [|g l Hg Hl IH]; constructor; [apply hex_group, Hg|exact IH]. Qed.

Definition mapped (n : N) : Prop := N.shiftr n 32 = 65535.

Lemma firstn_Forall {A} (P : A -> Prop) n l : Forall P l -> Forall P (firstn n l).
Proof. intros H. rewrite <- (firstn_skipn n l) in H. apply Forall_app in H. tauto. Qed.
Lemma skipn_Forall {A} (P : A -> Prop) n l : Forall P l -> Forall P (skipn n l).
Proof. intros H. rewrite <- (firstn_skipn n l) in H. apply Forall_app in H. tauto. Qed.

Lemma ipv6_to_str_text n : n < 2 ^ 128 -> ~ mapped n -> v6_text (ipv6_to_str n) n.
Proof.
  intros Hn Hm. unfold ipv6_to_str. destruct (N.eqb_spec (N.shiftr n 32) 65535) as [E|_]; [contradiction|]. cbv zeta.
  pose proof (segments_bound n) as B. pose proof (segments_value n Hn) as V. pose proof (segments_len n) as L.
  set (segs := segments n) in *. set (z := longest_zeros segs 0 (0%nat, 0%nat) (0%nat, 0%nat)).
  destruct (Nat.ltb_spec 1 (snd z)) as [Hz|Hz].
  - right. destruct (longest_zeros_split segs z eq_refl Hz) as [Es El].
    exists (map hex (skipn (fst z + snd z) segs)), (map hex (firstn (fst z) segs)), (firstn (fst z) segs), (skipn (fst z + snd z) segs).
    rewrite !map_length. rewrite L in El. splits; [lia|apply fmt_groups, firstn_Forall, B|apply fmt_groups, skipn_Forall, B| |].
    + unfold fmt_subslice. rewrite <- !sep_by_join. reflexivity.
    + rewrite <- V. rewrite Es at 1. f_equal. f_equal. f_equal. f_equal. lia.
  - left. exists (map hex segs), segs. rewrite map_length. splits; [exact L|apply fmt_groups, B| |symmetry; exact V].
    unfold fmt_subslice. rewrite <- sep_by_join. reflexivity.
Qed.

(** ** Its length *)
Lemma fmt_len_le l : Forall (fun g => g < 65536) l -> (String.length (fmt_subslice l) <= 5 * length l)%nat.
Proof.
  unfold fmt_subslice. rewrite <- sep_by_join. intros H.
  induction H as [|g l Hg Hl IH]; [simpl; lia|].
  destruct (hex_group g Hg) as [[Hlen _] _]. destruct l as [|g2 l]; [cbn [map sep_by length]; lia|].
  cbn [map]. cbn [map] in IH. rewrite sep_by_cons by discriminate. rewrite str_len_app. cbn [String.length length] in *. lia.
Qed.
Lemma fmt_len_full l : l <> [] -> Forall (fun g => g < 65536) l ->
  (String.length (fmt_subslice l) <= 5 * length l - 1)%nat /\
  ((String.length (fmt_subslice l) = 5 * length l - 1)%nat <-> Forall (fun g => 4096 <= g) l).
Proof.
  unfold fmt_subslice. rewrite <- sep_by_join. intros Hne H.
  induction H as [|g l Hg Hl IH]; [congruence|].
  destruct (hex_group g Hg) as [[Hlen _] (_ & _ & H4)]. destruct l as [|g2 l].
  - cbn [map sep_by length]. split; [lia|]. split.
    + intros E. constructor; [apply H4; lia|constructor].
    + intros F. inversion F; subst. rewrite (proj2 H4); [lia|assumption].
  - destruct IH as [IH1 IH2]; [discriminate|].
    cbn [map]. cbn [map] in IH1, IH2. rewrite sep_by_cons by discriminate. rewrite str_len_app. cbn [String.length length] in *.
    split; [lia|]. split.
    + intros E. constructor; [apply H4; lia|apply IH2; lia].
    + intros F. inversion F as [|? ? F1 F2]; subst. apply IH2 in F2. apply H4 in F1. lia.
Qed.

Definition wide (n : N) : Prop := forall k, k < 8 -> 4096 <= (n / 2 ^ (16 * k)) mod 65536.
Lemma wide_segments n : wide n <-> Forall (fun g => 4096 <= g) (segments n).
Proof.
  rewrite segments_eq, Forall_forall. split.
  - intros H g Hg. apply in_map_iff in Hg as (k & <- & Hk). apply H. simpl in Hk. intuition lia.
  - intros H k Hk. apply H. apply in_map_iff. exists k. split; [reflexivity|].
    assert (k = 0 \/ k = 1 \/ k = 2 \/ k = 3 \/ k = 4 \/ k = 5 \/ k = 6 \/ k = 7) by lia.
    simpl. intuition.
Qed.
Lemma repeat_not_wide l a m c : l = (a ++ repeat 0 m ++ c)%list -> (0 < m)%nat -> ~ Forall (fun g => 4096 <= g) l.
Proof.
  intros -> Hm F. apply Forall_app in F as [_ F]. apply Forall_app in F as [F _]. destruct m; [lia|]. inversion F; subst. lia.
Qed.

Lemma ipv6_to_str_len n : ~ mapped n -> ((String.length (ipv6_to_str n) <= 38)%nat <-> ~ wide n) /\ (String.length (ipv6_to_str n) <= 39)%nat.
Proof.
  intros Hm. unfold ipv6_to_str. destruct (N.eqb_spec (N.shiftr n 32) 65535) as [E|_]; [contradiction|]. cbv zeta.
  rewrite wide_segments. pose proof (segments_bound n) as B. pose proof (segments_len n) as L.
  set (segs := segments n) in *. set (z := longest_zeros segs 0 (0%nat, 0%nat) (0%nat, 0%nat)).
  destruct (Nat.ltb_spec 1 (snd z)) as [Hz|Hz].
  - destruct (longest_zeros_split segs z eq_refl Hz) as [Es El].
    pose proof (fmt_len_le _ (firstn_Forall _ (fst z) _ B)). pose proof (fmt_len_le _ (skipn_Forall _ (fst z + snd z) _ B)).
    rewrite !str_len_app. cbn [String.length]. split; [|lia]. split; [|lia].
    intros _. apply (repeat_not_wide segs _ _ _ Es). lia.
  - destruct (fmt_len_full segs) as [H1 H2]; [intros E; rewrite E in L; discriminate|exact B|].
    rewrite L in H1, H2. split; [|lia]. rewrite <- H2. lia.
Qed.

Lemma dotted_has_dot s v : dotted_quad s v -> str_has "." s = true.
Proof.
  intros (a & b & c & d & va & vb & vc & vd & -> & _). rewrite str_has_app. cbn [append str_has]. 
  rewrite (orb_comm _ (_ || _)). reflexivity.
Qed.
Lemma mapped_dot n : mapped n -> str_has "." (ipv6_to_str n) = true.
Proof.
  intros E. unfold ipv6_to_str. rewrite (proj2 (N.eqb_eq _ _) E). rewrite str_has_app.
  rewrite (dotted_has_dot (ipv4_to_str _) (N.land n 4294967295)); [apply orb_true_r|apply ipv4_to_str_is_quad]. change 4294967295 with (N.ones 32). rewrite N.land_ones.
  apply N.mod_lt. discriminate.
Qed.

(** Round trip, exactly. *)
Lemma ipv6_print_parse n : n < 2 ^ 128 -> (ipv6_from_str (ipv6_to_str n) = Val (Ok n) <-> ~ mapped n /\ ~ wide n).
Proof.
  intros Hn. destruct (N.eq_dec (N.shiftr n 32) 65535) as [Hm|Hm].
  - split; [intros E; exfalso; apply (ipv6_dot_rejected _ n (mapped_dot n Hm) E)|intros [C _]; contradiction].
  - pose proof (ipv6_to_str_text n Hn Hm) as T. destruct (ipv6_to_str_len n Hm) as [HL _]. split.
    + intros E. split; [exact Hm|]. apply HL. apply ipv6_lang in E. tauto.
    + intros [_ W]. apply v6_complete; [exact T|apply HL, W].
Qed.

Lemma mapped_alt n : mapped n <-> 65535 * 2 ^ 32 <= n < 65536 * 2 ^ 32.
Proof. unfold mapped. rewrite N.shiftr_div_pow2. change (2 ^ 32) with 4294967296. lia. Qed.

(** ** Injectivity *)
Lemma ipv4_to_str_inj a b : a < 2 ^ 32 -> b < 2 ^ 32 -> ipv4_to_str a = ipv4_to_str b -> a = b.
Proof. intros Ha Hb E. pose proof (ipv4_roundtrip a Ha). pose proof (ipv4_roundtrip b Hb). congruence. Qed.

Lemma fmt_no_dot l : Forall (fun g => g < 65536) l -> str_has "." (fmt_subslice l) = false.
Proof. intros H. unfold fmt_subslice. rewrite <- sep_by_join. eapply grp_no_dot, fmt_groups, H. Qed.
Lemma unmapped_no_dot n : ~ mapped n -> str_has "." (ipv6_to_str n) = false.
Proof.
  intros Hm. unfold ipv6_to_str. destruct (N.eqb_spec (N.shiftr n 32) 65535) as [E|_]; [contradiction|]. cbv zeta.
  pose proof (segments_bound n) as B. destruct (Nat.ltb 1 _).
  - rewrite !str_has_app, !fmt_no_dot by auto using firstn_Forall, skipn_Forall. reflexivity.
  - apply fmt_no_dot, B.
Qed.

Lemma str_app_inj_l (a b c : string) : a ++ b = a ++ c -> b = c.
Proof. induction a as [|x a IH]; cbn [append]; [auto|]. intros E. injection E; auto. Qed.

Lemma wide_full n : ~ mapped n -> wide n -> ipv6_to_str n = fmt_subslice (segments n).
Proof.
  intros Hm W. unfold ipv6_to_str. destruct (N.eqb_spec (N.shiftr n 32) 65535) as [E|_]; [contradiction|]. cbv zeta.
  set (z := longest_zeros (segments n) 0 (0%nat, 0%nat) (0%nat, 0%nat)).
  destruct (Nat.ltb_spec 1 (snd z)) as [Hz|Hz]; [|reflexivity].
  destruct (longest_zeros_split _ z eq_refl Hz) as [Es _]. exfalso.
  apply (repeat_not_wide _ _ _ _ Es); [lia|apply wide_segments, W].
Qed.
Lemma fmt_inj l m : l <> [] -> m <> [] -> Forall (fun g => g < 65536) l -> Forall (fun g => g < 65536) m ->
  fmt_subslice l = fmt_subslice m -> l = m.
Proof.
  intros Nl Nm Hl Hm E. unfold fmt_subslice in E. apply (f_equal (split_on ":")) in E.
  assert (P : forall l, Forall (fun g => g < 65536) l -> Forall (fun p => str_has ":" p = false) (map hex l)).
  { clear. intros l H. induction H; constructor; auto. apply hex_group; assumption. }
  assert (Nl' : map hex l <> []) by (destruct l; [congruence|discriminate]).
  assert (Nm' : map hex m <> []) by (destruct m; [congruence|discriminate]).
  rewrite !split_on_join in E by (auto using P). clear Nl' Nm'.
  clear Nl Nm P. revert m Hm E. induction Hl as [|g l Hg Hl IH]; intros m Hm E.
  - destruct m; [reflexivity|discriminate].
  - destruct Hm as [|g2 m Hg2 Hm]; [discriminate|]. cbn [map] in E. injection E as E1 E2.
    f_equal; [apply hex_inj; assumption|apply IH; assumption].
Qed.

Definition wide_b (n : N) : bool := forallb (fun g => 4096 <=? g) (segments n).
Lemma wide_dec n : wide n \/ ~ wide n.
Proof.
  rewrite wide_segments. destruct (forallb (fun g => 4096 <=? g) (segments n)) eqn:E.
  - left. apply Forall_forall. intros g Hg. rewrite forallb_forall in E. apply E in Hg. apply N.leb_le in Hg. exact Hg.
  - right. intros F. rewrite Forall_forall in F. assert (forallb (fun g => 4096 <=? g) (segments n) = true) by (apply forallb_forall; intros g Hg; apply N.leb_le, F, Hg).
    congruence.
Qed.

Lemma ipv6_to_str_inj a b : a < 2 ^ 128 -> b < 2 ^ 128 -> ipv6_to_str a = ipv6_to_str b -> a = b.
Proof.
  intros Ha Hb E. destruct (N.eq_dec (N.shiftr a 32) 65535) as [Ma|Ma]; destruct (N.eq_dec (N.shiftr b 32) 65535) as [Mb|Mb].
  - unfold ipv6_to_str in E. rewrite (proj2 (N.eqb_eq _ _) Ma), (proj2 (N.eqb_eq _ _) Mb) in E.
    apply str_app_inj_l in E. apply mapped_alt in Ma, Mb.
    change 4294967295 with (N.ones 32) in E. rewrite !N.land_ones in E.
    apply ipv4_to_str_inj in E; try (apply N.mod_lt; discriminate). change (2 ^ 32) with 4294967296 in *. lia.
  - pose proof (mapped_dot a Ma). pose proof (unmapped_no_dot b Mb). congruence.
  - pose proof (mapped_dot b Mb). pose proof (unmapped_no_dot a Ma). congruence.
  - destruct (ipv6_to_str_len a Ma) as [La _]. destruct (ipv6_to_str_len b Mb) as [Lb _].
    destruct (wide_dec a) as [Wa|Wa]; destruct (wide_dec b) as [Wb|Wb].
    + rewrite (wide_full a Ma Wa), (wide_full b Mb Wb) in E.
      apply fmt_inj in E; try apply segments_bound; try discriminate.
      rewrite <- (segments_value a Ha), <- (segments_value b Hb). congruence.
    + exfalso. rewrite E in La. tauto.
    + exfalso. rewrite E in La. tauto.
    + pose proof (proj2 (ipv6_print_parse a Ha) (conj Ma Wa)). pose proof (proj2 (ipv6_print_parse b Hb) (conj Mb Wb)). congruence.
Qed.

Lemma fmt_colon l : (2 <= length l)%nat -> str_has ":" (fmt_subslice l) = true.
Proof.
  destruct l as [|a [|b l]]; cbn [length]; try lia. intros _. unfold fmt_subslice. cbn [map join].
  rewrite str_has_app. cbn [append str_has]. rewrite (orb_comm _ (_ || _)). reflexivity.
Qed.
Lemma ipv6_has_colon n : str_has ":" (ipv6_to_str n) = true.
Proof.
  unfold ipv6_to_str. destruct (_ =? _); [reflexivity|]. cbv zeta. destruct (Nat.ltb 1 _).
  - rewrite !str_has_app. cbn [str_has]. rewrite (orb_comm _ (_ || _)). reflexivity.
  - apply fmt_colon. rewrite segments_len. lia.
Qed.
Lemma ipv4_no_colon n : str_has ":" (ipv4_to_str n) = false.
Proof. rewrite ipv4_to_str_octets. rewrite ?str_has_app, ?dec_no_char by reflexivity. cbn [str_has append]. rewrite ?str_has_app, ?dec_no_char by reflexivity. cbn. rewrite ?str_has_app, ?dec_no_char by reflexivity. reflexivity. Qed.

(** ** [SiemIp] *)
Lemma ip_to_string_inj a b : ip_ok a -> ip_ok b -> ip_to_string a = ip_to_string b -> a = b.
Proof.
  destruct a as [a|a], b as [b|b]; cbn [ip_to_string ip_ok]; intros Ha Hb E.
  - f_equal. apply ipv4_to_str_inj; assumption.
  - pose proof (ipv6_has_colon b). rewrite <- E, ipv4_no_colon in H. discriminate.
  - pose proof (ipv6_has_colon a). rewrite E, ipv4_no_colon in H. discriminate.
  - f_equal. apply ipv6_to_str_inj; assumption.
Qed.

Lemma ipv4_rejects_colon s v : str_has ":" s = true -> ipv4_from_str s <> Ok v.
Proof.
  intros H E. apply ipv4_from_str_iff in E as (parts & vs & _ & -> & F & _).
  assert (K : str_has ":" (sep_by "." parts) = false); [|congruence]. clear H.
  induction F as [|p w parts vs Hp F IH]; [reflexivity|].
  assert (Hc : str_has ":" p = false) by (destruct Hp as [Hp _]; apply (decimal_text_chars p w ":"%char Hp); [reflexivity|discriminate]).
  destruct parts as [|q parts]; [exact Hc|]. rewrite sep_by_cons by discriminate.
  rewrite str_has_app, Hc. cbn [str_has orb]. change (Ascii.eqb "." ":") with false. exact IH.
Qed.

Lemma siem_ip_roundtrip a : ip_ok a ->
  (from_ip_str (ip_to_string a) = Val (Ok a) <-> match a with V4 _ => True | V6 n => ~ mapped n /\ ~ wide n end).
Proof.
  destruct a as [n|n]; cbn [ip_to_string ip_ok]; intros Hn; unfold from_ip_str.
  - rewrite ipv4_roundtrip by exact Hn. tauto.
  - pose proof (ipv6_print_parse n Hn) as P.
    destruct (ipv4_from_str (ipv6_to_str n)) as [v|e] eqn:E; [exfalso; exact (ipv4_rejects_colon _ v (ipv6_has_colon n) E)|].
    rewrite <- P. destruct (ipv6_from_str (ipv6_to_str n)) as [[v|e2]| |]; cbn [obind]; split; congruence.
Qed.

Lemma siem_ip_equals_sound a s : ip_equals a s = Val true -> from_ip_str s = Val (Ok a) \/
   (exists x, a = V6 x /\ ipv6_from_str s = Val (Ok x)).
Proof.
  destruct a as [x|x]; cbn [ip_equals].
  - unfold from_ip_str. destruct (ipv4_from_str s) as [y|]; intros [= E]. apply N.eqb_eq in E. subst. auto.
  - destruct (ipv6_from_str s) as [[y|e]| |]; cbn [obind]; intros [= E]. apply N.eqb_eq in E. subst.
    right. exists y. auto.
Qed.

Lemma ip_equals_iff a s : ip_equals a s = Val true <->
  match a with V4 x => ipv4_from_str s = Ok x | V6 x => ipv6_from_str s = Val (Ok x) end.
Proof.
  destruct a as [x|x]; cbn [ip_equals].
  - destruct (ipv4_from_str s) as [y|e]; [|split; discriminate]. split.
    + intros [= E]. apply N.eqb_eq in E. congruence.
    + intros [= ->]. rewrite N.eqb_refl. reflexivity.
  - destruct (ipv6_from_str s) as [[y|e]| |]; cbn [obind]; try (split; discriminate). split.
    + intros [= E]. apply N.eqb_eq in E. congruence.
    + intros [= ->]. rewrite N.eqb_refl. reflexivity.
Qed.

Lemma from_ip_str_total s : exists r, from_ip_str s = Val r /\ forall a, r = Ok a -> ip_ok a.
Proof.
  unfold from_ip_str. destruct (ipv4_from_str s) as [v|e] eqn:E.
  - eexists; split; [reflexivity|]. intros a [= <-]. exact (ipv4_from_str_range _ _ E).
  - destruct (ipv6_total s) as (r & Er & B). rewrite Er. cbn [obind]. eexists; split; [reflexivity|].
    destruct r as [v|e2]; intros a; [intros [= <-]; apply B; reflexivity|discriminate].
Qed.
Lemma ip_of_octets_value v : ip_of_octets v = be_value 256 (map (fun x => x mod 256) v).
Proof.
  unfold ip_of_octets, be_value. generalize 0. induction v as [|x l IH]; intros acc; cbn [fold_left map]; [reflexivity|].
  rewrite land_255. apply IH.
Qed.
Lemma not_wide_ex n : ~ wide n -> exists k, k < 8 /\ (n / 2 ^ (16 * k)) mod 65536 < 4096.
Proof.
  intros H.
  assert (D : forall k, k < 8 -> 4096 <= (n / 2 ^ (16 * k)) mod 65536 \/ (n / 2 ^ (16 * k)) mod 65536 < 4096) by (intros; lia).
  destruct (D 0 eq_refl) as [H0|]; [|exists 0; split; [reflexivity|assumption]]. destruct (D 1 eq_refl) as [H1|]; [|exists 1; split; [reflexivity|assumption]].
  destruct (D 2 eq_refl) as [H2|]; [|exists 2; split; [reflexivity|assumption]]. destruct (D 3 eq_refl) as [H3|]; [|exists 3; split; [reflexivity|assumption]].
  destruct (D 4 eq_refl) as [H4|]; [|exists 4; split; [reflexivity|assumption]]. destruct (D 5 eq_refl) as [H5|]; [|exists 5; split; [reflexivity|assumption]].
  destruct (D 6 eq_refl) as [H6|]; [|exists 6; split; [reflexivity|assumption]]. destruct (D 7 eq_refl) as [H7|]; [|exists 7; split; [reflexivity|assumption]].
  exfalso. apply H. intros k Hk.
  assert (k = 0 \/ k = 1 \/ k = 2 \/ k = 3 \/ k = 4 \/ k = 5 \/ k = 6 \/ k = 7) as [->|[->|[->|[->|[->|[->|[->| ->]]]]]]] by lia; assumption.
Qed.
