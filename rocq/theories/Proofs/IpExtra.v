(** Witnesses used by the IP properties. *)
From Coq Require Import String Ascii List Bool.
From Verif Require Import Base.Arith Base.Str Base.Outcome Spec.TextSpec Proofs.TextP Model.IpUtils Proofs.IpV4P Proofs.IpV6P Proofs.IpV6G.
Import ListNotations.
Local Open Scope string_scope.
Local Open Scope N_scope.

Lemma str_len_app a b : String.length (a ++ b) = (String.length a + String.length b)%nat.
Proof. induction a as [|x a IH]; simpl; congruence. Qed.

Lemma octet_nonempty s v : octet_text s v -> (1 <= String.length s)%nat.
Proof.
  intros [(sg & d & _ & -> & Hd & _) _]. rewrite str_len_app. destruct d; [congruence|simpl; lia].
Qed.

Lemma dotted_quad_len s v : dotted_quad s v -> (7 <= String.length s)%nat.
Proof.
  intros (a & b & c & d & va & vb & vc & vd & -> & Ha & Hb & Hc & Hd & _).
  apply octet_nonempty in Ha, Hb, Hc, Hd. rewrite !str_len_app. simpl String.length. lia.
Qed.

Lemma ipv4_short_accepted : exists s v, ipv4_from_str s = Ok v /\ forall w, ~ dotted_quad s w.
Proof.
  exists "1.2", 258. split; [vm_compute; reflexivity|].
  intros w H. apply dotted_quad_len in H. simpl in H. lia.
Qed.

Lemma ipv4_quad_complete s v : dotted_quad s v -> ipv4_from_str s = Ok v.
Proof.
  intros (a & b & c & d & va & vb & vc & vd & -> & Ha & Hb & Hc & Hd & ->).
  apply ipv4_quad_parse; assumption.
Qed.

Lemma ipv4_to_str_is_quad n : n < 2 ^ 32 -> dotted_quad (ipv4_to_str n) n.
Proof.
  intros Hn. change (2 ^ 32) with 4294967296 in Hn. rewrite ipv4_to_str_octets.
  do 8 eexists. split; [reflexivity|].
  repeat match goal with |- _ /\ _ => split; [apply octet_text_dec|] end;
  pose proof (N.mod_lt n 256 ltac:(discriminate)).
  - pose proof (N.mod_lt (n / 16777216) 256 ltac:(discriminate)); lia.
  - pose proof (N.mod_lt (n / 65536) 256 ltac:(discriminate)); lia.
  - pose proof (N.mod_lt (n / 256) 256 ltac:(discriminate)); lia.
  - lia.
  - change (2 ^ 24) with 16777216. change (2 ^ 16) with 65536. change (2 ^ 8) with 256.
    Ltac Zify.zify_post_hook ::= Z.div_mod_to_equations. lia.
Qed.

(** Groups with explicit digits. *)
Lemma group_of_digits g ds : hexs (bytes_of g) ds -> (1 <= String.length g <= 4)%nat -> group_text g (be_value 16 ds).
Proof.
  intros H Hl. split; [exact Hl|]. apply hexs_denotes in H. rewrite string_of_list_ascii_of_string in H. exact H.
Qed.
Ltac group_tac := apply group_of_digits; [repeat constructor|simpl; lia].

Lemma group_ffff : group_text "ffff" 65535.
Proof. change 65535 with (be_value 16 [15; 15; 15; 15]). group_tac. Qed.
Lemma group_fe80 : group_text "fe80" 65152.
Proof. change 65152 with (be_value 16 [15; 14; 8; 0]). group_tac. Qed.
Lemma group_1 : group_text "1" 1.
Proof. change 1 with (be_value 16 [1]). group_tac. Qed.

Definition v6_39 : string := "ffff:ffff:ffff:ffff:ffff:ffff:ffff:ffff".
Lemma v6_39_valid : v6_full v6_39 (2 ^ 128 - 1).
Proof.
  exists (repeat "ffff" 8), (repeat 65535 8). splits; [reflexivity| |reflexivity|vm_compute; reflexivity].
  simpl. repeat (apply Forall2_cons; [exact group_ffff|]). apply Forall2_nil.
Qed.

Lemma group_last g v : group_text g v -> exists g' a, g = g' ++ String a "" /\ is_hexdigit a = true.
Proof.
  intros [Hl Hd]. inversion Hd as [|s w a d H Ha]; subst; [simpl in Hl; lia|].
  exists s, a. split; [reflexivity|]. apply hex_to_digit_spec in Ha. rewrite is_hexdigit_some, Ha. reflexivity.
Qed.

Lemma grp_last gs vs : Forall2 group_text gs vs -> gs <> [] -> exists s a, grp gs = s ++ String a "" /\ is_hexdigit a = true.
Proof.
  induction 1 as [|g v gs vs Hg Hf IH]; intros Hne; [congruence|].
  destruct gs as [|g2 gs].
  - destruct (group_last _ _ Hg) as (g' & a & -> & Ha). exists g', a. auto.
  - destruct IH as (s & a & E & Ha); [discriminate|]. rewrite sep_by_cons by discriminate. rewrite E.
    exists (g ++ String ":" s), a. rewrite str_app_assoc. auto.
Qed.

Lemma bytes_last s a : bytes_of (s ++ String a "") = (bytes_of s ++ [a])%list.
Proof. rewrite bytes_app. reflexivity. Qed.

Lemma trailing_not_text v : ~ v6_text "::1:" v.
Proof.
  intros [(gs & vs & H8 & Hf & Es & _)|(lo & hi & vhi & vlo & _ & Hf1 & Hf2 & Es & _)].
  - destruct (grp_last _ _ Hf) as (s & a & E & Ha); [intros ->; discriminate|].
    rewrite E in Es. apply (f_equal (fun x => bytes_of x)) in Es. rewrite bytes_last in Es.
    change (bytes_of "::1:") with ([":"; ":"; "1"] ++ [":"])%char%list in Es.
    apply app_inj_tail in Es as [_ <-]. discriminate Ha.
  - destruct lo as [|l lo].
    + cbn [sep_by] in Es. apply (f_equal (fun x => bytes_of x)) in Es. rewrite bytes_app in Es.
      change (bytes_of ("::" ++ "")) with ([":"] ++ [":"])%char%list in Es. rewrite app_assoc in Es.
      change (bytes_of "::1:") with ([":"; ":"; "1"] ++ [":"])%char%list in Es.
      apply app_inj_tail in Es as [Es _].
      change ([":"; ":"; "1"]%char%list) with ([":"; ":"] ++ ["1"])%char%list in Es.
      apply app_inj_tail in Es as [_ Es]. discriminate Es.
    + destruct (grp_last _ _ Hf2) as (s & a & E & Ha); [discriminate|].
      rewrite E in Es. rewrite <- !str_app_assoc in Es.
      apply (f_equal (fun x => bytes_of x)) in Es. rewrite bytes_last in Es.
      change (bytes_of "::1:") with ([":"; ":"; "1"] ++ [":"])%char%list in Es.
      apply app_inj_tail in Es as [_ <-]. discriminate Ha.
Qed.

Lemma v6_text_fe80_1 : v6_text "fe80::1" (65152 * 2 ^ 112 + 1).
Proof.
  right. exists ["1"], ["fe80"], [65152], [1].
  splits; [simpl; lia| | |reflexivity|vm_compute; reflexivity].
  - constructor; [exact group_fe80|constructor].
  - constructor; [exact group_1|constructor].
Qed.

Lemma v6_full_witness : v6_full "1:1:1:1:1:1:1:1" (be_value 65536 [1;1;1;1;1;1;1;1]).
Proof.
  exists (repeat "1" 8), (repeat 1 8). splits; [reflexivity| |reflexivity|reflexivity].
  simpl. repeat (apply Forall2_cons; [exact group_1|]). apply Forall2_nil.
Qed.

Lemma v6_complete s v : v6_text s v -> (String.length s <= 38)%nat -> ipv6_from_str s = Val (Ok v).
Proof. intros H Hl. apply ipv6_lang. auto. Qed.

Lemma v6_long_rejected : exists s v, v6_text s v /\ ipv6_from_str s = Val (Err "Invalid ipv6 size").
Proof. exists v6_39, (2 ^ 128 - 1). split; [left; exact v6_39_valid|vm_compute; reflexivity]. Qed.

Lemma v6_trailing_accepted : exists s, ipv6_from_str s = Val (Ok 1) /\ forall v, ~ v6_text s v.
Proof. exists "::1:". split; [vm_compute; reflexivity|exact trailing_not_text]. Qed.

(** RFC 4291 form 3: an IPv4 dotted quad as the last 32 bits. Never accepted. *)
Lemma app_last_eq a x b y : (a ++ String x "")%string = (b ++ String y "")%string -> x = y.
Proof. intros E. apply (f_equal (fun s => bytes_of s)) in E. rewrite !bytes_last in E. apply app_inj_tail in E. tauto. Qed.

Lemma grp_no_dot gs vs : Forall2 group_text gs vs -> str_has "." (grp gs) = false.
Proof.
  assert (G : forall g v, group_text g v -> str_has "." g = false).
  { intros g v [_ Hd]. induction Hd as [|s w a d H IH Ha]; [reflexivity|].
    rewrite str_has_app, IH. cbn [str_has orb]. rewrite orb_false_r. apply hex_to_digit_spec in Ha.
    destruct (Ascii.eqb_spec a "."%char); [subst; discriminate|reflexivity]. }
  induction 1 as [|g v gs vs Hg Hf IH]; [reflexivity|].
  destruct gs as [|g2 gs]; [eapply G; eauto|]. rewrite sep_by_cons by discriminate.
  rewrite str_has_app, (G _ _ Hg). cbn [orb]. cbn [str_has]. rewrite IH. reflexivity.
Qed.

Lemma ipv6_dot_rejected s v : str_has "." s = true -> ipv6_from_str s <> Val (Ok v).
Proof.
  intros Hd H. apply ipv6_lang in H as [_ H].
  assert (C : forall t lo w, v6_compressed t lo w -> str_has "." t = false).
  { intros t lo w (hi & vhi & vlo & _ & H1 & H2 & -> & _).
    rewrite !str_has_app, (grp_no_dot _ _ H1), (grp_no_dot _ _ H2). reflexivity. }
  destruct H as [[(gs & vs & _ & Hf & -> & _)|(lo & Hc)]|(s' & lo & _ & -> & Hc)].
  - rewrite (grp_no_dot _ _ Hf) in Hd. discriminate.
  - rewrite (C _ _ _ Hc) in Hd. discriminate.
  - rewrite str_has_app, (C _ _ _ Hc) in Hd. discriminate.
Qed.
