(** Refuted properties again, for whole families of inputs instead of one. *)
From Coq Require Import String Ascii List NArith ZArith Arith Bool Lia Floats.SpecFloat.
From Verif Require Import Base.Arith Base.Ord Base.BTree Base.Str Base.Outcome Spec.TextSpec Spec.MacSpec Spec.FieldSpec Spec.DatasetSpec Spec.DatasetRuns
  Model.Mac Model.IpUtils Model.Ip Model.Field Model.Log Model.Schema Model.BaseSchema Model.EventEnums Model.Events Model.NetDataset
  Model.Component Model.Command Proofs.TextP Proofs.IpV4P Proofs.IpV6P Proofs.IpV6G Proofs.IpExtra Proofs.IpPrintP Proofs.DateP Proofs.RoundP
  Props.PropsIp Props.PropsIpPrint Props.PropsMac Props.PropsMac2 Props.PropsField Props.PropsDatasets Props.PropsEvents Props.PropsSchema.
Import ListNotations.
Local Open Scope string_scope.
Local Open Scope N_scope.

(** * Addresses *)
(** Every text of one, two or three octets is read, as the number its octets make in base 256. *)
Theorem C96_short_refuted : forall parts vs, (1 <= length parts <= 3)%nat -> Forall2 octet_text parts vs ->
  ipv4_from_str (sep_by "." parts) = Ok (be_value 256 vs) /\ forall w, ~ dotted_quad (sep_by "." parts) w.
Proof.
  assert (S : forall parts vs, parts <> [] -> Forall2 octet_text parts vs -> split_on "." (sep_by "." parts) = parts).
  { intros parts vs N F. rewrite sep_by_join. apply split_on_join; [exact N|].
    clear N. induction F as [|p x ps xs [Hp _] Hps IH]; constructor; auto. eapply decimal_text_chars; [exact Hp|reflexivity|discriminate]. }
  intros parts vs L F. split.
  - apply C02_ipv4_language. exists parts, vs. splits; auto; lia.
  - intros w (a & b & c & d & va & vb & vc & vd & E & A & B & C & D & _).
    pose proof (S [a; b; c; d] [va; vb; vc; vd] ltac:(discriminate) ltac:(auto)) as Q. cbn [sep_by] in Q.
    rewrite <- (S parts vs) in L; [|intros ->; cbn in L; lia|exact F]. rewrite E in L.
    change ("." ++ b ++ "." ++ c ++ "." ++ d) with (String "." (b ++ String "." (c ++ String "." d))) in L. rewrite Q in L. cbn in L. lia.
Qed.
Print Assumptions C96_short_refuted.

(** No text of 39 characters or more is read, *)
Theorem C97_long_refuted : forall s, (39 <= String.length s)%nat -> ipv6_from_str s = Val (Err "Invalid ipv6 size").
Proof.
  intros s L. unfold ipv6_from_str, ipv6_from_bytes. change (list_ascii_of_string s) with (bytes_of s). rewrite bytes_len. replace (Nat.ltb 38 (String.length s)) with true by (symmetry; apply Nat.ltb_lt; lia). reflexivity.
Qed.
Print Assumptions C97_long_refuted.
(** ... so no address whose eight groups all have four digits; *)
Theorem C97_four_digits_refuted : forall gs vs, length gs = 8%nat -> Forall2 group_text gs vs -> Forall (fun g => String.length g = 4%nat) gs ->
  v6_text (sep_by ":" gs) (be_value 65536 vs) /\ ipv6_from_str (sep_by ":" gs) = Val (Err "Invalid ipv6 size").
Proof.
  intros gs vs L F W. split; [left; exists gs, vs; auto|]. apply C97_long_refuted.
  assert (G : forall gs, gs <> [] -> Forall (fun g => String.length g = 4%nat) gs -> (String.length (sep_by ":" gs) = 5 * length gs - 1)%nat).
  { clear. induction gs as [|g gs IH]; intros N W; [congruence|]. inversion_clear W. destruct gs as [|h gs]; [cbn; lia|].
    change (sep_by ":" (g :: h :: gs)) with (g ++ String ":" (sep_by ":" (h :: gs))). rewrite str_length_app. cbn [String.length]. rewrite IH; [|discriminate|assumption].
    cbn [length]. lia. }
  rewrite G; [lia|intros ->; discriminate L|exact W].
Qed.
Print Assumptions C97_four_digits_refuted.
(** ... and every compressed text of at most 37 characters that does not end with its '::' may be followed by a stray colon. *)
Theorem C97_stray_colon_refuted : forall s lo v, v6_compressed s lo v -> lo <> [] -> (String.length s <= 37)%nat ->
  ipv6_from_str (s ++ ":") = Val (Ok v) /\ forall w, ~ v6_text (s ++ ":") w.
Proof.
  intros s lo v C N L. split.
  - apply C04_ipv6_language. split; [rewrite str_length_app; cbn; lia|]. right. exists s, lo. auto.
  - assert (H : forall w, ~ v6_text (s ++ ":") w); [|exact H].
    assert (E : exists t a, s = t ++ String a "" /\ is_hexdigit a = true).
    { destruct C as (hi & vhi & vlo & _ & _ & F & -> & _). destruct (grp_last _ _ F N) as (t & a & E & A).
      exists (sep_by ":" hi ++ "::" ++ t), a. split; [|exact A]. change (sep_by ":" lo) with (grp lo). rewrite E, !str_app_assoc. reflexivity. }
    destruct E as (t & x & -> & X). intros w [(gs & vs & H8 & F & E & _) | (lo' & hi & vhi & vlo & _ & _ & F & E & _)].
    + destruct (grp_last _ _ F) as (u & a & G & A); [intros ->; discriminate|]. change (sep_by ":" gs) with (grp gs) in E. rewrite G in E.
      apply app_last_eq in E. subst a. discriminate A.
    + destruct lo' as [|l lo'].
      * cbn [sep_by] in E. change ("::" ++ "") with "::" in E.
        assert (E2 : t ++ String x "" = sep_by ":" hi ++ ":").
        { apply (f_equal (fun s => bytes_of s)) in E. change "::" with (":" ++ ":") in E. rewrite <- (str_app_assoc (sep_by ":" hi)) in E.
          rewrite !bytes_last in E. apply app_inj_tail in E as (E & _). apply bytes_inj. rewrite !bytes_last. exact E. }
        apply app_last_eq in E2. subst x. discriminate X.
      * destruct (grp_last _ _ F) as (u & a & G & A); [discriminate|]. change (sep_by ":" (l :: lo')) with (grp (l :: lo')) in E. rewrite G in E.
        rewrite <- !str_app_assoc in E. apply app_last_eq in E. subst a. discriminate A.
Qed.
Print Assumptions C97_stray_colon_refuted.

(** What is printed for an address of the range ::ffff:0:0/96 is never read; what is printed for one whose groups are all at
    least 1000 (hexadecimal) neither. *)
Theorem C125_mapped_refuted : forall n v, 65535 * 2 ^ 32 <= n < 65536 * 2 ^ 32 -> ipv6_from_str (ipv6_to_str n) <> Val (Ok v).
Proof. intros n v M. apply C04_embedded_ipv4_never_accepted, mapped_dot, mapped_alt, M. Qed.
Print Assumptions C125_mapped_refuted.
Theorem C125_wide_refuted : forall n, n < 2 ^ 128 -> ~ (65535 * 2 ^ 32 <= n < 65536 * 2 ^ 32) ->
  (forall k, k < 8 -> 4096 <= (n / 2 ^ (16 * k)) mod 65536) -> ipv6_from_str (ipv6_to_str n) = Val (Err "Invalid ipv6 size").
Proof.
  intros n B M W. apply C97_long_refuted. rewrite <- mapped_alt in M. destruct (ipv6_to_str_len n M) as (L & _).
  destruct (le_lt_dec 39 (String.length (ipv6_to_str n))) as [H|H]; [exact H|exfalso].
  assert (R : ipv6_from_str (ipv6_to_str n) = Val (Ok n)).
  { apply ipv6_print_parse; [exact B|]. split; [exact M|]. apply L. lia. }
  apply C60_ipv6_roundtrip in R as (_ & k & K & X); [|exact B]. specialize (W k K). lia.
Qed.
Print Assumptions C125_wide_refuted.

(** * Hashes *)
Lemma str_bytes_len s : length (str_bytes s) = String.length s.
Proof. unfold str_bytes. rewrite map_length. apply bytes_len. Qed.
Lemma le_len k n : length (le_bytes k n) = k.
Proof. revert n. induction k as [|k IH]; intros n; cbn; [reflexivity|]. now rewrite IH. Qed.
(** Any IPv4 address and its text, any unsigned number and its text, a list of two texts and the one text with a comma: equal, hashed
    differently. *)
Theorem C100_addresses_refuted : forall P n, n < 2 ^ 32 ->
  field_eqb P (Text (ipv4_to_str n)) (IP (V4 n)) = true /\ field_eqb P (IP (V4 n)) (Text (ipv4_to_str n)) = true /\
  hash_field (Text (ipv4_to_str n)) <> hash_field (IP (V4 n)).
Proof.
  intros P n B. splits; try (cbn [field_eqb ip_to_string]; apply String.eqb_refl).
  intros E. apply (f_equal (@length N)) in E. cbn [hash_field hash_ip] in E. unfold hash_str in E. rewrite app_length, str_bytes_len, le_len in E.
  rewrite ipv4_to_str_octets, !str_length_app in E. cbn [String.length length] in E.
  assert (D : forall m, (1 <= String.length (dec m))%nat) by (intros m; destruct (dec_length m) as (k & -> & _); lia).
  pose proof (D (n / 16777216 mod 256)). pose proof (D (n / 65536 mod 256)). pose proof (D (n / 256 mod 256)). pose proof (D (n mod 256)). lia.
Qed.
Print Assumptions C100_addresses_refuted.
Theorem C100_numbers_refuted : forall P n, n < 2 ^ 64 ->
  field_eqb P (Text (dec n)) (U64 n) = true /\ hash_field (Text (dec n)) <> hash_field (U64 n).
Proof.
  intros P n B. split; [cbn [field_eqb display]; apply String.eqb_refl|].
  intros E. cbn [hash_field] in E. unfold hash_str in E. pose proof (f_equal (@length N) E) as L.
  rewrite app_length, str_bytes_len, le_len in L. cbn [length] in L.
  destruct (dec_length n) as (k & K & U & _). rewrite K in L. assert (k = 6%nat) by lia. subst k. change (10 ^ Z.of_nat 7)%Z with 10000000%Z in U.
  apply (f_equal (fun l => last l 0)) in E. rewrite last_last in E. cbn [le_bytes last] in E. rewrite !N.div_div in E by discriminate.
  change (256 * (256 * (256 * (256 * (256 * (256 * 256)))))) with (2 ^ 56) in E.
  replace (n / _) with 0 in E; [discriminate E|]. symmetry. apply N.div_small. apply N.lt_trans with 10000000; [lia|reflexivity].
Qed.
Print Assumptions C100_numbers_refuted.
Theorem C100_arrays_refuted : forall P a b l,
  field_eqb P (Array (a :: b :: l)) (Array ((a ++ "," ++ b) :: l)) = true /\
  ((N.of_nat (length l) + 2 < 2 ^ 64) -> hash_field (Array (a :: b :: l)) <> hash_field (Array ((a ++ "," ++ b) :: l))).
Proof.
  intros P a b l. split; [cbn [field_eqb]; rewrite !(proj1 (proj2 (proj2 (proj2 (proj2 (C13_display P)))))); cbn [fold_left]; apply String.eqb_refl|].
  intros S E. cbn [hash_field length] in E.
  assert (H : forall x y u v, le_bytes 8 x = firstn 8 (le_bytes 8 x ++ u)%list /\ le_bytes 8 y = firstn 8 (le_bytes 8 y ++ v)%list).
  { intros x y u v. split; rewrite firstn_app, le_len, Nat.sub_diag, firstn_O, app_nil_r; symmetry; apply firstn_all2; rewrite le_len; lia. }
  apply (f_equal (firstn 8)) in E. edestruct H as (H1 & H2). rewrite <- H1 in E. rewrite <- H2 in E. clear H H1 H2.
  apply (f_equal (hd 0)) in E. cbn [le_bytes hd] in E. lia.
Qed.
Print Assumptions C100_arrays_refuted.

(** * Events *)
(** Exactly which DNS events become the same log: those that differ in the data of a query. *)
Theorem C22_dns_exact : forall a b, dns_log a = dns_log b <->
  dns_op_code a = dns_op_code b /\ dns_source_ip a = dns_source_ip b /\ dns_destination_ip a = dns_destination_ip b /\
  dns_record_type a = dns_record_type b /\ dns_record_name a = dns_record_name b /\ (dns_op_code a = DO_ANSWER -> dns_data a = dns_data b).
Proof.
  assert (F : forall e, dns_op_code e = DO_QUERY -> dns_log e = dns_log (mkDns (dns_source_ip e) (dns_destination_ip e) DO_QUERY (dns_record_type e) (dns_record_name e) None)).
  { intros [s d o t n x] K. cbn [dns_op_code] in K. subst o. reflexivity. }
  assert (O : forall e, log_field "dns.op_code" (dns_log e) = Some (Text (match dns_op_code e with DO_QUERY => "QUERY" | DO_ANSWER => "ANSWER" end))).
  { intros [s d [] t n [x|]]; reflexivity. }
  intros a b. split.
  - intros E. pose proof (O a) as K. rewrite E, O in K. destruct (dns_op_code a) eqn:A, (dns_op_code b) eqn:B; try discriminate K.
    + apply C22_dns_no_loss in E; [|congruence|congruence]. subst b. splits; auto.
    + rewrite (F a A), (F b B) in E. apply C22_dns_no_loss in E; [|reflexivity|reflexivity]. injection E as E1 E2 E3 E4. splits; auto. discriminate.
  - destruct a as [s d o t n x], b as [s' d' o' t' n' x']. cbn [dns_op_code dns_source_ip dns_destination_ip dns_record_type dns_record_name dns_data].
    intros (-> & -> & -> & -> & -> & D). destruct o'; [rewrite D by reflexivity; reflexivity|reflexivity].
Qed.
Print Assumptions C22_dns_exact.
(** Exactly which DHCP events do: those whose hardware addresses are shown as the same eight octets. *)
Theorem C22_dhcp_exact : forall a b, (dh_source_mac a < 2 ^ 128)%N -> (dh_source_mac b < 2 ^ 128)%N ->
  (dhcp_log a = dhcp_log b <->
   dh_source_ip a = dh_source_ip b /\ dh_record_type a = dh_record_type b /\ dh_source_hostname a = dh_source_hostname b /\ dh_hostname a = dh_hostname b /\
   (dh_source_mac a = dh_source_mac b \/
    (2 ^ 48 <= dh_source_mac a < 2 ^ 96 /\ 2 ^ 48 <= dh_source_mac b < 2 ^ 96 /\ dh_source_mac a mod 2 ^ 64 = dh_source_mac b mod 2 ^ 64)))%N.
Proof.
  intros a b A B. rewrite <- (C08_printed_alike _ _ A B). split.
  - intros E. apply C22_dhcp_no_loss in E. tauto.
  - destruct a as [sa ma ra ha na], b as [sb mb rb hb nb]. cbn. intros (-> & -> & -> & -> & E). unfold dhcp_log. cbn. rewrite E. reflexivity.
Qed.
Print Assumptions C22_dhcp_exact.

(** The data of every DNS answer, and the requested address of every DHCP request, is lost to the default schema. *)
Theorem C126_lost_refuted :
  (forall s d t n x, let g := dns_log (mkDns s d DO_ANSWER t n (Some x)) in
     log_field "dns.answer.data" g = Some (Text x) /\ log_field "dns.answer.data" (apply_schema get_default_schema g) = None) /\
  (forall s m h n, let g := dhcp_log (mkDhcp s m DR_Request h n) in
     log_field "requested_ip" g = Some (IP s) /\ log_field "requested_ip" (apply_schema get_default_schema g) = None).
Proof.
  assert (L : forall n g, get_field n get_default_schema = None -> log_field n (apply_schema get_default_schema g) = None).
  { intros n g N. apply C19_apply. intros D. apply D. exact N. }
  split; [intros s d t n x g|intros s m h n g]; (split; [|apply L; vm_compute; reflexivity]); reflexivity.
Qed.
Print Assumptions C126_lost_refuted.

(** * Networks: no address is ever found through a network that is a single host, whatever else was stored, *)
Theorem C113_hosts_refuted : forall (T : Type) (ops : list (op (siem_ip * N) T)) d ip v,
  Forall op_addr_ok ops -> Forall op_len_ok ops -> ip_net_run ops = Val d -> ip_ok ip -> ip_net_get ip d = Some v ->
  exists len, (len < width ip)%N /\ lives same_net ops (ip, len) v.
Proof.
  intros T ops d ip v A L R K G. apply (C34_exact T ops d ip v A L R K) in G as (len & W & V & _). exists len. split; [lia|exact V].
Qed.
Print Assumptions C113_hosts_refuted.
(** ... the first address of a network is not found through it when the address ends in more zeros than the network leaves free, *)
Theorem C113_first_address_refuted : forall (T : Type) ip len (v : T) d, ip_ok ip -> (len <= width ip)%N ->
  (len < trailing_zeros (width ip) (bits ip))%N -> ip_net_run [Ins (ip, len) v] = Val d -> DatasetSpec.contains ip len ip /\ ip_net_get ip d = None.
Proof.
  intros T ip len v d K L Z R. split.
  - split; [reflexivity|]. split; [exact L|reflexivity].
  - destruct (ip_net_get ip d) as [w|] eqn:G; [exfalso|reflexivity].
    assert (A : Forall op_addr_ok [Ins (ip, len) v]) by (constructor; [exact K|constructor]).
    assert (B : Forall op_len_ok [Ins (ip, len) v]) by (constructor; [exact L|constructor]).
    apply (C34_exact T _ d ip w A B R K) in G as (l & W & (b & [k kl] & a & E & (S & _) & _) & _).
    destruct b as [|b0 b]; [|destruct b; discriminate E]. injection E as <- <- <- _. cbn in S. lia.
Qed.
Print Assumptions C113_first_address_refuted.
(** ... and of two networks that contain the address the wider one wins, whichever was stored first. *)
Theorem C113_wider_wins_refuted : forall (T : Type) (ops : list (op (siem_ip * N) T)) d ip l1 l2 v1 v2,
  Forall op_addr_ok ops -> Forall op_len_ok ops -> ip_net_run ops = Val d -> ip_ok ip ->
  (trailing_zeros (width ip) (bits ip) <= l1 < l2)%N -> lives same_net ops (ip, l1) v1 -> lives same_net ops (ip, l2) v2 ->
  (forall l w, lives same_net ops (ip, l) w -> l = l1 \/ l = l2) -> (l2 <= width ip)%N -> ip_net_get ip d = Some v1.
Proof.
  intros T ops d ip l1 l2 v1 v2 A L R K W V1 V2 O W2. apply (C34_exact T ops d ip v1 A L R K). exists l1. split; [lia|]. split; [exact V1|].
  intros l w H V. destruct (O l w V); lia.
Qed.
Print Assumptions C113_wider_wins_refuted.

(** * Tasks: every name, also that of a predefined type, is the name of some custom type. *)
Theorem C134_any_name_refuted : forall t, task_type_str (TT_OTHER (task_type_str t)) = task_type_str t.
Proof. intros []; reflexivity. Qed.
Print Assumptions C134_any_name_refuted.

(** * Cases *)
Example C96_short_case : Forall2 octet_text ["10"; "1"] [10; 1] /\ ipv4_from_str "10.1" = Ok 2561.
Proof. split; [constructor; [apply (octet_text_dec 10); lia|constructor; [apply (octet_text_dec 1); lia|constructor]]|reflexivity]. Qed.
Example C97_case : (exists v, v6_compressed "fe80::1" ["1"] v) /\ ipv6_from_str "fe80::1:" = Val (Ok (65152 * 2 ^ 112 + 1)) /\
  Forall (fun g => String.length g = 4%nat) (repeat "fe80" 8) /\ Forall2 group_text (repeat "fe80" 8) (repeat 65152 8).
Proof.
  assert (C : v6_compressed "fe80::1" ["1"] (be_value 65536 ([65152] ++ repeat 0 6 ++ [1])%list)).
  { exists ["fe80"], [65152], [1]. splits; [cbn; lia|constructor; [exact group_fe80|constructor]|constructor; [exact group_1|constructor]|reflexivity|reflexivity]. }
  splits; [eexists; exact C|vm_compute; reflexivity|cbn; repeat constructor|cbn; repeat (apply Forall2_cons; [exact group_fe80|]); apply Forall2_nil].
Qed.
Example C125_case : (forall k, k < 8 -> 4096 <= ((2 ^ 128 - 1) / 2 ^ (16 * k)) mod 65536) /\ ~ (65535 * 2 ^ 32 <= 2 ^ 128 - 1 < 65536 * 2 ^ 32).
Proof.
  split; [|intros (_ & H); vm_compute in H; discriminate H].
  intros k K. assert (E : k = 0 \/ k = 1 \/ k = 2 \/ k = 3 \/ k = 4 \/ k = 5 \/ k = 6 \/ k = 7) by lia.
  repeat (destruct E as [-> | E]; [vm_compute; discriminate|]). subst k. vm_compute. discriminate.
Qed.
Example C113_case : let a := V4 167772160 in
  (exists d, ip_net_run [Ins (a, 32) "host"; Ins (a, 8) "ten"] = Val d /\ ip_net_get a d = None /\ ip_net_get (V4 167772161) d = Some "ten") /\
  8 < trailing_zeros (width a) (bits a).
Proof. split; [eexists; split; [reflexivity|vm_compute; auto]|vm_compute; reflexivity]. Qed.
Example C22_case : dns_log (mkDns (V4 1) (V4 2) DO_QUERY DT_A "a" (Some "x")) = dns_log (mkDns (V4 1) (V4 2) DO_QUERY DT_A "a" None) /\
  dhcp_log (mkDhcp (V4 1) (2 ^ 50) DR_Assign "c" "s") = dhcp_log (mkDhcp (V4 1) (2 ^ 64 + 2 ^ 50) DR_Assign "c" "s").
Proof. split; [reflexivity|]. apply C22_dhcp_exact; [reflexivity|reflexivity|]. splits; auto. right. splits; vm_compute; auto; discriminate. Qed.
