(** Properties C60, C61: printing IPv6 addresses and the SiemIp type (src/utilities/ip_utils.rs, src/events/ip.rs). *)
From Coq Require Import String Ascii List NArith.
From Verif Require Import Base.Str Base.Outcome Spec.TextSpec Model.IpUtils Model.Ip Proofs.IpV4P Proofs.IpPrintP.
Import ListNotations.
Local Open Scope string_scope.
Local Open Scope N_scope.

(** C125. Full property: printing any 128-bit address and parsing the text gives the address back. *)
Theorem C125_mapped_addresses_refuted : exists n, n < 2 ^ 128 /\ forall v, ipv6_from_str (ipv6_to_str n) <> Val (Ok v).
Proof. exists (65535 * 2 ^ 32 + 16909060). split; [reflexivity|]. intros v. vm_compute. discriminate. Qed.
Print Assumptions C125_mapped_addresses_refuted.
Theorem C125_wide_addresses_refuted : exists n, n < 2 ^ 128 /\ v6_text (ipv6_to_str n) n /\
  ipv6_from_str (ipv6_to_str n) = Val (Err "Invalid ipv6 size").
Proof.
  exists (2 ^ 128 - 1). split; [reflexivity|split; [|vm_compute; reflexivity]].
  apply ipv6_to_str_text; [reflexivity|vm_compute; discriminate].
Qed.
Print Assumptions C125_wide_addresses_refuted.
(** Exactly when the round trip holds: the address is not IPv4-mapped (::ffff:0:0/96) and some group has
    fewer than four significant hex digits. *)
Theorem C60_ipv6_roundtrip : forall n, n < 2 ^ 128 ->
  (ipv6_from_str (ipv6_to_str n) = Val (Ok n) <->
   ~ (65535 * 2 ^ 32 <= n < 65536 * 2 ^ 32) /\ exists k, k < 8 /\ (n / 2 ^ (16 * k)) mod 65536 < 4096).
Proof.
  exact (fun n H => iff_trans (ipv6_print_parse n H)
    (conj (fun p => conj (fun c => proj1 p (proj2 (mapped_alt n) c))
             (match wide_dec n with or_introl w => False_ind _ (proj2 p w) | or_intror _ => not_wide_ex n (proj2 p) end))
          (fun p => conj (fun c => proj1 p (proj1 (mapped_alt n) c))
             (fun w => match proj2 p with ex_intro _ k (conj hk hl) => proj1 (N.lt_nge _ _) hl (w k hk) end)))).
Qed.
Print Assumptions C60_ipv6_roundtrip.
(** What is printed is always a valid text of that address (mapped addresses apart, which print in dotted form). *)
Theorem C60_printed_text_is_valid : forall n, n < 2 ^ 128 -> ~ (65535 * 2 ^ 32 <= n < 65536 * 2 ^ 32) -> v6_text (ipv6_to_str n) n.
Proof. exact (fun n H M => ipv6_to_str_text n H (fun c => M (proj1 (mapped_alt n) c))). Qed.
Print Assumptions C60_printed_text_is_valid.
Theorem C60_print_injective : forall a b, a < 2 ^ 128 -> b < 2 ^ 128 -> ipv6_to_str a = ipv6_to_str b -> a = b.
Proof. exact ipv6_to_str_inj. Qed.
Print Assumptions C60_print_injective.
Example C60_nonvacuous : ipv6_to_str (0xfe80 * 2 ^ 112 + 0x1f) = "fe80::1f" /\ ipv6_to_str (65535 * 2 ^ 32 + 16909060) = "::ffff:1.2.3.4"
  /\ ipv6_to_str (2 ^ 112 + 5 * 2 ^ 32) = "1::5:0:0".
Proof. repeat split; vm_compute; reflexivity. Qed.

(** C61. SiemIp: text and comparison. *)
Theorem C61_display_injective : forall a b, ip_ok a -> ip_ok b -> ip_to_string a = ip_to_string b -> a = b.
Proof. exact ip_to_string_inj. Qed.
Print Assumptions C61_display_injective.
Theorem C61_parse_total : forall s, exists r, from_ip_str s = Val r /\ forall a, r = Ok a -> ip_ok a.
Proof. exact from_ip_str_total. Qed.
Print Assumptions C61_parse_total.
Theorem C61_v4_roundtrip : forall n, n < 2 ^ 32 -> from_ip_str (ip_to_string (V4 n)) = Val (Ok (V4 n)).
Proof. exact (fun n H => proj2 (siem_ip_roundtrip (V4 n) H) I). Qed.
Print Assumptions C61_v4_roundtrip.
Theorem C61_v6_roundtrip : forall n, n < 2 ^ 128 ->
  (from_ip_str (ip_to_string (V6 n)) = Val (Ok (V6 n)) <-> ipv6_from_str (ipv6_to_str n) = Val (Ok n)).
Proof. exact (fun n H => iff_trans (siem_ip_roundtrip (V6 n) H) (iff_sym (ipv6_print_parse n H))). Qed.
Print Assumptions C61_v6_roundtrip.
(** [equals] compares with the address the text denotes, in the family of the address. *)
Theorem C61_equals_iff : forall a s, ip_equals a s = Val true <->
  match a with V4 x => ipv4_from_str s = Ok x | V6 x => ipv6_from_str s = Val (Ok x) end.
Proof. exact ip_equals_iff. Qed.
Print Assumptions C61_equals_iff.
(** Building an address from an array of integers takes the low byte of each, most significant first. *)
Theorem C61_from_octets : forall v, ip_of_octets v = be_value 256 (map (fun x => x mod 256) v).
Proof. exact ip_of_octets_value. Qed.
Print Assumptions C61_from_octets.
Example C61_nonvacuous : ip_ok (V6 (2 ^ 127)) /\ from_ip_str "8000::" = Val (Ok (V6 (2 ^ 127))) /\ ip_of_octets [192;168;1;1] = 3232235777.
Proof. repeat split; vm_compute; reflexivity. Qed.

(** C05 for the address type: [is_local] uses the rule of the family. *)
Theorem C05_siem_ip : forall a, ip_ok a ->
  (ip_is_local a = true <-> match a with V4 n => private_v4 n | V6 n => private_v6 n end).
Proof. intros [n|n] H; [exact (is_local_ipv4_iff n H)|exact (is_local_ipv6_iff n H)]. Qed.
Print Assumptions C05_siem_ip.
Example C05_siem_ip_nonvacuous : ip_ok (V6 (0xfd00 * 2 ^ 112)) /\ ip_is_local (V6 (0xfd00 * 2 ^ 112)) = true /\ ip_is_local (V4 167772161) = true /\
  ip_is_local (V6 167772161) = false.
Proof. repeat split. Qed.
