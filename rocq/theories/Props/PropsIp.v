(** Properties C01-C06: textual IP addresses (src/utilities/ip_utils.rs). *)
From Coq Require Import String Ascii List NArith.
From Verif Require Import Base.Str Base.Outcome Spec.TextSpec Model.IpUtils.
From Verif Require Import Proofs.TextP Proofs.IpV4P Proofs.IpV6P Proofs.IpV6G Proofs.IpExtra.
Import ListNotations.
Local Open Scope string_scope.
Local Open Scope N_scope.

(** C01. Printing then parsing is the identity on every u32; the printed text is the dotted quad of the address. *)
Theorem C01_ipv4_roundtrip : forall n, n < 2 ^ 32 ->
  ipv4_from_str (ipv4_to_str n) = Ok n /\ dotted_quad (ipv4_to_str n) n.
Proof. exact (fun n H => conj (ipv4_roundtrip n H) (ipv4_to_str_is_quad n H)). Qed.
Print Assumptions C01_ipv4_roundtrip.

Theorem C01_ipv4_print_injective : forall a b, a < 2 ^ 32 -> b < 2 ^ 32 -> ipv4_to_str a = ipv4_to_str b -> a = b.
Proof.
  exact (fun a b Ha Hb E => match eq_trans (eq_sym (ipv4_roundtrip a Ha)) (eq_trans (f_equal ipv4_from_str E) (ipv4_roundtrip b Hb))
    in _ = r return match r with Ok x => a = x | Err _ => True end with eq_refl => eq_refl end).
Qed.
Print Assumptions C01_ipv4_print_injective.
Example C01_nonvacuous : 3232235777 < 2 ^ 32 /\ ipv4_to_str 3232235777 = "192.168.1.1".
Proof. split; vm_compute; reflexivity. Qed.

(** C96. Full property: [ipv4_from_str s = Ok v <-> dotted_quad s v].
    The direction from right to left holds; the other is false of the code. *)
Theorem C02_dotted_quads_accepted : forall s v, dotted_quad s v -> ipv4_from_str s = Ok v.
Proof. exact ipv4_quad_complete. Qed.
Print Assumptions C02_dotted_quads_accepted.

Theorem C96_only_dotted_quads_refuted : exists s v, ipv4_from_str s = Ok v /\ forall w, ~ dotted_quad s w.
Proof. exact ipv4_short_accepted. Qed.
Print Assumptions C96_only_dotted_quads_refuted.

(** What is accepted exactly: one to four octets separated by dots, valued in base 256.
    Missing with respect to C02: texts with fewer than four octets should be rejected. *)
Theorem C02_ipv4_language : forall s v,
  ipv4_from_str s = Ok v <->
  exists parts vs, (1 <= length parts <= 4)%nat /\ s = sep_by "." parts /\
                   Forall2 octet_text parts vs /\ v = be_value 256 vs.
Proof. exact ipv4_from_str_iff. Qed.
Print Assumptions C02_ipv4_language.

(** Four bytes, the most significant first; any other number of bytes is refused. *)
Theorem C02_ipv4_bytes : forall b r, ipv4_to_u32_bytes b = r <->
  (exists b0 b1 b2 b3, b = [b0; b1; b2; b3] /\
     r = Ok (N_of_ascii b0 * 2 ^ 24 + N_of_ascii b1 * 2 ^ 16 + N_of_ascii b2 * 2 ^ 8 + N_of_ascii b3)) \/
  (length b <> 4%nat /\ r = Err "Invalid IPV4 length").
Proof.
  intros b r. unfold ipv4_to_u32_bytes. destruct b as [|b0 [|b1 [|b2 [|b3 [|b4 b]]]]];
    try (split; [intros <-; right; split; [discriminate|reflexivity]|intros [(? & ? & ? & ? & E & _)|[_ ->]]; [discriminate|reflexivity]]).
  rewrite !N.shiftl_mul_pow2. split.
  - intros <-. left. exists b0, b1, b2, b3. split; reflexivity.
  - intros [(c0 & c1 & c2 & c3 & E & ->)|[L _]]; [congruence|]. exfalso. apply L. reflexivity.
Qed.
Print Assumptions C02_ipv4_bytes.
Theorem C02_ipv4_result_fits : forall s v, ipv4_from_str s = Ok v -> v < 2 ^ 32.
Proof. exact ipv4_from_str_range. Qed.
Print Assumptions C02_ipv4_result_fits.
Example C02_nonvacuous : ipv4_from_str "10.127.222.21" = Ok 176152085.
Proof. vm_compute; reflexivity. Qed.

(** C03. No panic, no endless loop, result in range, for every text. *)
Theorem C03_ipv6_total : forall s, exists r, ipv6_from_str s = Val r /\ (forall v, r = Ok v -> v < 2 ^ 128).
Proof. exact ipv6_total. Qed.
Print Assumptions C03_ipv6_total.

(** C97. Full property: [ipv6_from_str s = Val (Ok v) <-> v6_text s v]. Both directions fail:
    39-character addresses are rejected, a stray trailing ':' is accepted. *)
Theorem C97_long_addresses_refuted : exists s v, v6_text s v /\ ipv6_from_str s = Val (Err "Invalid ipv6 size").
Proof. exact v6_long_rejected. Qed.
Print Assumptions C97_long_addresses_refuted.

Theorem C97_trailing_colon_refuted : exists s, ipv6_from_str s = Val (Ok 1) /\ forall v, ~ v6_text s v.
Proof. exact v6_trailing_accepted. Qed.
Print Assumptions C97_trailing_colon_refuted.

(** Exactly the texts of at most 38 characters that are valid, or valid compressed forms with at least one
    group after '::' followed by one stray ':'; the value is the RFC 4291 one. *)
Theorem C04_ipv6_language : forall s v,
  ipv6_from_str s = Val (Ok v) <->
  (String.length s <= 38)%nat /\
  (v6_text s v \/ exists s' lo, lo <> [] /\ s = s' ++ ":" /\ v6_compressed s' lo v).
Proof. exact ipv6_lang. Qed.
Print Assumptions C04_ipv6_language.

(** The code has a branch for an embedded IPv4 part; no text containing a dot is ever accepted. *)
Theorem C04_embedded_ipv4_never_accepted : forall s v, str_has "." s = true -> ipv6_from_str s <> Val (Ok v).
Proof. exact ipv6_dot_rejected. Qed.
Print Assumptions C04_embedded_ipv4_never_accepted.
Example C04_nonvacuous : v6_text "fe80::1" (65152 * 2 ^ 112 + 1) /\ v6_full "1:1:1:1:1:1:1:1" (be_value 65536 [1;1;1;1;1;1;1;1]).
Proof. exact (conj v6_text_fe80_1 v6_full_witness). Qed.

(** C05 *)
Theorem C05_private_v4 : forall n, n < 2 ^ 32 -> (is_local_ipv4 n = true <-> private_v4 n).
Proof. exact is_local_ipv4_iff. Qed.
Print Assumptions C05_private_v4.
Theorem C05_private_v6 : forall n, n < 2 ^ 128 -> (is_local_ipv6 n = true <-> private_v6 n).
Proof. exact is_local_ipv6_iff. Qed.
Print Assumptions C05_private_v6.
Example C05_nonvacuous : is_local_ipv4 (quad 172 31 255 255) = true /\ is_local_ipv4 (quad 172 32 0 0) = false
  /\ is_local_ipv6 (0xfd00 * 2 ^ 112) = true /\ is_local_ipv6 (0xfe80 * 2 ^ 112) = false.
Proof. vm_compute. auto. Qed.

(** C06 *)
Theorem C06_ip_port_roundtrip : forall ip port, ip < 2 ^ 32 -> port < 2 ^ 16 ->
  parse_ipv4_port (ipv4_to_str ip ++ ":" ++ dec port) = Some (ip, port).
Proof. exact ipv4_port_parse. Qed.
Print Assumptions C06_ip_port_roundtrip.
Theorem C06_is_ipv4_port_agrees : forall s, is_ipv4_port s = true <-> exists r, parse_ipv4_port s = Some r.
Proof. exact is_ipv4_port_agrees. Qed.
Print Assumptions C06_is_ipv4_port_agrees.
(** What is accepted, exactly: an accepted address text, the last ':', and a decimal below 2^16. *)
Theorem C06_ip_port_language : forall s ip port,
  parse_ipv4_port s = Some (ip, port) <->
  exists a p, s = a ++ ":" ++ p /\ str_has ":" p = false /\ ipv4_from_str a = Ok ip /\
              decimal_text p port /\ port < 2 ^ 16.
Proof. exact parse_ipv4_port_iff. Qed.
Print Assumptions C06_ip_port_language.
Example C06_nonvacuous : parse_ipv4_port "10.0.0.1:8080" = Some (167772161, 8080).
Proof. vm_compute; reflexivity. Qed.
