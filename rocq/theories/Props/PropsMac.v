(** Properties C07, C08, C59: MAC addresses (src/utilities/mac.rs). *)
From Coq Require Import String Ascii List NArith Arith.
From Verif Require Import Base.Str Base.Outcome Spec.TextSpec Spec.MacSpec Model.Mac Proofs.MacP.
Import ListNotations.
Local Open Scope string_scope.
Local Open Scope N_scope.

(** C07 *)
Theorem C07_mac48_roundtrip : forall n, n < 2 ^ 48 -> mac_str_to_u48 (mac_u48_to_str n) = Val (Some n).
Proof. exact mac_u48_roundtrip. Qed.
Print Assumptions C07_mac48_roundtrip.
Theorem C07_mac64_roundtrip : forall n, n < 2 ^ 64 -> mac_str_to_u64 (mac_u64_to_str n) = Val (Some n).
Proof. exact mac_u64_roundtrip. Qed.
Print Assumptions C07_mac64_roundtrip.
(** Every spelling (either separator, either case) of six (eight) octets is parsed to their value. *)
Theorem C07_mac48_parses : forall s os, mac_text s os -> length os = 6%nat -> mac_str_to_u48 s = Val (Some (be_value 256 os)).
Proof. exact mac_u48_parse. Qed.
Print Assumptions C07_mac48_parses.
Theorem C07_mac64_parses : forall s os, mac_text s os -> length os = 8%nat -> mac_str_to_u64 s = Val (Some (be_value 256 os)).
Proof. exact mac_u64_parse. Qed.
Print Assumptions C07_mac64_parses.
Theorem C07_mac48_prints : forall os, octets os -> length os = 6%nat -> mac_u48_to_str (be_value 256 os) = canonical_mac os.
Proof. exact mac_u48_print. Qed.
Print Assumptions C07_mac48_prints.
Theorem C07_mac64_prints : forall os, octets os -> length os = 8%nat -> mac_u64_to_str (be_value 256 os) = canonical_mac os.
Proof. exact mac_u64_print. Qed.
Print Assumptions C07_mac64_prints.
Example C07_nonvacuous : mac_text (canonical_mac [251; 150; 101; 109; 23; 150]) [251; 150; 101; 109; 23; 150]
  /\ canonical_mac [251; 150; 101; 109; 23; 150] = "fb:96:65:6d:17:96".
Proof. split; [apply canonical_mac_text; [discriminate|repeat constructor]|vm_compute; reflexivity]. Qed.

(** C98. Full property: for 6, 8 or 16 octets, parsing then printing gives the text back. *)
Theorem C08_any_width_parses : forall s os, mac_text s os -> (length os = 6 \/ length os = 8 \/ length os = 16)%nat ->
  mac_str_to_u128_any s = Val (Some (be_value 256 os)).
Proof. exact mac_any_parse. Qed.
Print Assumptions C08_any_width_parses.
Theorem C98_eight_octets_refuted : exists os v, length os = 8%nat /\ octets os /\
  mac_str_to_u128_any (canonical_mac os) = Val (Some v) /\ mac_u128_to_str v <> canonical_mac os.
Proof. exact mac_any_not_roundtrip_8. Qed.
Print Assumptions C98_eight_octets_refuted.
Theorem C98_sixteen_octets_refuted : exists os v, length os = 16%nat /\ octets os /\
  mac_str_to_u128_any (canonical_mac os) = Val (Some v) /\ mac_u128_to_str v <> canonical_mac os.
Proof. exact mac_any_not_roundtrip_16. Qed.
Print Assumptions C98_sixteen_octets_refuted.
Theorem C98_print_injective_refuted : exists a b, a <> b /\ a < 2 ^ 128 /\ b < 2 ^ 128 /\ mac_u128_to_str a = mac_u128_to_str b.
Proof. exact mac_u128_print_collision. Qed.
Print Assumptions C98_print_injective_refuted.
(** Exactly when it holds: always for 6 octets, for 8 when the value is at least 2^48, for 16 when it is at least 2^96. *)
Theorem C08_any_width_roundtrip : forall os, octets os -> (length os = 6 \/ length os = 8 \/ length os = 16)%nat ->
  mac_u128_to_str (be_value 256 os) = canonical_mac os <->
  (length os = 6%nat \/ length os = 8%nat /\ 2 ^ 48 <= be_value 256 os \/ length os = 16%nat /\ 2 ^ 96 <= be_value 256 os).
Proof. exact mac_any_roundtrip. Qed.
Print Assumptions C08_any_width_roundtrip.
(** The dedicated 128-bit parser does not compute the value of the octets. *)
Theorem C98_mac128_value_refuted : exists os v, length os = 16%nat /\ octets os /\
  mac_str_to_u128 (canonical_mac os) = Val (Some v) /\ v <> be_value 256 os.
Proof. exact mac_u128_wrong. Qed.
Print Assumptions C98_mac128_value_refuted.
Example C08_nonvacuous : octets [251; 150; 101; 0; 0; 109; 23; 150] /\ 2 ^ 48 <= be_value 256 [251; 150; 101; 0; 0; 109; 23; 150].
Proof. split; [repeat constructor|vm_compute; discriminate]. Qed.

(** C124. Full property: the MAC parsers never abort and accept only texts of their width with two-digit octets.
    Refuted in three ways. *)
Theorem C124_mac64_no_panic_refuted : exists s, mac_str_to_u64 s = Panic.
Proof. exact mac_u64_panics. Qed.
Print Assumptions C124_mac64_no_panic_refuted.
Theorem C124_mac48_range_refuted : exists s v, mac_str_to_u48 s = Val (Some v) /\ 2 ^ 48 <= v.
Proof. exact mac_u48_out_of_range. Qed.
Print Assumptions C124_mac48_range_refuted.
Theorem C124_mac48_extra_octets_refuted : exists s os, mac_text s os /\ length os = 7%nat /\
  mac_str_to_u48 s = Val (Some (be_value 256 (firstn 6 os))).
Proof. exact mac_extra_octets. Qed.
Print Assumptions C124_mac48_extra_octets_refuted.
(** What holds: on every text whose parts between separators have at most two characters (whatever they are) the
    parsers terminate normally and what they return fits the width. Missing: longer parts; extra parts are ignored. *)
Theorem C59_mac_short_parts : forall s ps, mac_parts s ps ->
  Forall (fun p => (String.length p <= 2)%nat) ps ->
  (exists r, mac_str_to_u48 s = Val r /\ forall v, r = Some v -> v < 2 ^ 48) /\
  (exists r, mac_str_to_u64 s = Val r /\ forall v, r = Some v -> v < 2 ^ 64) /\
  (exists r, mac_str_to_u128_any s = Val r /\ forall v, r = Some v -> v < 2 ^ 128).
Proof. intros s ps H. rewrite (mac_parts_split _ _ H). apply mac_short_total. Qed.
Print Assumptions C59_mac_short_parts.
(** Every text has parts, and in one way. *)
Theorem C59_parts : forall s, exists ps, mac_parts s ps /\ forall ps', mac_parts s ps' -> ps' = ps.
Proof. intro s. exists (split_pred is_mac_sep s). split; [apply parts_split|]. intros ps' H. apply mac_parts_split. exact H. Qed.
Print Assumptions C59_parts.
(** Exactly what each parser does with any text: which value it returns, when the addition overflows (the process aborts in
    builds with overflow checks), and that otherwise it returns none. *)
Theorem C59_exact_48 : forall s ps, mac_parts s ps ->
  (forall v, mac_str_to_u48 s = Val (Some v) <-> reads 64 [40; 32; 24; 16; 8; 0] ps v) /\
  (mac_str_to_u48 s = Panic <-> overflows 64 [40; 32; 24; 16; 8; 0] ps) /\ mac_str_to_u48 s <> OutOfFuel.
Proof. intros s ps H. rewrite (mac_parts_split _ _ H). exact (loop_exact 64 [40; 32; 24; 16; 8; 0] _). Qed.
Print Assumptions C59_exact_48.
Theorem C59_exact_64 : forall s ps, mac_parts s ps ->
  (forall v, mac_str_to_u64 s = Val (Some v) <-> reads 64 [56; 48; 40; 32; 24; 16; 8; 0] ps v) /\
  (mac_str_to_u64 s = Panic <-> overflows 64 [56; 48; 40; 32; 24; 16; 8; 0] ps) /\ mac_str_to_u64 s <> OutOfFuel.
Proof. intros s ps H. rewrite (mac_parts_split _ _ H). exact (loop_exact 64 [56; 48; 40; 32; 24; 16; 8; 0] _). Qed.
Print Assumptions C59_exact_64.
(** The 128-bit parser reads fifteen parts and leaves the low seven bits free. *)
Theorem C59_exact_128 : forall s ps, mac_parts s ps ->
  (forall v, mac_str_to_u128 s = Val (Some v) <-> reads 128 [119; 111; 103; 95; 87; 79; 71; 63; 55; 47; 39; 31; 23; 15; 7] ps v) /\
  (mac_str_to_u128 s = Panic <-> overflows 128 [119; 111; 103; 95; 87; 79; 71; 63; 55; 47; 39; 31; 23; 15; 7] ps) /\ mac_str_to_u128 s <> OutOfFuel.
Proof. intros s ps H. rewrite (mac_parts_split _ _ H). unfold mac_str_to_u128. assert (steps_u128 = [119; 111; 103; 95; 87; 79; 71; 63; 55; 47; 39; 31; 23; 15; 7]) as -> by (vm_compute; reflexivity). apply loop_exact. Qed.
Print Assumptions C59_exact_128.
(** The parser for any width reads all parts, of which there must be 6, 8 or 16. *)
Theorem C59_exact_any : forall s ps, mac_parts s ps ->
  let shifts := map (fun k => 8 * (N.of_nat (length ps) - 1 - N.of_nat k)) (seq 0 (length ps)) in
  let right := (length ps = 6 \/ length ps = 8 \/ length ps = 16)%nat in
  (forall v, mac_str_to_u128_any s = Val (Some v) <-> right /\ reads 128 shifts ps v) /\
  (mac_str_to_u128_any s = Panic <-> right /\ overflows 128 shifts ps) /\ mac_str_to_u128_any s <> OutOfFuel.
Proof.
  intros s ps H. rewrite (mac_parts_split _ _ H). clear H ps. cbv zeta. unfold mac_str_to_u128_any. cbv zeta. set (ps := split_pred is_mac_sep s).
  destruct (Nat.eqb_spec (length ps) 6) as [E|E6]; [|destruct (Nat.eqb_spec (length ps) 8) as [E|E8]; [|destruct (Nat.eqb_spec (length ps) 16) as [E|E16]]].
  1-3: cbn [negb andb]; rewrite E; match goal with |- context [map ?f (seq 0 ?n)] => change (map f (seq 0 n)) with (steps_rev n) end;
    match goal with |- context [steps_rev ?n] => destruct (loop_exact 128 (steps_rev n) ps) as (A & B & C) end; split; [|split; [|exact C]];
    [intro v; rewrite A|rewrite B]; split; [intro X; split; [tauto|exact X]|intros [_ X]; exact X|intro X; split; [tauto|exact X]|intros [_ X]; exact X].
  cbn [negb andb]. split; [|split; [|discriminate]]; [intro v|]; (split; [discriminate|]); intros [[X|[X|X]] _]; contradiction.
Qed.
Print Assumptions C59_exact_any.
(** Concrete texts: a part that overflows, a sign, a part of three digits that carries into its neighbour. *)
Example C59_exact_case :
  mac_parts "1-+f:100:0:0:7fffffffffffffff:zz" ["1"; "+f"; "100"; "0"; "0"; "7fffffffffffffff"; "zz"] /\
  reads 64 [40; 32; 24; 16; 8; 0] ["1"; "+f"; "100"; "0"; "0"; "7fffffffffffffff"; "zz"] (2 ^ 40 + 15 * 2 ^ 32 + 256 * 2 ^ 24 + (2 ^ 63 - 1)) /\
  overflows 64 [40; 32; 24; 16; 8; 0] ["0"; "0"; "0"; "0"; "00ffffffffffffff"; "100"].
Proof.
  assert (X : forall s v, parse_uint 16 (2 ^ 64 - 1) s = Some v -> hex_number s v /\ v < 2 ^ 64) by (intros; apply hex_number_fits; assumption).
  split; [|split].
  - apply (eq_ind _ (mac_parts _) (parts_split _)). vm_compute. reflexivity.
  - exists [1; 15; 256; 0; 0; 2 ^ 63 - 1]. split; [reflexivity|]. split; [|split; [vm_compute; reflexivity|vm_compute; reflexivity]].
    cbn [length firstn]. repeat (constructor; [apply X; vm_compute; reflexivity|]). constructor.
  - exists [0; 0; 0; 0; 2 ^ 56 - 1; 256]. split; [cbn; repeat constructor|]. split; [|vm_compute; discriminate].
    cbn [length firstn]. repeat (constructor; [apply X; vm_compute; reflexivity|]). constructor.
Qed.
Example C59_nonvacuous : split_pred is_mac_sep "fb-9:zz:" = ["fb"; "9"; "zz"; ""].
Proof. vm_compute; reflexivity. Qed.
