(** Model of src/utilities/mac.rs *)
From Coq Require Import String Ascii NArith List Bool.
From Verif Require Import Base.Str Base.Outcome.
Import ListNotations.
Local Open Scope string_scope.
Local Open Scope N_scope.

(** mac.rs:5 the separator closure *)
Definition is_mac_sep (c : ascii) : bool := Ascii.eqb c "-"%char || Ascii.eqb c ":"%char.

(** mac.rs:6-8 / 15-17 / 24-26 / 73-76: for each shift take the next part, parse it in base 16 into a
    [bits]-bit unsigned integer, shift it left (bits shifted out are lost), add it to [ret]
    ([Panic] when the addition overflows, as in a build with overflow checks). *)
Fixpoint mac_loop (bits : N) (shifts : list N) (parts : list string) (ret : N) : outcome (option N) :=
  match shifts with
  | [] => Val (Some ret)
  | i :: shifts' =>
      match parts with
      | [] => Val None
      | p :: parts' =>
          match parse_uint 16 (2 ^ bits - 1) p with
          | None => Val None
          | Some v =>
              let ret' := ret + (N.shiftl v i) mod 2 ^ bits in
              if ret' <? 2 ^ bits then mac_loop bits shifts' parts' ret' else Panic
          end
      end
  end.

(** [(0..8*n).step_by(8).rev()] *)
Fixpoint steps_rev (n : nat) : list N :=
  match n with O => [] | S k => 8 * N.of_nat k :: steps_rev k end.

(** mac.rs:3-10 *)
Definition mac_str_to_u48 (s : string) : outcome (option N) :=
  mac_loop 64 (steps_rev 6) (split_pred is_mac_sep s) 0.
(** mac.rs:12-19 *)
Definition mac_str_to_u64 (s : string) : outcome (option N) :=
  mac_loop 64 (steps_rev 8) (split_pred is_mac_sep s) 0.
(** mac.rs:24 [(0..120).rev().step_by(8)] = 119, 111, .., 7: fifteen shifts *)
Definition steps_u128 : list N := map (fun k => 119 - 8 * N.of_nat k) (seq 0 15).
(** mac.rs:21-28 *)
Definition mac_str_to_u128 (s : string) : outcome (option N) :=
  mac_loop 128 steps_u128 (split_pred is_mac_sep s) 0.

(** mac.rs:64-78 *)
Definition mac_str_to_u128_any (s : string) : outcome (option N) :=
  let parts := split_pred is_mac_sep s in
  let count := length parts in
  if negb (Nat.eqb count 6) && negb (Nat.eqb count 8) && negb (Nat.eqb count 16) then Val None
  else mac_loop 128 (steps_rev count) parts 0.

(** mac.rs:32-34 the printing loop: [write!("{:02x}:", (mac >> i) & 0xff)] for each shift *)
Fixpoint mac_print (shifts : list N) (mac : N) : string :=
  match shifts with
  | [] => ""
  | i :: r => hex2 (N.land (N.shiftr mac i) 255) ++ ":" ++ mac_print r mac
  end.

(** [String::pop]: drop the last character. *)
Fixpoint str_pop (s : string) : string :=
  match s with
  | EmptyString => EmptyString
  | String a EmptyString => EmptyString
  | String a r => String a (str_pop r)
  end.

(** mac.rs:30-37 *)
Definition mac_u64_to_str (mac : N) : string := str_pop (mac_print (steps_rev 8) mac).
(** mac.rs:55-62 *)
Definition mac_u48_to_str (mac : N) : string := str_pop (mac_print (steps_rev 6) mac).
(** [u128::leading_zeros] *)
Definition leading_zeros_128 (n : N) : N := 128 - N.size n.
(** mac.rs:38-53 *)
Definition mac_u128_to_str (mac : N) : string :=
  let lz := leading_zeros_128 mac in
  let octets := if lz <? 32 then 16%nat else if lz <? 80 then 8%nat else 6%nat in
  str_pop (mac_print (steps_rev octets) mac).
