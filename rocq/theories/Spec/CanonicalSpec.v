(** The recommended text of an address: RFC 5952 for IPv6, dotted decimal for IPv4. Nothing here refers to the model. *)
From Coq Require Import String Ascii NArith List.
From Verif Require Import Spec.TextSpec.
Import ListNotations.
Local Open Scope string_scope.
Local Open Scope N_scope.

(** [a] is the lower-case hexadecimal digit of value [d] (RFC 5952, 4.3). *)
Definition lower_hex_digit (a : ascii) (d : N) : Prop := String.get (N.to_nat d) "0123456789abcdef" = Some a.
(** A numeral that is not empty and has no leading zeros (RFC 5952, 4.1) *)
Definition numeral (D : ascii -> N -> Prop) (radix : N) (s : string) (v : N) : Prop :=
  s <> "" /\ denotes D radix s v /\ forall r, s = String "0" r -> r = "".

(** The dotted decimal of an address *)
Definition canonical_v4 (v : N) (s : string) : Prop :=
  exists ts, Forall2 (fun t k => numeral decimal_digit 10 t ((v / 2 ^ (8 * k)) mod 256)) ts [3; 2; 1; 0] /\ s = sep_by "." ts.

(** The groups of an address, the most significant first *)
Definition groups (v : N) : list N := map (fun k => (v / 2 ^ (16 * k)) mod 65536) [7; 6; 5; 4; 3; 2; 1; 0].
(** The groups from the [i]-th on, [n] of them, are there and zero. *)
Definition zeros (l : list N) (i n : nat) : Prop := forall k, (i <= k < i + n)%nat -> nth_error l k = Some 0.
(** Two or more zero groups are shortened to '::', the longest such run and the first of the longest (RFC 5952, 4.2); if
    there are no two zero groups beside each other, all groups are written. *)
Definition canonical_v6 (l : list N) (s : string) : Prop :=
  exists ts, Forall2 (numeral lower_hex_digit 16) ts l /\
    ((forall i, ~ zeros l i 2) /\ s = sep_by ":" ts \/
     exists i n, (2 <= n)%nat /\ zeros l i n /\ (forall j m, zeros l j m -> (m <= n)%nat) /\ (forall j, zeros l j n -> (i <= j)%nat) /\
       s = sep_by ":" (firstn i ts) ++ "::" ++ sep_by ":" (skipn (i + n) ts)).
