(** Independent specifications of textual number and address formats.
    Nothing here refers to the model. *)
From Coq Require Import String Ascii NArith List.
Import ListNotations.
Local Open Scope string_scope.
Local Open Scope N_scope.

(** [a] is the decimal digit of value [d]. *)
Definition decimal_digit (a : ascii) (d : N) : Prop :=
  String.get (N.to_nat d) "0123456789" = Some a.

(** [a] is a hexadecimal digit (either case) of value [d]. *)
Definition hex_digit (a : ascii) (d : N) : Prop :=
  String.get (N.to_nat d) "0123456789abcdef" = Some a \/
  String.get (N.to_nat d) "0123456789ABCDEF" = Some a.

(** Positional notation: [s], read left to right with digits [D] in base [radix], denotes [v]. *)
Inductive denotes (D : ascii -> N -> Prop) (radix : N) : string -> N -> Prop :=
| denotes_nil : denotes D radix "" 0
| denotes_snoc s v a d :
    denotes D radix s v -> D a d -> denotes D radix (s ++ String a "") (radix * v + d).

(** An unsigned decimal numeral as Rust's integer parser accepts it: digits after an optional '+'. *)
Definition decimal_text (s : string) (v : N) : Prop :=
  exists sign digits, (sign = "" \/ sign = "+") /\ s = sign ++ digits /\ digits <> "" /\
                      denotes decimal_digit 10 digits v.

(** A decimal octet. *)
Definition octet_text (s : string) (v : N) : Prop := decimal_text s v /\ v <= 255.

(** Parts separated by a character. *)
Fixpoint sep_by (c : ascii) (l : list string) : string :=
  match l with
  | [] => ""
  | [x] => x
  | x :: r => x ++ String c (sep_by c r)
  end.

(** Big-endian value of a list of digits. *)
Definition be_value (radix : N) (ds : list N) : N := fold_left (fun acc d => acc * radix + d) ds 0.

(** [s] is the dotted quad a.b.c.d of the address [v]. *)
Definition dotted_quad (s : string) (v : N) : Prop :=
  exists a b c d va vb vc vd,
    s = a ++ "." ++ b ++ "." ++ c ++ "." ++ d /\
    octet_text a va /\ octet_text b vb /\ octet_text c vc /\ octet_text d vd /\
    v = va * 2 ^ 24 + vb * 2 ^ 16 + vc * 2 ^ 8 + vd.

(** One IPv6 group: one to four hex digits. *)
Definition group_text (s : string) (v : N) : Prop :=
  (1 <= String.length s <= 4)%nat /\ denotes hex_digit 16 s v.

(** Eight groups separated by ':'. *)
Definition v6_full (s : string) (v : N) : Prop :=
  exists gs vs, length gs = 8%nat /\ Forall2 group_text gs vs /\
                s = sep_by ":" gs /\ v = be_value 65536 vs.

(** Groups [hi] '::' groups [lo], at most seven in total; the '::' stands for the missing zeros. *)
Definition v6_compressed (s : string) (lo : list string) (v : N) : Prop :=
  exists hi vhi vlo, (length hi + length lo <= 7)%nat /\
    Forall2 group_text hi vhi /\ Forall2 group_text lo vlo /\
    s = sep_by ":" hi ++ "::" ++ sep_by ":" lo /\
    v = be_value 65536 (vhi ++ repeat 0 (8 - (length hi + length lo)) ++ vlo).

(** The RFC 4291 text forms without embedded IPv4. *)
Definition v6_text (s : string) (v : N) : Prop :=
  v6_full s v \/ exists lo, v6_compressed s lo v.

(** The private ranges. *)
Definition in_range (lo hi x : N) : Prop := lo <= x <= hi.
Definition quad (a b c d : N) : N := a * 2 ^ 24 + b * 2 ^ 16 + c * 2 ^ 8 + d.
Definition private_v4 (x : N) : Prop :=
  in_range (quad 10 0 0 0) (quad 10 255 255 255) x \/
  in_range (quad 172 16 0 0) (quad 172 31 255 255) x \/
  in_range (quad 192 168 0 0) (quad 192 168 255 255) x \/
  in_range (quad 100 64 0 0) (quad 100 127 255 255) x.
(** fc00::/7 *)
Definition private_v6 (x : N) : Prop := in_range (0xfc00 * 2 ^ 112) (0xfe00 * 2 ^ 112 - 1) x.
