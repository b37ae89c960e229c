(** What a MAC address text is. *)
From Coq Require Import String Ascii NArith List.
From Verif Require Import Spec.TextSpec.
Import ListNotations.
Local Open Scope string_scope.
Local Open Scope N_scope.

(** One octet: two hexadecimal digits of either case. *)
Definition hex_octet (s : string) (v : N) : Prop :=
  String.length s = 2%nat /\ denotes hex_digit 16 s v.

(** Octets separated by ':' or '-'. *)
Inductive mac_text : string -> list N -> Prop :=
| mac_one p v : hex_octet p v -> mac_text p [v]
| mac_more p v c s vs : hex_octet p v -> c = ":"%char \/ c = "-"%char -> mac_text s vs ->
    mac_text (p ++ String c s) (v :: vs).

(** The canonical text of a list of octets: lower-case, two digits each, separated by ':'. *)
Definition nibble (d : N) : string :=
  match String.get (N.to_nat d) "0123456789abcdef" with Some a => String a "" | None => "" end.
Definition canonical_mac (os : list N) : string :=
  sep_by ":" (map (fun o => nibble (o / 16) ++ nibble (o mod 16)) os).

Definition octets (os : list N) : Prop := Forall (fun o => o < 256) os.

(** ** What the parsers do with any text *)
(** The parts of a text between the separators ':' and '-' *)
Definition separator (c : ascii) : Prop := c = ":"%char \/ c = "-"%char.
Inductive no_separator : string -> Prop :=
| no_sep_nil : no_separator ""
| no_sep_cons c s : ~ separator c -> no_separator s -> no_separator (String c s).
Inductive mac_parts : string -> list string -> Prop :=
| parts_one p : no_separator p -> mac_parts p [p]
| parts_more p c s ps : no_separator p -> separator c -> mac_parts s ps -> mac_parts (p ++ String c s) (p :: ps).
(** A hexadecimal number of any length, after an optional '+' *)
Definition hex_number (s : string) (v : N) : Prop :=
  exists sign digits, (sign = "" \/ sign = "+") /\ s = sign ++ digits /\ digits <> "" /\ denotes hex_digit 16 digits v.
(** Each value shifted to its place in a word of [bits] bits, bits shifted out lost, and added up *)
Fixpoint placed (bits : N) (shifts : list N) (vs : list N) : N :=
  match shifts, vs with
  | i :: shifts', v :: vs' => (v * 2 ^ i) mod 2 ^ bits + placed bits shifts' vs'
  | _, _ => 0
  end.
(** What a parser into words of [bits] bits that reads one part for each shift does: [reads]: the result; [overflows]: the sum
    leaves the word, after some parts *)
Definition reads (bits : N) (shifts : list N) (ps : list string) (v : N) : Prop :=
  exists vs, length vs = length shifts /\ Forall2 (fun p v => hex_number p v /\ v < 2 ^ bits) (firstn (length shifts) ps) vs /\
    v = placed bits shifts vs /\ v < 2 ^ bits.
Definition overflows (bits : N) (shifts : list N) (ps : list string) : Prop :=
  exists vs, (length vs <= length shifts)%nat /\ Forall2 (fun p v => hex_number p v /\ v < 2 ^ bits) (firstn (length vs) ps) vs /\
    2 ^ bits <= placed bits shifts vs.
