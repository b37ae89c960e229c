(** Texts as sequences of Unicode characters, and their UTF-8 bytes (RFC 3629). *)
From Coq Require Import String Ascii NArith List.
Import ListNotations.
Local Open Scope N_scope.

(** a Unicode scalar value, the Rust type [char] *)
Definition scalar (c : N) : Prop := c < 55296 \/ 57344 <= c < 1114112.
Definition utf8 (c : N) : list N :=
  if c <? 128 then [c]
  else if c <? 2048 then [192 + c / 64; 128 + c mod 64]
  else if c <? 65536 then [224 + c / 4096; 128 + c / 64 mod 64; 128 + c mod 64]
  else [240 + c / 262144; 128 + c / 4096 mod 64; 128 + c / 64 mod 64; 128 + c mod 64].
Definition bytes (l : list N) : string := string_of_list_ascii (map ascii_of_N l).
Definition text (cs : list N) : string := bytes (flat_map utf8 cs).
(** the values of the Rust type [String] *)
Definition is_text (s : string) : Prop := exists cs, Forall scalar cs /\ s = text cs.
