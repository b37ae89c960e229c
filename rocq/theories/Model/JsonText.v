(** How deeply serde_json's reader follows a text. Trusted reading of serde_json 1 (not part of /repo): its reader counts the
    arrays and objects it is inside of and gives up with an error when the 128th is opened ([remaining_depth] starts at
    128, and opening one that brings it to 0 is an error). Simplified: the value of an unknown member, which the reader
    skips, is not limited there, but is here; nothing that is written has unknown members. *)
From Coq Require Import String Ascii List Arith NArith ZArith.
From Verif Require Import Base.Str Model.Field Model.Json.
Import ListNotations.

(** how many arrays and objects are inside each other: what serde_json counts, no code of /repo *)
Fixpoint depth (j : json) : nat :=
  match j with
  | JArr l => S (fold_right Nat.max 0 (map depth l))
  | JObj l => S (fold_right Nat.max 0 (map (fun e => depth (snd e)) l))
  | _ => 0
  end.

(** [serde_json::from_str] with a reader of trees, as the tests call it for rules (rule/mod.rs:303) and responses
    (command.rs:348), or [from_slice] (geo_ip/mod.rs:28-34) *)
Definition from_text {A} (r : json -> option A) (j : json) : option A := if depth j <? 128 then r j else None.

(** * Writing a tree as a text: [serde_json::to_string], which the store of addresses calls (geo_ip/mod.rs:22-27), a component
    that prints a log it could not send (simplified.rs:220) and the tests for responses (command.rs:347), and [to_string_pretty],
    which they call for rules (rule/mod.rs:302, rule/sigma.rs:490). Trusted reading of serde_json 1 (not part of /repo): its two
    formatters. How a float is printed is a parameter. *)
Local Open Scope string_scope.
(** [serde_json::ser::ESCAPE] and [CharEscape]: what is written for one byte of a text *)
Definition write_byte (c : ascii) : string :=
  let n := N_of_ascii c in
  if (n =? 34)%N then "\""" else if (n =? 92)%N then "\\"
  else if (n =? 8)%N then "\b" else if (n =? 9)%N then "\t" else if (n =? 10)%N then "\n" else if (n =? 12)%N then "\f" else if (n =? 13)%N then "\r"
  else if (n <? 32)%N then "\u00" ++ hex2 n else String c "".
(** [format_escaped_str] *)
Fixpoint write_chars (s : string) : string := match s with "" => "" | String c r => write_byte c ++ write_chars r end.
Definition write_string (s : string) : string := """" ++ write_chars s ++ """".
(** [Serializer] with the compact formatter: nothing but the tokens *)
Fixpoint write_json (ft : f64 -> string) (j : json) : string :=
  match j with
  | JNull => "null"
  | JBool b => if b then "true" else "false"
  | JInt z => dec_z z
  | JFloat x => ft x
  | JStr s => write_string s
  | JArr l => "[" ++ join "," (map (write_json ft) l) ++ "]"
  | JObj l => "{" ++ join "," (map (fun e => write_string (fst e) ++ ":" ++ write_json ft (snd e)) l) ++ "}"
  end.
(** [PrettyFormatter], as [to_string_pretty] has it: every element and member on a line of its own, two spaces more to the
    right than what it is in; [n] is how deep the value is *)
Definition new_line (n : nat) : string := String (ascii_of_N 10) (Nat.iter n (fun s => "  " ++ s) "").
(** a comma and a new line between *)
Fixpoint join_lines (n : nat) (l : list string) : string :=
  match l with [] => "" | [x] => x | x :: r => x ++ "," ++ new_line (S n) ++ join_lines n r end.
Fixpoint write_pretty (ft : f64 -> string) (n : nat) (j : json) : string :=
  match j with
  | JArr ((_ :: _) as l) => "[" ++ new_line (S n) ++ join_lines n (map (write_pretty ft (S n)) l) ++ new_line n ++ "]"
  | JObj ((_ :: _) as l) =>
      "{" ++ new_line (S n) ++ join_lines n (map (fun e => write_string (fst e) ++ ": " ++ write_pretty ft (S n) (snd e)) l) ++ new_line n ++ "}"
  | _ => write_json ft j
  end.
