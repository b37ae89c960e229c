(** What metrics should report, without the code's data structures. *)
From Coq Require Import String Ascii NArith ZArith List Bool Floats.SpecFloat.
From Verif Require Import Model.Metrics.
Import ListNotations.
Local Open Scope string_scope.

(** [v] is the 64-bit signed integer equal to [s] modulo 2^64. *)
Definition is_i64_of (v s : Z) : Prop := (- 2 ^ 63 <= v < 2 ^ 63 /\ (v - s) mod 2 ^ 64 = 0)%Z.
(** [v] is the 64-bit unsigned integer equal to [s] modulo 2^64. *)
Definition is_u64_of (v s : N) : Prop := (v < 2 ^ 64 /\ v = s mod 2 ^ 64)%N.

Definition zsum (l : list Z) : Z := fold_right Z.add 0%Z l.

(** By how much a call asks series [i] to grow. *)
Definition asked (i : nat) (c : ccall) : Z :=
  match c with
  | CInc j => if Nat.eqb i j then 1 else 0
  | CIncBy j v => if Nat.eqb i j then v else 0
  | _ => 0
  end%Z.
(** Calls that set a series back. *)
Definition resets (i : nat) (c : ccall) : Prop := c = CReset i \/ c = CResetAll.

(** * Numbers on [f64]: the value scaled by 2^1074, which is an integer for every finite [f64]. *)
Definition scaled (s : bool) (m : positive) (e : Z) : Z :=
  let v := (Zpos m * 2 ^ (e + 1074))%Z in if s then (- v)%Z else v.
(** [x <= y] as (extended) real numbers; NaN is not a number *)
Definition f64_le (x y : spec_float) : Prop :=
  match x, y with
  | S754_nan, _ | _, S754_nan => False
  | S754_infinity true, _ => True
  | _, S754_infinity false => True
  | S754_infinity false, _ => False
  | _, S754_infinity true => False
  | S754_zero _, S754_zero _ => True
  | S754_zero _, S754_finite s m e => (0 <= scaled s m e)%Z
  | S754_finite s m e, S754_zero _ => (scaled s m e <= 0)%Z
  | S754_finite s m e, S754_finite s' m' e' => (scaled s m e <= scaled s' m' e')%Z
  end.
(** A 64-bit float: at most 53 bits, normalised, exponent in range. *)
Definition is_f64 (x : spec_float) : Prop := valid_binary 53 1024 x = true.

(** [count_of Q l n]: exactly [n] elements of [l] satisfy [Q]. *)
Inductive count_of {A} (Q : A -> Prop) : list A -> N -> Prop :=
| co_nil : count_of Q [] 0
| co_yes x l n : Q x -> count_of Q l n -> count_of Q (x :: l) (n + 1)
| co_no x l n : ~ Q x -> count_of Q l n -> count_of Q (x :: l) n.

(** * Label combinations *)
(** [row] chooses one value for each label, in order. *)
Definition chooses (ls : list (string * list string)) (row : labels) : Prop :=
  Forall2 (fun l p => fst p = fst l /\ In (snd p) (snd l)) ls row.
(** The labels whose choices are enumerated completely: after the first one all have the same number of values; in front of
    that there may be labels with a single value, if the next one has no more values than the ones that follow it. *)
Definition odometer (ls : list (string * list string)) : Prop :=
  ls = [] \/ exists ones x rest s, ls = (ones ++ x :: rest)%list /\
    Forall (fun l => length (snd l) = 1%nat) ones /\ Forall (fun l => length (snd l) = s) rest /\
    (ones = [] \/ (length (snd x) <= s)%nat).

(** * The Prometheus text format, a sample line:
      name [ "{" [ label "=" quote value quote { "," label "=" quote value quote } [ "," ] ] "}" ] " " number
    with the escapes backslash-backslash, backslash-quote and backslash-n in values. *)
(** [char_in lo hi a]: the character has a number from [lo] to [hi] *)
Definition char_in (lo hi : N) (a : ascii) : bool := N.leb lo (N_of_ascii a) && N.leb (N_of_ascii a) hi.
Definition letter (a : ascii) : bool := char_in 97 122 a || char_in 65 90 a || Ascii.eqb a "_".
Definition digit (a : ascii) : bool := char_in 48 57 a.
Record sample := mkSample { s_name : string; s_labels : list (string * string); s_value : string }.
Inductive pst :=
| PName (acc : string)
| PStart (nm : string) (ls : list (string * string))
| PLabel (nm : string) (ls : list (string * string)) (acc : string)
| PQuote (nm : string) (ls : list (string * string)) (l : string)
| PText (nm : string) (ls : list (string * string)) (l acc : string)
| PEsc (nm : string) (ls : list (string * string)) (l acc : string)
| PBare (nm : string) (ls : list (string * string)) (l acc : string)
| PAfter (nm : string) (ls : list (string * string))
| PBlank (nm : string) (ls : list (string * string))
| PValue (nm : string) (ls : list (string * string)) (acc : string).
Definition snoc (s : string) (a : ascii) : string := s ++ String a "".
Notation quote := """"%char (only parsing).
Notation backslash := "\"%char (only parsing).
Notation newline := "010"%char (only parsing).
(** A character that can stand in a value without quotes *)
Definition bare (a : ascii) : bool :=
  negb (Ascii.eqb a quote) && negb (Ascii.eqb a ",") && negb (Ascii.eqb a "}") && negb (Ascii.eqb a " ") && negb (Ascii.eqb a newline).
Fixpoint prom_parse (tol : bool) (st : pst) (s : string) : option sample :=
  match s with
  | EmptyString =>
      match st with
      | PValue nm ls acc => if String.eqb acc "" then None else Some (mkSample nm ls acc)
      | _ => None
      end
  | String a r =>
      match st with
      | PName acc =>
          if letter a || Ascii.eqb a ":" || (digit a && negb (String.eqb acc "")) then prom_parse tol (PName (snoc acc a)) r
          else if String.eqb acc "" then None
          else if Ascii.eqb a "{" then prom_parse tol (PStart acc []) r
          else if Ascii.eqb a " " then prom_parse tol (PValue acc [] "") r
          else None
      | PStart nm ls =>
          if letter a then prom_parse tol (PLabel nm ls (String a "")) r
          else if Ascii.eqb a "}" then prom_parse tol (PBlank nm ls) r else None
      | PLabel nm ls acc =>
          if letter a || digit a then prom_parse tol (PLabel nm ls (snoc acc a)) r
          else if Ascii.eqb a "=" then prom_parse tol (PQuote nm ls acc) r else None
      | PQuote nm ls l => if Ascii.eqb a quote then prom_parse tol (PText nm ls l "") r
                          else if tol && bare a then prom_parse tol (PBare nm ls l (String a "")) r else None
      | PText nm ls l acc =>
          if Ascii.eqb a quote then prom_parse tol (PAfter nm (ls ++ [(l, acc)])%list) r
          else if Ascii.eqb a backslash then prom_parse tol (PEsc nm ls l acc) r
          else if Ascii.eqb a newline then None
          else prom_parse tol (PText nm ls l (snoc acc a)) r
      | PBare nm ls l acc =>
          if bare a then prom_parse tol (PBare nm ls l (snoc acc a)) r
          else if Ascii.eqb a "," then prom_parse tol (PStart nm (ls ++ [(l, acc)])%list) r
          else if Ascii.eqb a "}" then prom_parse tol (PBlank nm (ls ++ [(l, acc)])%list) r else None
      | PEsc nm ls l acc =>
          if Ascii.eqb a backslash || Ascii.eqb a quote then prom_parse tol (PText nm ls l (snoc acc a)) r
          else if Ascii.eqb a "n" then prom_parse tol (PText nm ls l (snoc acc newline)) r
          else None
      | PAfter nm ls =>
          if Ascii.eqb a "," then prom_parse tol (PStart nm ls) r
          else if Ascii.eqb a "}" then prom_parse tol (PBlank nm ls) r else None
      | PBlank nm ls => if Ascii.eqb a " " then prom_parse tol (PValue nm ls "") r else None
      | PValue nm ls acc =>
          if Ascii.eqb a " " || Ascii.eqb a newline then None else prom_parse tol (PValue nm ls (snoc acc a)) r
      end
  end.
Definition parse_line (tol : bool) (line : string) : option sample := prom_parse tol (PName "") line.

(** A whole exposition: lines ended by a newline, those starting with '#' are comments. *)
Fixpoint lines_from (acc s : string) : option (list string) :=
  match s with
  | EmptyString => if String.eqb acc "" then Some [] else None
  | String a r =>
      if Ascii.eqb a newline then option_map (cons acc) (lines_from "" r) else lines_from (snoc acc a) r
  end.
Fixpoint parse_lines (tol : bool) (ls : list string) : option (list sample) :=
  match ls with
  | [] => Some []
  | String "#" _ :: r => parse_lines tol r
  | l :: r => match parse_line tol l, parse_lines tol r with Some x, Some y => Some (x :: y) | _, _ => None end
  end.
Definition exposition (tol : bool) (txt : string) : option (list sample) :=
  match lines_from "" txt with Some ls => parse_lines tol ls | None => None end.
(** A reader of the format, and a tolerant one that also takes label values without quotes. *)
Definition parse_exposition : string -> option (list sample) := exposition false.
Definition parse_tolerant : string -> option (list sample) := exposition true.

(** Text of the shapes below. *)
Fixpoint only (f : ascii -> bool) (s : string) : Prop :=
  match s with EmptyString => True | String a r => f a = true /\ only f r end.
Definition label_name (s : string) : Prop :=
  match s with EmptyString => False | String a r => letter a = true /\ only (fun c => letter c || digit c) r end.
(** A value that needs no escaping *)
Definition plain_value (s : string) : Prop :=
  only (fun c => negb (Ascii.eqb c quote) && negb (Ascii.eqb c backslash) && negb (Ascii.eqb c newline)) s.
Definition one_line (s : string) : Prop := only (fun c => negb (Ascii.eqb c newline)) s.
(** The text of a bucket bound *)
Definition bound_text (s : string) : Prop := s <> "" /\ only bare s.
Definition number_text (s : string) : Prop :=
  s <> "" /\ only (fun c => negb (Ascii.eqb c " ") && negb (Ascii.eqb c newline)) s.
(** Labels with a value *)
Definition present (ls : labels) : labels := filter (fun p => negb (String.eqb (snd p) "")) ls.
