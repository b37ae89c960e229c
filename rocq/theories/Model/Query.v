(** Model of src/components/query/mod.rs: the lexer of the query language.
    A Rust [char] is its Unicode scalar value ([N]); a [Vec<char>] and a [String] collected from
    characters are both the list of their characters. *)
From Coq Require Import String Ascii NArith List Bool.
From Verif Require Import Base.Outcome.
Import ListNotations.
Local Open Scope list_scope.

(** A character literal of the source text, and a string literal as characters. *)
Definition ch (a : ascii) : N := N_of_ascii a.
Definition chars (s : string) : list N := map N_of_ascii (list_ascii_of_string s).

Fixpoint chars_eqb (a b : list N) : bool :=
  match a, b with
  | [], [] => true
  | x :: a', y :: b' => N.eqb x y && chars_eqb a' b'
  | _, _ => false
  end.

(** query/mod.rs:261-298 *)
Inductive token :=
| T_ILLEGAL
| T_EOF
| T_FIELD (s : list N)
| T_INT (s : list N)
| T_ASSIGN
| T_PIPE
| T_PLUS (c : N)
| T_COMMA (c : N)
| T_SEMICOLON (c : N)
| T_LPAREN (c : N)
| T_RPAREN (c : N)
| T_LBRACE (c : N)
| T_RBRACE (c : N)
| T_FUNCTION (s : list N)
| T_TRUE
| T_FALSE
| T_AND
| T_OR
| T_NOT
| T_RETURN
| T_MINUS (c : N)
| T_BANG (c : N)
| T_ASTERISK (c : N)
| T_SLASH (c : N)
| T_LT (c : N)
| T_GT (c : N)
| T_FILTER
| T_FIELDS
| T_AS
| T_String (s : list N)
| T_RegexField (s : list N)
| T_StartsWith (s : list N)
| T_EndsWith (s : list N)
| T_Like (s : list N)
| T_Contains (s : list N).

(** query/mod.rs:1-6 *)
Record qlexer := mkQL { q_input : list N; q_position : nat; q_read_position : nat; q_ch : N }.

(** query/mod.rs:8-22 *)
Definition is_function (name : list N) : bool :=
  existsb (fun f => chars_eqb name (chars f))
    ["to_number"; "to_string"; "lowercase"; "uppercase"; "replace"; "len"; "floor"; "trim"; "to_integer"; "to_float"]%string.

(** core char::is_ascii_alphabetic, char::is_ascii_digit *)
Definition is_ascii_alphabetic (c : N) : bool :=
  (N.leb 65 c && N.leb c 90) || (N.leb 97 c && N.leb c 122).
Definition is_ascii_digit (c : N) : bool := N.leb 48 c && N.leb c 57.

(** query/mod.rs:24-26 *)
Definition is_letter (c : N) : bool := is_ascii_alphabetic c || N.eqb c (ch "_") || N.eqb c (ch ".").

(** query/mod.rs:28-38; the loop with its two local variables *)
Fixpoint count_loop (input : list N) (last_char : N) (counter : nat) : nat :=
  match input with
  | [] => counter
  | c :: input' => count_loop input' c (if N.eqb c (ch "*") && negb (N.eqb last_char (ch "\")) then S counter else counter)
  end.
Definition count_asterix (input : list N) : nat := count_loop input 0%N 0.

(** query/mod.rs:40-49 *)
Definition transform_escape_char (c : N) : result N unit :=
  if N.eqb c (ch "n") then Ok 10%N
  else if N.eqb c (ch "t") then Ok 9%N
  else if N.eqb c (ch "r") then Ok 13%N
  else if N.eqb c (ch "0") then Ok 0%N
  else if N.eqb c (ch "*") then Err tt
  else Ok c.

(** query/mod.rs:52-59 *)
Definition q_new (input : list N) : qlexer := mkQL input 0 0 (ch "0").

(** query/mod.rs:61-69. Simplification: the positions are unbounded (the [usize] increment cannot be
    observed to overflow before 2^64 calls). *)
Definition q_read_char (l : qlexer) : qlexer :=
  mkQL (q_input l) (q_read_position l) (S (q_read_position l))
    (if Nat.leb (length (q_input l)) (q_read_position l) then ch "0" else nth (q_read_position l) (q_input l) (ch "0")).

Definition is_blank (c : N) : bool :=
  N.eqb c (ch " ") || N.eqb c 9%N || N.eqb c 10%N || N.eqb c 13%N.

(** query/mod.rs:71-80; [fuel] bounds the [loop] *)
Fixpoint q_skip_whitespace (fuel : nat) (l : qlexer) : outcome qlexer :=
  match fuel with
  | O => OutOfFuel
  | S fuel' => if is_blank (q_ch l) then q_skip_whitespace fuel' (q_read_char l) else Val l
  end.

Definition in_input (l : qlexer) : bool := Nat.ltb (q_position l) (length (q_input l)).

(** [l.input[a..b].to_vec()]: panics unless a <= b <= len *)
Definition slice (input : list N) (a b : nat) : outcome (list N) :=
  if Nat.leb a b && Nat.leb b (length input) then Val (firstn (b - a) (skipn a input)) else Panic.

(** query/mod.rs:83-89 (the loop) *)
Fixpoint ident_loop (fuel : nat) (l : qlexer) : outcome qlexer :=
  match fuel with
  | O => OutOfFuel
  | S fuel' =>
      if in_input l && (is_letter (q_ch l) || is_ascii_digit (q_ch l)) then ident_loop fuel' (q_read_char l) else Val l
  end.
Definition read_identifier (fuel : nat) (l : qlexer) : outcome (list N * qlexer) :=
  let! l' := ident_loop fuel l in
  let! s := slice (q_input l') (q_position l) (q_position l') in
  Val (s, l').

(** query/mod.rs:90-115 *)
Fixpoint literal_loop (fuel : nat) (is_escape : bool) (to_ret : list N) (l : qlexer) : outcome (list N * qlexer) :=
  match fuel with
  | O => OutOfFuel
  | S fuel' =>
      if (is_escape || negb (N.eqb (q_ch l) (ch "'"))) && in_input l then
        if N.eqb (q_ch l) (ch "\") then
          literal_loop fuel' (negb is_escape) (if is_escape then to_ret ++ [ch "\"] else to_ret) (q_read_char l)
        else
          literal_loop fuel' false
            (if is_escape then
               match transform_escape_char (q_ch l) with
               | Ok c => to_ret ++ [c]
               | Err _ => to_ret ++ [q_ch l]
               end
             else to_ret ++ [q_ch l]) (q_read_char l)
      else Val (to_ret, l)
  end.

(** query/mod.rs:117-144 *)
Fixpoint string_loop (fuel : nat) (is_escape : bool) (to_ret : list N) (l : qlexer) : outcome (list N * qlexer) :=
  match fuel with
  | O => OutOfFuel
  | S fuel' =>
      if (is_escape || negb (N.eqb (q_ch l) (ch """"))) && in_input l then
        if N.eqb (q_ch l) (ch "\") then
          string_loop fuel' (negb is_escape) (if is_escape then to_ret ++ [ch "\"] else to_ret) (q_read_char l)
        else
          string_loop fuel' false
            (if is_escape then
               match transform_escape_char (q_ch l) with
               | Ok c => to_ret ++ [c]
               | Err _ => to_ret ++ [ch "\"; q_ch l]
               end
             else to_ret ++ [q_ch l]) (q_read_char l)
      else Val (to_ret, l)
  end.

(** query/mod.rs:146-152 *)
Fixpoint number_loop (fuel : nat) (l : qlexer) : outcome qlexer :=
  match fuel with
  | O => OutOfFuel
  | S fuel' => if in_input l && is_ascii_digit (q_ch l) then number_loop fuel' (q_read_char l) else Val l
  end.
Definition read_number (fuel : nat) (l : qlexer) : outcome (list N * qlexer) :=
  let! l' := number_loop fuel l in
  let! s := slice (q_input l') (q_position l) (q_position l') in
  Val (s, l').

(** query/mod.rs:300-318 *)
Definition get_keyword_token (ident : list N) : result token string :=
  if chars_eqb ident (chars "true") then Ok T_TRUE
  else if chars_eqb ident (chars "false") then Ok T_FALSE
  else if chars_eqb ident (chars "AND") then Ok T_AND
  else if chars_eqb ident (chars "OR") then Ok T_OR
  else if chars_eqb ident (chars "NOT") then Ok T_NOT
  else if chars_eqb ident (chars "filter") then Ok T_FILTER
  else if chars_eqb ident (chars "fields") then Ok T_FIELDS
  else if chars_eqb ident (chars "as") then Ok T_AS
  else if is_function ident then Ok (T_FUNCTION ident)
  else Err "Not a keyword"%string.

(** query/mod.rs:210-237: what a double-quoted string means. [data[0]] and [data[len - 1]] are only
    read when [data.len() > 1], so they never panic. *)
Definition drop_stars (data : list N) : list N := filter (fun c => negb (N.eqb c (ch "*"))) data.
Definition string_token (data : list N) : token :=
  if Nat.ltb 1 (length data) then
    let n_asterix := count_asterix data in
    if Nat.ltb 2 n_asterix then T_Like data
    else
      let starts_astx := N.eqb (nth 0 data 0%N) (ch "*") in
      let ends_astx := N.eqb (nth (length data - 1) data 0%N) (ch "*") in
      if starts_astx && ends_astx then T_Contains (drop_stars data)
      else if starts_astx then T_StartsWith (drop_stars data)
      else if ends_astx then T_EndsWith (drop_stars data)
      else if Nat.eqb n_asterix 0 then T_String data
      else T_Like data
  else T_String data.

(** query/mod.rs:156-201: the one-character arms of the [match] *)
Definition single_token (c : N) : option token :=
  if N.eqb c (ch "=") then Some T_ASSIGN
  else if N.eqb c (ch "|") then Some T_PIPE
  else if N.eqb c (ch "+") then Some (T_PLUS c)
  else if N.eqb c (ch "-") then Some (T_MINUS c)
  else if N.eqb c (ch "!") then Some (T_BANG c)
  else if N.eqb c (ch "/") then Some (T_SLASH c)
  else if N.eqb c (ch "*") then Some (T_ASTERISK c)
  else if N.eqb c (ch "<") then Some (T_LT c)
  else if N.eqb c (ch ">") then Some (T_GT c)
  else if N.eqb c (ch ";") then Some (T_SEMICOLON c)
  else if N.eqb c (ch "(") then Some (T_LPAREN c)
  else if N.eqb c (ch ")") then Some (T_RPAREN c)
  else if N.eqb c (ch ",") then Some (T_COMMA c)
  else if N.eqb c (ch "{") then Some (T_LBRACE c)
  else if N.eqb c (ch "}") then Some (T_RBRACE c)
  else None.

(** query/mod.rs:82-258; [fuel] bounds each inner loop *)
Definition q_next_token (fuel : nat) (l : qlexer) : outcome (token * qlexer) :=
  let! l := q_skip_whitespace fuel l in
  match single_token (q_ch l) with
  | Some t => Val (t, q_read_char l)
  | None =>
      if N.eqb (q_ch l) (ch "0") then Val (T_EOF, q_read_char l)
      else if N.eqb (q_ch l) (ch "'") then
        let! (data, l) := literal_loop fuel false [] (q_read_char l) in
        Val (T_String data, q_read_char l)
      else if N.eqb (q_ch l) (ch """") then
        let! (data, l) := string_loop fuel false [] (q_read_char l) in
        Val (string_token data, q_read_char l)
      else if is_letter (q_ch l) then
        let! (ident, l) := read_identifier fuel l in
        match get_keyword_token ident with
        | Ok t => Val (t, l)
        | Err _ => Val (T_FIELD ident, l)
        end
      else if is_ascii_digit (q_ch l) then
        let! (ident, l) := read_number fuel l in
        Val (T_INT ident, l)
      else Val (T_ILLEGAL, l)
  end.

(** The method as called: the loops of one call read each remaining character at most once, so a fuel
    above the length of the input is never exhausted (proved: [next_never_stuck]). *)
Definition next_token (l : qlexer) : outcome (token * qlexer) :=
  q_next_token (S (length (q_input l))) l.
Definition skip_whitespace (l : qlexer) : outcome qlexer :=
  q_skip_whitespace (S (length (q_input l))) l.

(** query/mod.rs:323-339: how the lexer is driven (the only caller in the repository): read the first
    character, then call [next_token] until it returns ILLEGAL or EOF. The result lists the tokens, the
    last of which is ILLEGAL or EOF. *)
Fixpoint drive (fuel : nat) (l : qlexer) (acc : list token) : outcome (list token) :=
  match fuel with
  | O => OutOfFuel
  | S fuel' =>
      let! (t, l') := next_token l in
      match t with
      | T_ILLEGAL => Val (acc ++ [t])
      | T_EOF => Val (acc ++ [t])
      | _ => drive fuel' l' (acc ++ [t])
      end
  end.
Definition lex_query (text : list N) : outcome (list token) :=
  drive (S (S (length text))) (q_read_char (q_new text)) [].
