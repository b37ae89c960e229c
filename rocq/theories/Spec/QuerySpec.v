(** What the query language's lexical grammar is meant to be, written without the lexer.
    A text is a list of characters (Unicode scalar values). *)
From Coq Require Import String Ascii NArith List.
From Verif Require Import Model.Query.
Import ListNotations.
Local Open Scope list_scope.

(** Only the type of tokens, and [ch]/[chars] for writing literals, are taken from the model. *)
Definition text := list N.

Definition blank (c : N) : Prop := In c [32; 9; 10; 13]%N.
Definition digit (c : N) : Prop := (48 <= c <= 57)%N.
Definition letter (c : N) : Prop := (65 <= c <= 90 \/ 97 <= c <= 122 \/ c = 95 \/ c = 46)%N.
Definition word_char (c : N) : Prop := letter c \/ digit c.

Definition symbols : list (N * (N -> token)) :=
  [ (ch "=", fun _ => T_ASSIGN); (ch "|", fun _ => T_PIPE); (ch "+", T_PLUS); (ch "-", T_MINUS); (ch "!", T_BANG);
    (ch "/", T_SLASH); (ch "*", T_ASTERISK); (ch "<", T_LT); (ch ">", T_GT); (ch ";", T_SEMICOLON);
    (ch "(", T_LPAREN); (ch ")", T_RPAREN); (ch ",", T_COMMA); (ch "{", T_LBRACE); (ch "}", T_RBRACE) ].

Definition keywords : list (text * token) :=
  [ (chars "true", T_TRUE); (chars "false", T_FALSE); (chars "AND", T_AND); (chars "OR", T_OR); (chars "NOT", T_NOT);
    (chars "filter", T_FILTER); (chars "fields", T_FIELDS); (chars "as", T_AS) ].
Definition functions : list text :=
  [ chars "to_number"; chars "to_string"; chars "lowercase"; chars "uppercase"; chars "replace"; chars "len";
    chars "floor"; chars "trim"; chars "to_integer"; chars "to_float" ].

(** The token of a word: a keyword, the name of a function, or else a field. *)
Inductive word_token (w : text) : token -> Prop :=
| WT_keyword t : In (w, t) keywords -> word_token w t
| WT_function : In w functions -> word_token w (T_FUNCTION w)
| WT_field : ~ In w (map fst keywords) -> ~ In w functions -> word_token w (T_FIELD w).

(** [starts P t]: [t] has a first character and it satisfies [P]. *)
Definition starts (P : N -> Prop) (t : text) : Prop := exists c r, t = c :: r /\ P c.

(** ** Quoted strings *)
(** The character written by a backslash followed by [c]. *)
Definition escaped (c : N) : N :=
  if N.eqb c (ch "n") then 10%N else if N.eqb c (ch "t") then 9%N
  else if N.eqb c (ch "r") then 13%N else if N.eqb c (ch "0") then 0%N else c.

(** [literal q body v]: between quotes [q], [body] is closed (no unescaped quote, no dangling backslash)
    and denotes [v]. *)
Inductive literal (q : N) : text -> text -> Prop :=
| Lit_nil : literal q [] []
| Lit_char c b v : c <> q -> c <> ch "\" -> literal q b v -> literal q (c :: b) (c :: v)
| Lit_esc c b v : literal q b v -> literal q (ch "\" :: c :: b) (escaped c :: v).

(** The pieces of a double-quoted string: characters, and wildcards (unescaped asterisks). *)
Inductive piece := PChar (c : N) | PStar.
Inductive pieces : text -> list piece -> Prop :=
| Pc_nil : pieces [] []
| Pc_star b ps : pieces b ps -> pieces (ch "*" :: b) (PStar :: ps)
| Pc_char c b ps : c <> ch """" -> c <> ch "\" -> c <> ch "*" -> pieces b ps -> pieces (c :: b) (PChar c :: ps)
| Pc_esc c b ps : pieces b ps -> pieces (ch "\" :: c :: b) (PChar (escaped c) :: ps).

(** The intended meaning of a double-quoted string. *)
Definition plain (v : text) : list piece := map PChar v.
Inductive wildcard_meaning : list piece -> token -> Prop :=
| WM_string v : wildcard_meaning (plain v) (T_String v)
| WM_starts v : v <> [] -> wildcard_meaning (plain v ++ [PStar]) (T_StartsWith v)
| WM_ends v : v <> [] -> wildcard_meaning (PStar :: plain v) (T_EndsWith v)
| WM_contains v : wildcard_meaning (PStar :: plain v ++ [PStar]) (T_Contains v).
(** Every other pattern is a LIKE pattern; its text keeps the asterisks. *)
Definition pattern_text (ps : list piece) : text := map (fun p => match p with PChar c => c | PStar => ch "*" end) ps.

(** The number of wildcards of a pattern. *)
Definition stars (ps : list piece) : nat := length (filter (fun p => match p with PStar => true | _ => false end) ps).

(** What the lexer makes of any double-quoted string. The text it keeps: an escaped asterisk keeps its backslash. *)
Definition kept (ps : list piece) : text :=
  flat_map (fun p => match p with PStar => [ch "*"] | PChar c => if N.eqb c (ch "*") then [ch "\"; ch "*"] else [c] end) ps.
(** The places of a text with an asterisk that does not follow a backslash. *)
Definition live_at (t : text) (i : nat) : Prop := nth_error t i = Some (ch "*") /\ (forall j, i = S j -> nth_error t j <> Some (ch "\")).
Definition live (t : text) (n : nat) : Prop := exists places, NoDup places /\ length places = n /\ forall i, In i places <-> live_at t i.
Definition begins (t : text) : Prop := exists r, t = ch "*" :: r.
Definition finishes (t : text) : Prop := exists r, t = r ++ [ch "*"].
Definition without_asterisks (t u : text) : Prop := u = filter (fun c => negb (N.eqb c (ch "*"))) t.
Inductive answer (t : text) : token -> Prop :=
| An_short : length t <= 1 -> answer t (T_String t)
| An_like n : live t n -> 2 < n -> answer t (T_Like t)
| An_contains n u : 1 < length t -> live t n -> n <= 2 -> begins t -> finishes t -> without_asterisks t u -> answer t (T_Contains u)
| An_starts n u : 1 < length t -> live t n -> n <= 2 -> begins t -> ~ finishes t -> without_asterisks t u -> answer t (T_StartsWith u)
| An_ends n u : 1 < length t -> live t n -> n <= 2 -> ~ begins t -> finishes t -> without_asterisks t u -> answer t (T_EndsWith u)
| An_plain : 1 < length t -> live t 0 -> ~ begins t -> ~ finishes t -> answer t (T_String t)
| An_inner n : 1 < length t -> live t n -> 0 < n <= 2 -> ~ begins t -> ~ finishes t -> answer t (T_Like t).

(** ** One token of the language: [lexeme t tok r] reads [tok] from the front of [t] and leaves [r]. *)
Inductive lexeme : text -> token -> text -> Prop :=
| L_blank c t tok r : blank c -> lexeme t tok r -> lexeme (c :: t) tok r
| L_end : lexeme [] T_EOF []
| L_symbol c f r : In (c, f) symbols -> lexeme (c :: r) (f c) r
| L_int ds r : ds <> [] -> Forall digit ds -> ~ starts digit r -> lexeme (ds ++ r) (T_INT ds) r
| L_word w tok r : starts letter w -> Forall word_char w -> ~ starts word_char r -> word_token w tok ->
    lexeme (w ++ r) tok r
| L_literal b v r : literal (ch "'") b v -> lexeme (ch "'" :: b ++ ch "'" :: r) (T_String v) r
| L_string b ps tok r : pieces b ps -> wildcard_meaning ps tok -> lexeme (ch """" :: b ++ ch """" :: r) tok r.

(** A whole query: its tokens up to the end of the text. *)
Inductive lexes : text -> list token -> Prop :=
| Q_end t : lexeme t T_EOF [] -> lexes t [T_EOF]
| Q_token t tok r toks : lexeme t tok r -> tok <> T_EOF -> lexes r toks -> lexes t (tok :: toks).

(** Tokens that do not run into one of the lexer's defects (numbers that start with 0, asterisks in strings,
    one-sided wildcards): what the whole-query theorem is restricted to. *)
Definition dependable (tok : token) : Prop :=
  match tok with
  | T_INT s => ~ starts (eq (ch "0")) s
  | T_String s => ~ In (ch "*") s
  | T_Contains s => ~ In (ch "*") s
  | T_StartsWith _ => False
  | T_EndsWith _ => False
  | _ => True
  end.

(** Escaping a text for single quotes. *)
Definition escape (v : text) : text :=
  flat_map (fun c => if N.eqb c (ch "'") then [ch "\"; c] else if N.eqb c (ch "\") then [ch "\"; c] else [c]) v.

(** ** Using the lexer *)
(** Every state a user can bring a lexer of the text [i] to with its methods. *)
Inductive reachable (i : text) : qlexer -> Prop :=
| R_new : reachable i (q_new i)
| R_read l : reachable i l -> reachable i (q_read_char l)
| R_skip l l' : reachable i l -> Outcome.Val l' = skip_whitespace l -> reachable i l'
| R_next l t l' : reachable i l -> Outcome.Val (t, l') = next_token l -> reachable i l'.

(** [at_text l i k]: the lexer [l] of text [i] is about to read the character number [k]:
    what it has left is [skipn k i]. *)
Definition at_text (l : qlexer) (i : text) (k : nat) : Prop :=
  q_input l = i /\ q_position l = k /\ q_read_position l = S k /\
  q_ch l = nth k i (ch "0").
