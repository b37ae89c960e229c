(** JSON as text: the grammar of RFC 8259 and the tree each text stands for. Texts are sequences of bytes (UTF-8).
    Nothing here refers to the model but the type of trees. *)
From Coq Require Import String Ascii NArith ZArith List Bool.
From Verif Require Import Model.Field Model.Json Spec.TextSpec Spec.Utf8Spec.
Import ListNotations.
Local Open Scope string_scope.

Definition chr (n : N) : ascii := ascii_of_N n.
Definition quote : string := String (chr 34) "".
(** Section 2: white space *)
Inductive white : string -> Prop :=
| w_nil : white ""
| w_more c s : In c [chr 32; chr 9; chr 10; chr 13] -> white s -> white (String c s).

(** Section 6: numbers *)
Definition digits (s : string) : Prop := exists n, denotes decimal_digit 10 s n.
Definition integer_part (s : string) : Prop := s <> "" /\ digits s /\ forall r, s = String "0" r -> r = "".
Definition fraction (s : string) : Prop := s = "" \/ exists r, s = String "." r /\ r <> "" /\ digits r.
Definition exponent (s : string) : Prop :=
  s = "" \/ exists e sign r, s = String e (sign ++ r) /\ (e = "e"%char \/ e = "E"%char) /\ (sign = "" \/ sign = "+" \/ sign = "-") /\ r <> "" /\ digits r.
Definition sign (s : string) : Prop := s = "" \/ s = "-".
(** a number without fraction and exponent, but for "-0", is an integer *)
Definition integer (s : string) (z : Z) : Prop :=
  exists n, (integer_part s /\ denotes decimal_digit 10 s n /\ z = Z.of_N n) \/
            (exists r, s = String "-" r /\ integer_part r /\ denotes decimal_digit 10 r n /\ n <> 0%N /\ z = (- Z.of_N n)%Z).
(** any other number is a float *)
Definition float (s : string) : Prop :=
  exists sg i f e, s = sg ++ i ++ f ++ e /\ sign sg /\ integer_part i /\ fraction f /\ exponent e /\ (f <> "" \/ e <> "" \/ s = "-0").

(** Section 7: strings *)
Definition hex4 (s : string) (n : N) : Prop := String.length s = 4%nat /\ denotes hex_digit 16 s n.
Definition escapes : list (ascii * ascii) :=
  [(chr 34, chr 34); ("\"%char, "\"%char); ("/"%char, "/"%char); ("b"%char, chr 8); ("f"%char, chr 12); ("n"%char, chr 10);
   ("r"%char, chr 13); ("t"%char, chr 9)].
Definition surrogate (n : N) : Prop := (55296 <= n < 57344)%N.
Inductive chars : string -> string -> Prop :=
| c_nil : chars "" ""
| c_plain c s t : (32 <= N_of_ascii c)%N -> c <> chr 34 -> c <> "\"%char -> chars s t -> chars (String c s) (String c t)
| c_escape e c s t : In (e, c) escapes -> chars s t -> chars (String "\" (String e s)) (String c t)
| c_unicode h n s t : hex4 h n -> ~ surrogate n -> chars s t -> chars ("\u" ++ h ++ s) (bytes (utf8 n) ++ t)
| c_pair h n l m s t : hex4 h n -> (55296 <= n < 56320)%N -> hex4 l m -> (56320 <= m < 57344)%N -> chars s t ->
    chars ("\u" ++ h ++ "\u" ++ l ++ s) (bytes (utf8 (65536 + (n - 55296) * 1024 + (m - 56320))) ++ t).

(** Sections 3 to 5: values, arrays and objects. [fl] says which float a number stands for. *)
Section grammar.
  Context (fl : string -> f64 -> Prop).
  Inductive value : string -> json -> Prop :=
  | v_null : value "null" JNull
  | v_true : value "true" (JBool true)
  | v_false : value "false" (JBool false)
  | v_int s z : integer s z -> value s (JInt z)
  | v_float s x : float s -> fl s x -> value s (JFloat x)
  | v_string s t : chars s t -> value (quote ++ s ++ quote) (JStr t)
  | v_no_elements w : white w -> value ("[" ++ w ++ "]") (JArr [])
  | v_array s l : elements s l -> value ("[" ++ s ++ "]") (JArr l)
  | v_no_members w : white w -> value ("{" ++ w ++ "}") (JObj [])
  | v_object s l : members s l -> value ("{" ++ s ++ "}") (JObj l)
  with elements : string -> list json -> Prop :=
  | e_last a s b j : white a -> value s j -> white b -> elements (a ++ s ++ b) [j]
  | e_more a s b j t l : white a -> value s j -> white b -> elements t l -> elements (a ++ s ++ b ++ "," ++ t) (j :: l)
  with members : string -> list (string * json) -> Prop :=
  | m_last a k key b c s d j : white a -> chars k key -> white b -> white c -> value s j -> white d ->
      members (a ++ quote ++ k ++ quote ++ b ++ ":" ++ c ++ s ++ d) [(key, j)]
  | m_more a k key b c s d j t l : white a -> chars k key -> white b -> white c -> value s j -> white d -> members t l ->
      members (a ++ quote ++ k ++ quote ++ b ++ ":" ++ c ++ s ++ d ++ "," ++ t) ((key, j) :: l).
  (** Section 2: a text is a value with white space around it *)
  Definition document (s : string) (j : json) : Prop := exists a v b, s = a ++ v ++ b /\ white a /\ value v j /\ white b.
End grammar.

(** The floats of a tree *)
Inductive has_float (x : f64) : json -> Prop :=
| hf_float : has_float x (JFloat x)
| hf_arr j l : In j l -> has_float x j -> has_float x (JArr l)
| hf_obj k j l : In (k, j) l -> has_float x j -> has_float x (JObj l).
(** A line: no control characters, so no line breaks *)
Definition one_line (s : string) : Prop := Forall (fun c => (32 <= N_of_ascii c)%N) (list_ascii_of_string s).
