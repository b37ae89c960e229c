(** What a rule selector should answer: words, hits and the best rule, without any index. *)
From Coq Require Import String Ascii NArith List.
Import ListNotations.
Local Open Scope N_scope.

(** Letters, digits, '-' and '_' make up words. *)
Definition word_char (a : ascii) : Prop :=
  let n := N_of_ascii a in 48 <= n <= 57 \/ 97 <= n <= 122 \/ 65 <= n <= 90 \/ n = 45 \/ n = 95.

Fixpoint chars (s : string) : list ascii := match s with EmptyString => [] | String a r => a :: chars r end.

(** [cuts s ws]: [ws] are the maximal runs of word characters of [s] around each single separator character
    (two adjacent separators enclose an empty word). *)
Inductive cuts : string -> list string -> Prop :=
| cuts_last w : Forall word_char (chars w) -> cuts w [w]
| cuts_more w c s ws : Forall word_char (chars w) -> ~ word_char c -> cuts s ws ->
    cuts (w ++ String c s)%string (w :: ws).

(** [described h r w]: among the additions [h] (rule name, description), one of rule [r] has the word [w]. *)
Definition described (h : list (string * string)) (r w : string) : Prop :=
  exists d ws, In (r, d) h /\ cuts d ws /\ In w ws.

(** [hits h r ws n]: exactly [n] of the query words (repetitions count) are described for [r]. *)
Inductive hits (h : list (string * string)) (r : string) : list string -> N -> Prop :=
| hits_nil : hits h r [] 0
| hits_yes w ws n : described h r w -> hits h r ws n -> hits h r (w :: ws) (n + 1)
| hits_no w ws n : ~ described h r w -> hits h r ws n -> hits h r (w :: ws) n.

Definition added (h : list (string * string)) (r : string) : Prop := exists d, In (r, d) h.

(** [best h ws r]: [r] was added, has at least one hit, no rule has more hits, and every other rule with as
    many hits comes later in the alphabet. *)
Definition best (h : list (string * string)) (ws : list string) (r : string) : Prop :=
  added h r /\ exists n, hits h r ws n /\ 0 < n /\
  forall r' n', added h r' -> hits h r' ws n' -> n' < n \/ n' = n /\ (r' = r \/ String.compare r r' = Lt).
