(** Model of src/utilities/rule_selector.rs.
    Texts: one [ascii] per Rust [char]; every non-ASCII char is some symbol of code >= 128 (the code only
    asks whether a char is one of the ASCII word characters, so all the others behave alike).
    Scores are unbounded naturals (the u32 of line 49 cannot overflow with fewer than 2^32 query words). *)
From Coq Require Import String Ascii NArith List Bool.
From Verif Require Import Base.Ord Base.BTree Base.Str.
Import ListNotations.
Local Open Scope N_scope.

(** rule_selector.rs:7-11 *)
Record selector := { inverted_index : bt string (bset string); rule_list : bset string }.

(** rule_selector.rs:14-16 *)
Definition sel_new : selector := {| inverted_index := []; rule_list := [] |}.

(** rule_selector.rs:19-25 and 41-47: the separator closure *)
Definition is_sep (a : ascii) : bool :=
  let n := N_of_ascii a in
  negb (((48 <=? n) && (n <=? 57)) || ((97 <=? n) && (n <=? 122)) || ((65 <=? n) && (n <=? 90))
        || (n =? 45) || (n =? 95)).

(** rule_selector.rs:28-35 one iteration *)
Definition index_word (rule : string) (idx : bt string (bset string)) (word : string) : bt string (bset string) :=
  match bt_get word idx with
  | Some rules => bt_insert word (bset_add rule rules) idx
  | None => bt_insert word (bset_add rule []) idx
  end.

(** rule_selector.rs:17-37 *)
Definition sel_add (rule descr : string) (s : selector) : selector :=
  {| inverted_index := fold_left (index_word rule) (split_pred is_sep descr) (inverted_index s);
     rule_list := bset_add rule (rule_list s) |}.

(** rule_selector.rs:54-58 [if let Some(rule_score) = score_words.get_mut(rule) { *rule_score += 1 }] *)
Definition bump (scores : bt string N) (rule : string) : bt string N :=
  match bt_get rule scores with Some n => bt_insert rule (n + 1) scores | None => scores end.

(** rule_selector.rs:52-60 one iteration *)
Definition score_word (idx : bt string (bset string)) (scores : bt string N) (word : string) : bt string N :=
  match bt_get word idx with
  | Some rules => fold_left bump (bset_elems rules) scores
  | None => scores
  end.

(** rule_selector.rs:63-68 one iteration of the selection loop; the accumulator is (max_score, rule_name) *)
Definition pick (acc : N * string) (p : string * N) : N * string :=
  if fst acc <? snd p then (snd p, fst p) else acc.

(** rule_selector.rs:39-75 *)
Definition sel_search (text : string) (s : selector) : option string :=
  let scores0 := fold_left (fun m r => bt_insert r 0 m) (bset_elems (rule_list s)) [] in
  let scores := fold_left (score_word (inverted_index s)) (split_pred is_sep text) scores0 in
  let best := fold_left pick scores (0, EmptyString) in
  if 0 <? fst best then Some (snd best) else None.
