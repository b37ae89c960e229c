(** What it means that a JSON object is read by its keys. *)
From Coq Require Import String List Permutation.
From Verif Require Import Model.Json.
Import ListNotations.
Local Open Scope string_scope.

(** [given k l]: the values given for the key [k], in order *)
Fixpoint given (k : string) (l : list (string * json)) : list json :=
  match l with
  | [] => []
  | (k', v) :: r => if String.eqb k' k then v :: given k r else given k r
  end.
(** A reader of objects with the keys [required ++ optional]. *)
Record by_keys {A : Type} (required optional : list string) (read : json -> option A) : Prop := {
  (** what is given under other keys is ignored, and so is the order of the keys *)
  other_keys_ignored : forall l l', (forall k, In k (required ++ optional) -> given k l = given k l') -> read (JObj l) = read (JObj l');
  (** a key given twice is an error *)
  twice_refused : forall l k v w r, In k (required ++ optional) -> given k l = v :: w :: r -> read (JObj l) = None;
  (** a required key that is missing is an error *)
  missing_refused : forall l k, In k required -> given k l = [] -> read (JObj l) = None;
  (** an optional key that is missing counts as null *)
  missing_is_null : forall l k, In k optional -> given k l = [] -> read (JObj l) = read (JObj ((k, JNull) :: l))
}.

(** A reader of values that have names. *)
Definition by_names {A : Type} (names : list (A * string)) (read : json -> option A) : Prop :=
  forall j a, read j = Some a <-> exists name, In (a, name) names /\ (j = JStr name \/ j = JObj [(name, JNull)]).

(** A reader of values that have names, or that carry a text under the name [tag]. *)
Definition by_names_or_text {A : Type} (names : list (A * string)) (tag : string) (text : string -> A) (read : json -> option A) : Prop :=
  forall j a, read j = Some a <->
    (exists name, In (a, name) names /\ (j = JStr name \/ j = JObj [(name, JNull)])) \/ (exists s, a = text s /\ j = JObj [(tag, JStr s)]).
