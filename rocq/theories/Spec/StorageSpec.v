(** A key/value store shared by clones, as an abstract machine. *)
From Coq Require Import String Ascii NArith List Bool Arith.
From Verif Require Import Model.Storage.
Import ListNotations.
Local Open Scope nat_scope.

(** [root i]: which of the storages made by [new] the handle [i] is, or is a clone of; [val r k]: the value stored
    under [k] in storage [r]; [fil r p]: the content of the file [p] *)
Record shared := Shared { made : nat; nroots : nat; root : nat -> nat; val : nat -> string -> option string;
  fil : nat -> string -> option (list ascii) }.
Definition shared0 : shared := Shared 0 0 (fun _ => 0) (fun _ _ => None) (fun _ _ => None).
Definition set_at {A} (f : nat -> A) (i : nat) (x : A) : nat -> A := fun j => if Nat.eqb j i then x else f j.
Definition set_at2 {A} (f : nat -> string -> A) (i : nat) (k : string) (x : A) : nat -> string -> A :=
  fun j k' => if andb (Nat.eqb j i) (String.eqb k' k) then x else f j k'.

(** The bytes [start, stop) of a file replaced by [content] *)
Definition splice (f content : list ascii) (start stop : N) : list ascii :=
  firstn (N.to_nat start) f ++ content ++ skipn (N.to_nat stop) f.

Definition shared_step (s : shared) (o : sop) : shared :=
  match o with
  | SNew => Shared (S (made s)) (S (nroots s)) (set_at (root s) (made s) (nroots s)) (val s) (fil s)
  | SClone i => if i <? made s then Shared (S (made s)) (nroots s) (set_at (root s) (made s) (root s i)) (val s) (fil s) else s
  | SSetValue i k v replace =>
      if i <? made s then
        match val s (root s i) k, replace with
        | Some _, false => s
        | _, _ => Shared (made s) (nroots s) (root s) (set_at2 (val s) (root s i) k (Some v)) (fil s)
        end
      else s
  | SSetFile i p c => if i <? made s then Shared (made s) (nroots s) (root s) (val s) (set_at2 (fil s) (root s i) p (Some c)) else s
  | SSetFileRange i p c a b =>
      if i <? made s then
        match fil s (root s i) p with
        | Some f => Shared (made s) (nroots s) (root s) (val s) (set_at2 (fil s) (root s i) p (Some (splice f c a b)))
        | None => s
        end
      else s
  end.
Definition shared_after (ops : list sop) : shared := fold_left shared_step ops shared0.
(** No call writes a range *)
Definition whole_files (ops : list sop) : Prop := Forall (fun o => match o with SSetFileRange _ _ _ _ _ => False | _ => True end) ops.
