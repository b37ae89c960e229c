(** A synchronised dataset in use: programs write through its handle, its owner now and then takes everything that is
    waiting, applies it as one batch and publishes the new snapshot.  (The owner is the kernel, outside this crate.) *)
From Coq Require Import List.
From Verif Require Import Base.Outcome Model.Datasets.
Import ListNotations.

Section Sync.
  Context {A R D : Type}.
  (** What a program asks for. *)
  Inductive scall := SInsert (a : A) | SRemove (r : R) | SUpdate (d : D).
  (** The calls of the handle's API. *)
  Definition do_call (c : chan (update A R D)) (x : scall) : chan (update A R D) :=
    match x with SInsert a => syn_insert c a | SRemove r => syn_remove c r | SUpdate d => syn_update c d end.

  Inductive sevent := Call (x : scall) | Publish.
  Definition calls (es : list sevent) : list scall := flat_map (fun e => match e with Call x => [x] | Publish => [] end) es.

  Variable apply : D -> list (update A R D) -> outcome D.
  Definition sync_step (s : outcome (chan (update A R D) * D)) (e : sevent) : outcome (chan (update A R D) * D) :=
    let! s := s in
    let '(c, snapshot) := s in
    match e with
    | Call x => Val (do_call c x, snapshot)
    | Publish =>
        match queue c with
        | [] => Val (c, snapshot)
        | waiting => let! d := apply snapshot waiting in Val (Chan (cap c) [] (alive c), d)
        end
    end.
  Definition sync_run (c : chan (update A R D)) (d : D) (es : list sevent) : outcome (chan (update A R D) * D) :=
    fold_left sync_step es (Val (c, d)).

  (** Between two publications there are never more calls than the channel has slots: [used] are taken. *)
  Fixpoint fits (slots used : nat) (es : list sevent) : Prop :=
    match es with
    | [] => True
    | Call _ :: r => used < slots /\ fits slots (S used) r
    | Publish :: r => fits slots 0 r
    end.
End Sync.
Arguments scall : clear implicits.
Arguments sevent : clear implicits.

(** The same calls made directly on the dataset, by its own operations. *)
Definition directly {A R D} (ins : A -> D -> D) (rem : R -> D -> D) (d : D) (xs : list (scall A R D)) : D :=
  fold_left (fun d x => match x with SInsert a => ins a d | SRemove r => rem r d | SUpdate d' => d' end) xs d.
(** The same for operations that can abort. *)
Definition directly_o {A R D} (ins : A -> D -> outcome D) (rem : R -> D -> outcome D) (d : D) (xs : list (scall A R D)) : outcome D :=
  fold_left (fun d x => let! d := d in match x with SInsert a => ins a d | SRemove r => rem r d | SUpdate d' => Val d' end) xs (Val d).
