(** Which calls on a synchronised dataset are heard when its channel has few slots. Independent of the channel and of the datasets. *)
From Coq Require Import List Arith.
From Verif Require Import Spec.SyncSpec.
Import ListNotations.

(** [heard slots waiting es]: of the calls of [es], in order, those made while fewer than [slots] were waiting for a publication;
    [waiting] are waiting at the beginning, and none is after a publication. *)
Fixpoint heard {A R D} (slots waiting : nat) (es : list (sevent A R D)) : list (scall A R D) :=
  match es with
  | [] => []
  | Call x :: r => if Nat.ltb waiting slots then x :: heard slots (S waiting) r else heard slots waiting r
  | Publish :: r => heard slots 0 r
  end.
