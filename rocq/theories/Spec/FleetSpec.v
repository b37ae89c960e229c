(** What a history of several connected components shows. Independent of the loop and of the channels. *)
From Coq Require Import NArith List Bool.
From Verif Require Import Base.Outcome Model.Log Model.Command Model.Err Model.Component Model.Fleet Spec.ComponentSpec.
Import ListNotations.

Section Projections.
  Context {P : payloads}.
  Implicit Type tr : list (event P).

  (** The logs the outside world sent into the channel [k]; the logs it received from it *)
  Definition put_in k tr : list log := flat_map (fun e => match e with SendLog j l => if Nat.eqb j k then [l] else [] | _ => [] end) tr.
  Definition got_out k tr : list log := flat_map (fun e => match e with Receive j l => if Nat.eqb j k then [l] else [] | _ => [] end) tr.
  (** What the component [i] did and what it was sent: its own history, as if it were alone *)
  Definition own i tr : list (label P) :=
    flat_map (fun e => match e with
      | Work j a => if Nat.eqb j i then [a] else []
      | SendMsg j m => if Nat.eqb j i then [ArriveMsg m] else []
      | Pass t => [Clock t]
      | _ => [] end) tr.
  (** All logs sent into the channel [k], by whomever, in the order they were sent; all logs received from it, in order *)
  Definition sent (target : nat -> nat) k tr : list log :=
    flat_map (fun e => match e with
      | SendLog j l => if Nat.eqb j k then [l] else []
      | Work i (Forward l) => if Nat.eqb (target i) k then [l] else []
      | _ => [] end) tr.
  Definition received (source : nat -> nat) k tr : list log :=
    flat_map (fun e => match e with
      | Receive j l => if Nat.eqb j k then [l] else []
      | Work i (TakeLog l) => if Nat.eqb (source i) k then [l] else []
      | _ => [] end) tr.
  Definition stopped (e : event P) : Prop := exists i m, e = SendMsg i m /\ is_stop m.
  (** done by the components (or the end of one), not by the outside world *)
  Definition inside (e : event P) : Prop := match e with Work _ _ | Detach _ => True | _ => False end.
End Projections.

(** The logs that [f] lets through, as it changes them *)
Fixpoint keep (f : log -> option log) (ls : list log) : list log :=
  match ls with
  | [] => []
  | l :: r => match f l with Some l' => l' :: keep f r | None => keep f r end
  end.
(** A component whose treatment of logs depends on nothing but the log: it lets through what [f] says *)
Definition handles {P St} (C : component P St) (f : log -> option log) : Prop :=
  forall s l, snd (react_log C s l) = match f l with Some l' => [l'] | None => [] end.
(** One function after the other: stages 0, 1, ..., n-1 *)
Fixpoint through (f : nat -> log -> option log) (n : nat) (l : log) : option log :=
  match n with
  | O => Some l
  | S m => match through f m l with Some l' => f m l' | None => None end
  end.

(** * Pipelines: the stages 0, 1, ..., [depth]-1; the stage [k] reads from the channel [k] and writes to the channel [k]+1.
    Outside, logs are put into the channel 0 and taken from the channel [depth]. *)
Definition pipes (depth : nat) (caps : nat -> option nat) (k : nat) : channel :=
  Channel [] (caps k) (Nat.eqb k 0) (Nat.eqb k depth).
Definition can_hold (c : option nat) : Prop := c <> Some 0.
(** no logs sent as messages *)
Definition no_log_message {P} (e : event P) : Prop := match e with SendMsg _ (MLog _) => False | _ => True end.
(** [pipeline size C stage depth f]: [size] components, each with its stage, at least one per stage, which treat logs
    by the function of their stage *)
Record pipeline {P St} (size : nat) (C : nat -> component P St) (stage : nat -> nat) (depth : nat) (f : nat -> log -> option log) : Prop := {
  in_stages : forall i, i < size -> stage i < depth;
  staffed : forall k, k < depth -> exists i, i < size /\ stage i = k;
  by_stage : forall i, i < size -> handles (C i) (f (stage i)) }.

(** The number of ticks in a history *)
Definition tick_count {P} (tr : list (event P)) : nat :=
  length (filter (fun e => match e with Work _ Tick => true | _ => false end) tr).
(** Logs waiting in the channels 0 .. [depth] and messages waiting for the components *)
Definition pending {P St} (size depth : nat) (w : fleet P St) : nat :=
  list_sum (map (fun k => length (queue (channels w k))) (seq 0 (S depth)))
  + list_sum (map (fun i => length (inbox (workers w i))) (seq 0 size)).
