(** Several components at work: each runs the loop of simplified.rs (Model/Component.v) on its own thread, and their
    log channels are connected as the kernel does it: [set_log_channel] (simplified.rs:119-121, components/mod.rs:37-38)
    gives each of them the receiver of one channel and the sender of another, and both ends can be cloned, so that
    several components (a component and its duplicates, simplified.rs:177-179) may share a channel.
    A crossbeam channel is a queue with a capacity from which each value is received once; it is disconnected for receivers
    when the last sender is dropped and for senders when the last receiver is. *)
From Coq Require Import NArith List Bool.
From Verif Require Import Base.Outcome Model.Log Model.Command Model.Err Model.Component.
Import ListNotations.

(** A log channel; [outside_sends]/[outside_receives]: somebody who is not one of the components holds a sender/receiver *)
Record channel := Channel { queue : list log; capacity : option nat; outside_sends : bool; outside_receives : bool }.
(** A component: its thread, its message channel, and whether it still exists (and with it its ends of the log channels).
    It is dropped at some time after [run] returns. *)
Record worker (P : payloads) (St : Type) := Worker { thread : phase St; inbox : list (message P); attached : bool }.
Arguments Worker {P St}. Arguments thread {P St}. Arguments inbox {P St}. Arguments attached {P St}.
Record fleet (P : payloads) (St : Type) := Fleet { time : N; workers : nat -> worker P St; channels : nat -> channel }.
Arguments Fleet {P St}. Arguments time {P St}. Arguments workers {P St}. Arguments channels {P St}.

Definition set {A} (f : nat -> A) (i : nat) (x : A) : nat -> A := fun j => if Nat.eqb i j then x else f j.
Definition with_queue (q : list log) (c : channel) : channel := Channel q (capacity c) (outside_sends c) (outside_receives c).

(** What happens: a component does something (a label of its loop), or the outside world: it sends a message to a component,
    sends a log into a channel or receives one from it, drops its sender or receiver, lets time pass, drops a component that has
    returned. *)
Inductive event (P : payloads) :=
| Work (i : nat) (a : label P)
| SendMsg (i : nat) (m : message P)
| SendLog (k : nat) (l : log)
| Receive (k : nat) (l : log)
| DropSender (k : nat)
| DropReceiver (k : nat)
| Pass (t : N)
| Detach (i : nat).
Arguments Work {P} i a. Arguments SendMsg {P} i m. Arguments SendLog {P} k l. Arguments Receive {P} k l.
Arguments DropSender {P} k. Arguments DropReceiver {P} k. Arguments Pass {P} t. Arguments Detach {P} i.

(** Done by a component's thread: its labels are those of the loop itself *)
Definition own_label {P} (a : label P) : bool :=
  match a with ArriveMsg _ | ArriveLog _ | CloseIn | Consume _ | CloseOut | Clock _ => false | _ => true end.

Section Fleet.
  Context {P : payloads} {St : Type}.
  (** the number of components, the code and first state of each, and the channels it was given *)
  Context (size : nat) (C : nat -> component P St) (source target : nat -> nat).
  Implicit Type w : fleet P St.

  (** somebody holds a sender of the channel [k]; a receiver *)
  Definition has_sender w k : bool :=
    outside_sends (channels w k) || existsb (fun i => attached (workers w i) && Nat.eqb (target i) k) (seq 0 size).
  Definition has_receiver w k : bool :=
    outside_receives (channels w k) || existsb (fun i => attached (workers w i) && Nat.eqb (source i) k) (seq 0 size).
  Definition has_room (c : channel) : bool :=
    match capacity c with Some n => Nat.ltb (length (queue c)) n | None => true end.

  (** What the component [i] sees *)
  Definition view w i : world P St :=
    let a := channels w (source i) in let b := channels w (target i) in
    World (thread (workers w i)) (time w) (inbox (workers w i))
      (Wired (queue a) (has_sender w (source i)) (queue b) (capacity b) (has_receiver w (target i))).
  (** ... and what it changes: its thread, its messages, the two queues *)
  Definition put w i (p : phase St) (ms : list (message P)) (q o : list log) : fleet P St :=
    Fleet (time w) (set (workers w) i (Worker p ms (attached (workers w i))))
      (set (set (channels w) (source i) (with_queue q (channels w (source i)))) (target i) (with_queue o (channels w (target i)))).

  Inductive fstep : fleet P St -> event P -> fleet P St -> Prop :=
  | f_work w i a p t ms q b o c r : i < size -> own_label a = true ->
      step (C i) (view w i) a (World p t ms (Wired q b o c r)) -> fstep w (Work i a) (put w i p ms q o)
  | f_send_msg w i m : i < size -> length (inbox (workers w i)) < msg_capacity ->
      fstep w (SendMsg i m) (Fleet (time w)
        (set (workers w) i (Worker (thread (workers w i)) (inbox (workers w i) ++ [m]) (attached (workers w i)))) (channels w))
  | f_send_log w k l : outside_sends (channels w k) = true -> has_receiver w k = true -> has_room (channels w k) = true ->
      fstep w (SendLog k l) (Fleet (time w) (workers w)
        (set (channels w) k (with_queue (queue (channels w k) ++ [l]) (channels w k))))
  | f_receive w k l q : outside_receives (channels w k) = true -> queue (channels w k) = l :: q ->
      fstep w (Receive k l) (Fleet (time w) (workers w) (set (channels w) k (with_queue q (channels w k))))
  | f_drop_sender w k :
      fstep w (DropSender k) (Fleet (time w) (workers w)
        (set (channels w) k (Channel (queue (channels w k)) (capacity (channels w k)) false (outside_receives (channels w k)))))
  | f_drop_receiver w k :
      fstep w (DropReceiver k) (Fleet (time w) (workers w)
        (set (channels w) k (Channel (queue (channels w k)) (capacity (channels w k)) (outside_sends (channels w k)) false)))
  | f_pass w t : (time w <= t)%N -> fstep w (Pass t) (Fleet t (workers w) (channels w))
  | f_detach w i r : i < size -> thread (workers w i) = Returned r -> attached (workers w i) = true ->
      fstep w (Detach i) (Fleet (time w) (set (workers w) i (Worker (thread (workers w i)) (inbox (workers w i)) false)) (channels w)).

  Inductive frun : fleet P St -> list (event P) -> fleet P St -> Prop :=
  | frun_nil w : frun w [] w
  | frun_snoc w tr w1 a w2 : frun w tr w1 -> fstep w1 a w2 -> frun w (tr ++ [a]) w2.

  (** All threads just spawned, no log on its way; [comp i] is the handler given to the component [i] *)
  Definition spawn (comp : nat -> St) (chans : nat -> channel) : fleet P St :=
    Fleet 0 (fun i => Worker (Starting (duplicate (C i) (comp i))) [] true) chans.
End Fleet.
