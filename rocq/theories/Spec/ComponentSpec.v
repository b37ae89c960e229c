(** What a history of a component shows, and what its handler makes of what it is given. Independent of the loop. *)
From Coq Require Import NArith List Bool.
From Verif Require Import Base.Outcome Model.Log Model.Command Model.Err Model.Component.
Import ListNotations.

Section Projections.
  Context {P : payloads}.
  Implicit Type tr : list (label P).

  (** Logs sent to the component, logs it took, logs it forwarded, forwarded logs somebody took, in order. *)
  Definition arrived_logs tr : list log := flat_map (fun a => match a with ArriveLog l => [l] | _ => [] end) tr.
  Definition taken_logs tr : list log := flat_map (fun a => match a with TakeLog l => [l] | _ => [] end) tr.
  Definition forwarded tr : list log := flat_map (fun a => match a with Forward l => [l] | _ => [] end) tr.
  Definition consumed tr : list log := flat_map (fun a => match a with Consume l => [l] | _ => [] end) tr.
  (** The log that could not be forwarded because nobody listens, if any *)
  Definition undeliverable tr : list log := flat_map (fun a => match a with SendFailed l => [l] | _ => [] end) tr.
  Definition arrived_msgs tr : list (message P) := flat_map (fun a => match a with ArriveMsg m => [m] | _ => [] end) tr.
  Definition taken_msgs tr : list (message P) := flat_map (fun a => match a with TakeMsg m => [m] | _ => [] end) tr.

  (** Done by the component, not by its environment *)
  Definition by_component (a : label P) : Prop :=
    match a with
    | ArriveMsg _ | ArriveLog _ | CloseIn | Consume _ | CloseOut | Clock _ => False
    | _ => True
    end.

  (** The time at the end of a history that starts at time 0 *)
  Definition time_after tr : N := fold_left (fun t a => match a with Clock t' => t' | _ => t end) tr 0%N.

  Definition is_stop (m : message P) : Prop := exists h n, m = MCommand h (C_STOP_COMPONENT n).

  (** What the handler is given: ticks, messages, logs *)
  Inductive input := InTick | InMsg (m : message P) | InLog (l : log).
  Definition given tr : list input :=
    flat_map (fun a => match a with Tick => [InTick] | TakeMsg m => [InMsg m] | TakeLog l => [InLog l] | _ => [] end) tr.

  Context {St : Type} (C : component P St).

  (** What the handler does with one input: its new state and the log it lets through, if any. A stop command is not
      shown to the handler. *)
  Definition react_log (s : St) (l : log) : St * list log :=
    match on_log C s l with (s', Ok (Some l')) => (s', [l']) | (s', _) => (s', []) end.
  Definition react (s : St) (i : input) : St * list log :=
    match i with
    | InTick => (fst (tick C s), [])
    | InLog l => react_log s l
    | InMsg (MLog l) => react_log s l
    | InMsg (MCommand h c) => (match c with C_STOP_COMPONENT _ => s | _ => fst (on_command C s h c) end, [])
    | InMsg (MResponse h r) => (fst (on_response C s h r), [])
    | InMsg (MNotification n) => (fst (on_notification C s n), [])
    | InMsg (MDataset d) => (fst (on_dataset C s d), [])
    | InMsg (MAlert a) => (fst (on_alert C s a), [])
    | InMsg (MTask h t) => (fst (on_task C s h t), [])
    | InMsg (MTaskResult h r) => (fst (on_task_result C s h r), [])
    end.
  (** The state after a sequence of inputs, and all the logs it keeps, in order *)
  Fixpoint state_after (s : St) (is : list input) : St :=
    match is with [] => s | i :: r => state_after (fst (react s i)) r end.
  Fixpoint kept (s : St) (is : list input) : list log :=
    match is with [] => [] | i :: r => snd (react s i) ++ kept (fst (react s i)) r end.
End Projections.
Arguments input : clear implicits.

(** A log handed to the output but not yet accepted *)
Definition in_hand {P St} (w : world P St) : list log := match ph w with Sending _ _ l => [l] | _ => [] end.
Definition has_returned {P St} (w : world P St) : Prop := exists r, ph w = Returned r.
