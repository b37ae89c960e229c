(** Model of src/components/simplified.rs (the event loop of a component) and of the messages of
    src/components/common.rs. The loop runs concurrently with the rest of the program: it is a transition
    system whose labels are what the loop and its environment do. *)
From Coq Require Import String NArith ZArith List Bool.
From Verif Require Import Base.Outcome Model.Log Model.Command Model.Err.
Import ListNotations.

(** The payloads of messages that the loop passes on without looking at them: command responses, datasets,
    alerts and task results. Left abstract. *)
Record payloads := Payloads { response : Type; dataset_payload : Type; alert : Type; task_result : Type }.

(** components/common.rs:41-50, with the derived order given by the position *)
Inductive level := L_Off | L_Error | L_Warn | L_Info | L_Debug | L_Trace.
(** components/common.rs:31-39 *)
Record notification := Notif { n_timestamp : Z; n_component : N; n_component_name : string; n_log : string; n_level : level }.

(** components/common.rs:11-29 *)
Inductive message (P : payloads) :=
| MCommand (h : header) (c : siem_command_call)
| MResponse (h : header) (r : response P)
| MLog (l : log)
| MNotification (n : notification)
| MDataset (d : dataset_payload P)
| MAlert (a : alert P)
| MTask (h : header) (t : siem_task)
| MTaskResult (h : header) (r : task_result P).
Arguments MCommand {P} h c.
Arguments MResponse {P} h r.
Arguments MLog {P} l.
Arguments MNotification {P} n.
Arguments MDataset {P} d.
Arguments MAlert {P} a.
Arguments MTask {P} h t.
Arguments MTaskResult {P} h r.

(** simplified.rs:46-93 the trait [SimplifiedComponent]. A user's component with a state [St]: each method changes
    the state and returns. Simplified: what a method does to the rest of the program (sending messages, changing
    datasets or the storage) is left out, and methods return (they neither panic nor run forever);
    [set_storage], [set_datasets] and [capabilities] play no part in the loop. *)
Record component (P : payloads) (St : Type) := Comp {
  duplicate : St -> St;
  on_command : St -> header -> siem_command_call -> St * result unit siem_error;
  on_response : St -> header -> response P -> St * result unit siem_error;
  on_log : St -> log -> St * result (option log) siem_error;
  on_dataset : St -> dataset_payload P -> St * result unit siem_error;
  on_alert : St -> alert P -> St * result unit siem_error;
  on_task : St -> header -> siem_task -> St * result unit siem_error;
  on_task_result : St -> header -> task_result P -> St * result unit siem_error;
  on_notification : St -> notification -> St * result unit siem_error;
  tick : St -> St * result (option N) siem_error }.
Arguments Comp {P St}.
Arguments duplicate {P St}. Arguments on_command {P St}. Arguments on_response {P St}. Arguments on_log {P St}.
Arguments on_dataset {P St}. Arguments on_alert {P St}. Arguments on_task {P St}. Arguments on_task_result {P St}.
Arguments on_notification {P St}. Arguments tick {P St}.

(** simplified.rs:59-92 the default methods: every log is kept, every message accepted, no ticks *)
Definition default_component (P : payloads) (St : Type) : component P St :=
  Comp (fun s => s) (fun s _ _ => (s, Ok tt)) (fun s _ _ => (s, Ok tt)) (fun s l => (s, Ok (Some l))) (fun s _ => (s, Ok tt))
    (fun s _ => (s, Ok tt)) (fun s _ _ => (s, Ok tt)) (fun s _ _ => (s, Ok tt)) (fun s _ => (s, Ok tt)) (fun s => (s, Ok None)).

(** * The channels of a component *)

(** simplified.rs:95-112 the field [logs]. [Looped q]: as [SimpleComponent::new] leaves it, both ends of one channel
    of capacity 1 (simplified.rs:105) that nobody else can reach. [Wired]: after [set_log_channel] (simplified.rs:119-121)
    with the receiver of one channel, holding [inq], whose senders are all gone when [in_open] is false, and the
    sender of another one, holding [outq] of capacity [cap] ([None]: unbounded), whose receivers are all gone
    when [out_open] is false. Capacity-zero channels are not modelled. *)
Inductive wiring :=
| Looped (q : list log)
| Wired (inq : list log) (in_open : bool) (outq : list log) (cap : option nat) (out_open : bool).

Definition queued_in (x : wiring) : list log := match x with Looped q => q | Wired q _ _ _ _ => q end.
Definition queued_out (x : wiring) : list log := match x with Looped q => q | Wired _ _ q _ _ => q end.
Definition logs_disconnected (x : wiring) : bool :=
  match x with Wired [] false _ _ _ => true | _ => false end.
Definition out_room (x : wiring) : bool :=
  match x with
  | Looped q => Nat.ltb (length q) 1
  | Wired _ _ q (Some c) _ => Nat.ltb (length q) c
  | Wired _ _ _ None _ => true
  end.
Definition out_gone (x : wiring) : bool := match x with Wired _ _ _ _ false => true | _ => false end.
Definition pop_log (x : wiring) : option (log * wiring) :=
  match x with
  | Looped (l :: q) => Some (l, Looped q)
  | Wired (l :: q) i o c r => Some (l, Wired q i o c r)
  | _ => None
  end.
Definition push_out (l : log) (x : wiring) : wiring :=
  match x with Looped q => Looped (q ++ [l]) | Wired q i o c r => Wired q i (o ++ [l]) c r end.

(** * The loop *)

(** Where the thread that runs [run] is: before the first tick, about to select, asleep in the selection, inside the
    blocking [send] of a log, or returned. The handler's state is that of the duplicate the loop works on;
    the deadline is the one of simplified.rs:128. *)
Inductive phase (St : Type) :=
| Starting (s : St)
| Polling (s : St) (deadline : option N)
| Waiting (s : St) (deadline : option N)
| Sending (s : St) (deadline : option N) (l : log)
| Returned (r : result unit siem_error).
Arguments Starting {St} s.
Arguments Polling {St} s deadline.
Arguments Waiting {St} s deadline.
Arguments Sending {St} s deadline l.
Arguments Returned {St} r.

(** The running component: the thread, the clock (milliseconds), the message channel and the log channels *)
Record world (P : payloads) (St : Type) := World { ph : phase St; now : N; msgs : list (message P); logs : wiring }.
Arguments World {P St}.
Arguments ph {P St}. Arguments now {P St}. Arguments msgs {P St}. Arguments logs {P St}.

(** simplified.rs:104 *)
Definition msg_capacity : nat := 1024.

(** What happens, one step at a time. The environment: a message or a log arrives, the last sender of logs goes away,
    somebody takes a forwarded log, its last receiver goes away, time passes. The component: it ticks, goes to sleep
    because nothing is ready, takes a message or a log, finds the log channel disconnected, completes a send, finds
    nobody to send to. *)
Inductive label (P : payloads) :=
| ArriveMsg (m : message P) | ArriveLog (l : log) | CloseIn | Consume (l : log) | CloseOut | Clock (t : N)
| Tick | Idle | TakeMsg (m : message P) | TakeLog (l : log) | LogsGone | Forward (l : log) | SendFailed (l : log).
Arguments ArriveMsg {P} m. Arguments ArriveLog {P} l. Arguments CloseIn {P}. Arguments Consume {P} l.
Arguments CloseOut {P}. Arguments Clock {P} t. Arguments Tick {P}. Arguments Idle {P}. Arguments TakeMsg {P} m.
Arguments TakeLog {P} l. Arguments LogsGone {P}. Arguments Forward {P} l. Arguments SendFailed {P} l.

Section Loop.
  Context {P : payloads} {St : Type} (C : component P St).

  (** simplified.rs:186-191, and lines 128, 134 where [component.tick()?] is followed by a new selection *)
  Definition after_tick (s : St) (t : N) : phase St :=
    match tick C s with
    | (s', Ok (Some v)) => Polling s' (Some (t + v)%N)
    | (s', Ok None) => Polling s' None
    | (_, Err e) => Returned (Err e)
    end.

  (** simplified.rs:212-225: a log goes to the handler; what it keeps is sent on (the thread is then [Sending]).
      An error is only reported (simplified.rs:159-161). *)
  Definition process_log (s : St) (d : option N) (l : log) : phase St :=
    match on_log C s l with
    | (s', Err _) => Polling s' d
    | (s', Ok None) => Polling s' d
    | (s', Ok (Some l')) => Sending s' d l'
    end.

  (** simplified.rs:194-211 *)
  Definition process_message (s : St) (d : option N) (m : message P) : phase St :=
    match m with
    | MCommand _ (C_STOP_COMPONENT _) => Returned (Ok tt)
    | MCommand h c => Polling (fst (on_command C s h c)) d
    | MResponse h r => Polling (fst (on_response C s h r)) d
    | MLog l => process_log s d l
    | MNotification n => Polling (fst (on_notification C s n)) d
    | MDataset x => Polling (fst (on_dataset C s x)) d
    | MAlert a => Polling (fst (on_alert C s a)) d
    | MTask h t => Polling (fst (on_task C s h t)) d
    | MTaskResult h r => Polling (fst (on_task_result C s h r)) d
    end.

  (** Whether one of the two receivers of the selection (simplified.rs:125-126) is ready. The component holds a sender
      of its own message channel, so that one never disconnects. *)
  Definition ready (w : world P St) : bool :=
    match msgs w, pop_log (logs w) with
    | [], None => logs_disconnected (logs w)
    | _, _ => true
    end.

  (** The state of the thread in a selection: [select] and [select_deadline] first look for a ready channel and only
      sleep if there is none *)
  Definition selecting (w : world P St) : option (St * option N) :=
    match ph w with Polling s d | Waiting s d => Some (s, d) | _ => None end.

End Loop.

(** equality of logs and messages is not decidable in general (payloads are abstract): a step that takes something
    states what it takes *)
Section Step.
  Context {P : payloads} {St : Type} (C : component P St).

  (** simplified.rs:123-167 [run], and the environment *)
  Inductive step : world P St -> label P -> world P St -> Prop :=
  (* the environment *)
  | s_arrive_msg p t ms x m : length ms < msg_capacity -> step (World p t ms x) (ArriveMsg m) (World p t (ms ++ [m]) x)
  | s_arrive_log p t ms q o c r l :
      step (World p t ms (Wired q true o c r)) (ArriveLog l) (World p t ms (Wired (q ++ [l]) true o c r))
  | s_close_in p t ms q i o c r : step (World p t ms (Wired q i o c r)) CloseIn (World p t ms (Wired q false o c r))
  | s_consume p t ms q i l o c : step (World p t ms (Wired q i (l :: o) c true)) (Consume l) (World p t ms (Wired q i o c true))
  | s_close_out p t ms q i o c r : step (World p t ms (Wired q i o c r)) CloseOut (World p t ms (Wired q i o c false))
  | s_clock p t t' ms x : (t <= t')%N -> step (World p t ms x) (Clock t') (World p t' ms x)
  (* simplified.rs:127-128 *)
  | s_start s t ms x : step (World (Starting s) t ms x) Tick (World (after_tick C s t) t ms x)
  (* simplified.rs:130-140: nothing is ready *)
  | s_idle s d t ms x : ready (World (Polling s d) t ms x) = false ->
      step (World (Polling s d) t ms x) Idle (World (Waiting s d) t ms x)
  (* simplified.rs:133-136: the deadline passes while asleep *)
  | s_tick s d t ms x : (d <= t)%N -> step (World (Waiting s (Some d)) t ms x) Tick (World (after_tick C s t) t ms x)
  (* simplified.rs:142-148 *)
  | s_take_msg p s d t m ms x : selecting (World p t (m :: ms) x) = Some (s, d) ->
      step (World p t (m :: ms) x) (TakeMsg m) (World (process_message C s d m) t ms x)
  (* simplified.rs:149-155 *)
  | s_take_log p s d t ms x l x' : selecting (World p t ms x) = Some (s, d) -> pop_log x = Some (l, x') ->
      step (World p t ms x) (TakeLog l) (World (process_log C s d l) t ms x')
  (* simplified.rs:150-153 *)
  | s_logs_gone p s d t ms x : selecting (World p t ms x) = Some (s, d) -> logs_disconnected x = true ->
      step (World p t ms x) LogsGone (World (Returned (Ok tt)) t ms x)
  (* simplified.rs:218, 224 *)
  | s_forward s d l t ms x : out_gone x = false -> out_room x = true ->
      step (World (Sending s d l) t ms x) (Forward l) (World (Polling s d) t ms (push_out l x))
  (* simplified.rs:218-222 *)
  | s_send_failed s d l t ms x : out_gone x = true ->
      step (World (Sending s d l) t ms x) (SendFailed l) (World (Returned (Ok tt)) t ms x).

  (** A history: the labels of successive steps *)
  Inductive run : world P St -> list (label P) -> world P St -> Prop :=
  | run_nil w : run w [] w
  | run_snoc w tr w1 a w2 : run w tr w1 -> step w1 a w2 -> run w (tr ++ [a]) w2.

  (** simplified.rs:103-112, 123-128: [run] of a component that wraps [comp], with the given log channels *)
  Definition launch (comp : St) (x : wiring) : world P St := World (Starting (duplicate C comp)) 0 [] x.
End Step.
