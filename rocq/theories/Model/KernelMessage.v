(** Model of src/components/kernel_message.rs and src/logging: notifications and messages sent to the kernel. *)
From Coq Require Import String NArith ZArith List Bool.
From Verif Require Import Base.Outcome Model.Log Model.Command Model.Err Model.Datasets Model.Component.
Import ListNotations.
Local Open Scope nat_scope.

(** components/common.rs:41-50 [repr(usize)] and [derive(PartialOrd)] *)
Definition level_index (l : level) : nat :=
  match l with L_Off => 0 | L_Error => 1 | L_Warn => 2 | L_Info => 3 | L_Debug => 4 | L_Trace => 5 end.
Definition level_ltb (a b : level) : bool := Nat.ltb (level_index a) (level_index b).
Definition level_leb (a b : level) : bool := Nat.leb (level_index a) (level_index b).

(** kernel_message.rs:8-14. The channel is shared by the clones of the messager and kept apart. *)
Record messager := Messager { k_id : N; k_name : string; k_level : level }.
(** kernel_message.rs:29-36 [new] *)
Definition messager_new (id : N) (name : string) : messager := Messager id name L_Info.
(** kernel_message.rs:16-26 [default], whose channel has no receiver *)
Definition messager_default : messager := Messager 0 "" L_Info.
(** kernel_message.rs:37-39 *)
Definition set_level (l : level) (k : messager) : messager := Messager (k_id k) (k_name k) l.

Section Kernel.
  Context {P : payloads}.
  Implicit Type c : chan (message P).

  (** kernel_message.rs:56-69 [_send] at time [t] *)
  Definition k_send (k : messager) c (t : Z) (log : string) (lvl : level) : chan (message P) :=
    if level_ltb (k_level k) lvl then c
    else fst (Datasets.try_send c (MNotification (Notif t (k_id k) (k_name k) log lvl))).
  (** kernel_message.rs:70-87 *)
  Definition k_log := k_send.
  Definition k_trace k c t log := k_send k c t log L_Trace.
  Definition k_debug k c t log := k_send k c t log L_Debug.
  Definition k_info k c t log := k_send k c t log L_Info.
  Definition k_warn k c t log := k_send k c t log L_Warn.
  Definition k_error k c t log := k_send k c t log L_Error.

  (** kernel_message.rs:46-49 [try_send] *)
  Definition k_try_send c (m : message P) : chan (message P) * result unit siem_error :=
    match Datasets.try_send c m with (c', Ok u) => (c', Ok u) | (c', Err e) => (c', Err (of_try_send e)) end.
  (** kernel_message.rs:41-44 [send]: [None] while it waits for room *)
  Definition k_send_msg c (m : message P) : option (chan (message P) * result unit siem_error) :=
    match Datasets.send c m with
    | None => None
    | Some (c', Ok u) => Some (c', Ok u)
    | Some (c', Err e) => Some (c', Err (of_send e))
    end.
  (** kernel_message.rs:51-54 [send_timeout]: as [send], and when the time is up it fails *)
  Definition k_send_timeout c (m : message P) (time_up : bool) : option (chan (message P) * result unit siem_error) :=
    match Datasets.send c m with
    | None => if time_up then Some (c, Err (of_send_timeout (TimedOut m))) else None
    | Some (c', Ok u) => Some (c', Ok u)
    | Some (c', Err e) => Some (c', Err (of_send_timeout (TDisconnected e)))
    end.

  (** logging/mod.rs:11-26 the process-wide maximum level, stored as a number; [max_level] reinterprets it. Only
      [set_max_level] writes it, so it is always the number of a level. *)
  Definition max_default : nat := 5.
  Definition set_max_level (l : level) : nat := level_index l.
  Definition enabled_level (mx : nat) (l : level) : bool := Nat.leb (level_index l) mx.
  Definition max_level (mx : nat) : option level :=
    match mx with 0 => Some L_Off | 1 => Some L_Error | 2 => Some L_Warn | 3 => Some L_Info | 4 => Some L_Debug | 5 => Some L_Trace | _ => None end.

  (** logging/macros.rs:32-44 [log!], with the messager of the current thread (logging/mod.rs:28-41) *)
  Definition log_macro (mx : nat) (k : messager) c (t : Z) (log : string) (lvl : level) : chan (message P) :=
    match max_level mx with
    | Some m => if andb (level_leb lvl L_Trace) (level_leb lvl m) then k_log k c t log lvl else c
    | None => c
    end.

  (** * Histories *)

  (** Messagers that share one channel, the maximum level, and the kernel at the other end *)
  Record kernel := Kernel { ks : list messager; kmax : nat; kchan : chan (message P); got : list (message P) }.

  (** A call through the [i]-th messager, in order: [KNew] and [KClone] make a new one. *)
  Inductive kop :=
  | KNew (id : N) (name : string)                          (* kernel_message.rs:29-36 *)
  | KClone (i : nat)                                       (* kernel_message.rs:8 [derive(Clone)] *)
  | KSetLevel (i : nat) (l : level)
  | KSetMax (l : level)
  | KNotify (i : nat) (t : Z) (log : string) (l : level)   (* a method of the messager *)
  | KMacro (i : nat) (t : Z) (log : string) (l : level)    (* a macro, in a thread that has this messager *)
  | KTrySend (i : nat) (m : message P)
  | KRecv                                                  (* the kernel takes a message *)
  | KHangUp.                                               (* the kernel drops the receiver *)

  Definition kstep (w : kernel) (o : kop) : kernel :=
    match o with
    | KNew id name => Kernel (ks w ++ [messager_new id name]) (kmax w) (kchan w) (got w)
    | KClone i => match nth_error (ks w) i with
        | Some k => Kernel (ks w ++ [k]) (kmax w) (kchan w) (got w) | None => w end
    | KSetLevel i l => match nth_error (ks w) i with
        | Some k => Kernel (firstn i (ks w) ++ set_level l k :: skipn (S i) (ks w)) (kmax w) (kchan w) (got w) | None => w end
    | KSetMax l => Kernel (ks w) (set_max_level l) (kchan w) (got w)
    | KNotify i t log l => match nth_error (ks w) i with
        | Some k => Kernel (ks w) (kmax w) (k_log k (kchan w) t log l) (got w) | None => w end
    | KMacro i t log l => match nth_error (ks w) i with
        | Some k => Kernel (ks w) (kmax w) (log_macro (kmax w) k (kchan w) t log l) (got w) | None => w end
    | KTrySend i m => match nth_error (ks w) i with
        | Some _ => Kernel (ks w) (kmax w) (fst (k_try_send (kchan w) m)) (got w) | None => w end
    | KRecv => match recv (kchan w) with
        | (c, Some m) => Kernel (ks w) (kmax w) c (got w ++ [m]) | (_, None) => w end
    | KHangUp => Kernel (ks w) (kmax w) (Chan (cap (kchan w)) (queue (kchan w)) false) (got w)
    end.
  Definition kstart (capacity : nat) : kernel := Kernel [] max_default (Chan capacity [] true) [].
  Definition krun (capacity : nat) (ops : list kop) : kernel := fold_left kstep ops (kstart capacity).
End Kernel.
Arguments kop : clear implicits.
Arguments kernel : clear implicits.

(** components/common.rs:151-197 [From<..> for SiemMessage] *)
Definition msg_of_command {P} (c : siem_command_call) : message P := MCommand header_default c.
Definition msg_of_response {P} (r : response P) : message P := MResponse header_default r.
Definition msg_of_log {P} (l : log) : message P := MLog l.
Definition msg_of_notification {P} (n : notification) : message P := MNotification n.
Definition msg_of_alert {P} (a : alert P) : message P := MAlert a.
Definition msg_of_dataset {P} (d : dataset_payload P) : message P := MDataset d.
Definition msg_of_task {P} (t : siem_task) : message P := MTask header_default t.
Definition msg_of_task_result {P} (r : task_result P) : message P := MTaskResult header_default r.
