(** Model of src/err.rs (errors and their conversions) and of the parsing error of src/components/parsing.rs. *)
From Coq Require Import String List.
From Verif Require Import Base.Outcome Model.Log Model.Datasets.

(** parsing.rs:53-66 *)
Inductive log_parsing_error :=
| NoValidParser (l : log) | ParserError (l : log) (why : string) | NotImplemented (l : log)
| FormatError (l : log) (why : string) | Discard.

(** err.rs:39-45 *)
Inductive storage_error := NotExists | ConnectionError | AlredyExists.
(** err.rs:47-53 *)
Inductive messaging_error := MDisconnected | MTimeoutReached | MFull.
(** err.rs:55-59 *)
Inductive component_error := StopRequested.
(** err.rs:32-37 *)
Inductive command_execution_error := CE_Communication (why : string) | CE_Other (why : string).

(** err.rs:8-30 *)
Inductive siem_error :=
| E_Io (why : string) | E_Serialization (why : string) | E_Parsing (e : log_parsing_error) | E_Indexing (why : string)
| E_Storage (e : storage_error) | E_Task (why : string) | E_Command (e : command_execution_error)
| E_Configuration (why : string) | E_Messaging (e : messaging_error) | E_Other (why : string) | E_Component (e : component_error).

(** err.rs:94-103 [From<TrySendError>] *)
Definition of_try_send {U} (e : send_err U) : siem_error :=
  match e with Full _ => E_Messaging MFull | Disconnected _ => E_Messaging MDisconnected end.
(** err.rs:104-108 [From<SendError>] *)
Definition of_send {U} (u : U) : siem_error := E_Messaging MDisconnected.
(** crossbeam's [SendTimeoutError]: the channel stayed full until the timeout, or has no receiver *)
Inductive timeout_err (U : Type) := TimedOut (u : U) | TDisconnected (u : U).
Arguments TimedOut {U} u.
Arguments TDisconnected {U} u.
(** err.rs:109-120 [From<SendTimeoutError>] *)
Definition of_send_timeout {U} (e : timeout_err U) : siem_error :=
  match e with TimedOut _ => E_Messaging MTimeoutReached | TDisconnected _ => E_Messaging MDisconnected end.
