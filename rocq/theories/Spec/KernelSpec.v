(** Which notifications a history of calls should deliver. *)
From Coq Require Import String NArith ZArith List Bool.
From Verif Require Import Model.Command Model.Component Model.KernelMessage.
Import ListNotations.
Local Open Scope nat_scope.

(** [a] is at most as verbose as [b]: off, error, warn, info, debug, trace, in that order *)
Inductive at_most : level -> level -> Prop :=
| am_off b : at_most L_Off b
| am_error b : b <> L_Off -> at_most L_Error b
| am_warn b : b <> L_Off -> b <> L_Error -> at_most L_Warn b
| am_info b : b = L_Info \/ b = L_Debug \/ b = L_Trace -> at_most L_Info b
| am_debug b : b = L_Debug \/ b = L_Trace -> at_most L_Debug b
| am_trace : at_most L_Trace L_Trace.

(** What is known after a history: how many messagers were made, the identity and level of each, the maximum level *)
Record view := View { made : nat; ident : nat -> N * string; lvl : nat -> level; mx : level }.
Definition view0 : view := View 0 (fun _ => (0%N, ""%string)) (fun _ => L_Info) L_Trace.
Definition upd {A} (f : nat -> A) (i : nat) (x : A) : nat -> A := fun j => if Nat.eqb j i then x else f j.
Definition see {P} (v : view) (o : kop P) : view :=
  match o with
  | KNew id name => View (S (made v)) (upd (ident v) (made v) (id, name)) (upd (lvl v) (made v) L_Info) (mx v)
  | KClone i => if i <? made v then View (S (made v)) (upd (ident v) (made v) (ident v i)) (upd (lvl v) (made v) (lvl v i)) (mx v) else v
  | KSetLevel i l => if i <? made v then View (made v) (ident v) (upd (lvl v) i l) (mx v) else v
  | KSetMax l => View (made v) (ident v) (lvl v) l
  | _ => v
  end.
Definition view_after {P} (ops : list (kop P)) : view := fold_left see ops view0.

(** The message a call asks to deliver, seen after [v], and whether the levels let it pass *)
Definition asks {P} (v : view) (o : kop P) (m : message P) : Prop :=
  match o with
  | KNotify i t s l => i < made v /\ at_most l (lvl v i) /\ m = MNotification (Notif t (fst (ident v i)) (snd (ident v i)) s l)
  | KMacro i t s l => i < made v /\ at_most l (lvl v i) /\ at_most l (mx v)
      /\ m = MNotification (Notif t (fst (ident v i)) (snd (ident v i)) s l)
  | KTrySend i m' => i < made v /\ m = m'
  | _ => False
  end.

(** Everything that got into the channel: what the kernel received, then what waits *)
Definition delivered {P} (w : kernel P) : list (message P) := got w ++ Datasets.queue (kchan w).

(** The messages a history should deliver when nothing gets lost: the calls whose levels let them pass, in order *)
Inductive wanted {P} : list (kop P) -> list (message P) -> Prop :=
| w_nil : wanted [] []
| w_yes ops o m ms : wanted ops ms -> asks (view_after ops) o m -> wanted (ops ++ [o]) (ms ++ [m])
| w_no ops o ms : wanted ops ms -> (forall m, ~ asks (view_after ops) o m) -> wanted (ops ++ [o]) ms.
