(** The rules dataset in use: writers insert rules in the three ways the API has, the owner receives and publishes.
    Only calls of the modelled API change the channel and the snapshot. *)
From Coq Require Import String List.
From Verif Require Import Base.Outcome Model.Datasets.
Import ListNotations.
Local Open Scope string_scope.
Local Open Scope list_scope.

Section RulesRun.
  Context {R : Type} (name : R -> string).
  (** What is seen from outside: the call that put [r] in ended, and (if it has an answer) answered that it did; a call with [r] answered with an
      error that carries [back]; the owner received an update; the owner applied what it had received and published. *)
  Inductive revent := Inserted (r : R) | Refused (r back : R) | Received | Published.
  (** The channel, the published dataset, and what the owner has received since it published. *)
  Record rstate := RState { r_chan : chan (update R string (@rules_ds R)); r_seen : @rules_ds R; r_batch : list (update R string (@rules_ds R)) }.

  (** Any writer and the owner may act next. [insert] ends when there is room. While a call of [insert_timeout] repeats its attempts only the owner
      acts; attempts between which other writers act are calls of [try_insert] (C196_timed). *)
  Inductive rstep : rstate -> revent -> rstate -> Prop :=
  | rs_insert c d b r c' : rules_syn_insert c r = Some c' -> rstep (RState c d b) (Inserted r) (RState c' d b)
  | rs_try c d b r c' : try_insert c r = Val (c', Ok tt) -> rstep (RState c d b) (Inserted r) (RState c' d b)
  | rs_try_back c d b r c' x : try_insert c r = Val (c', Err x) -> rstep (RState c d b) (Refused r x) (RState c' d b)
  | rs_timed c d b r env c' got : insert_timeout c r env = Val (c', got, Ok tt) -> rstep (RState c d b) (Inserted r) (RState c' d (b ++ got))
  | rs_timed_back c d b r env c' got x : insert_timeout c r env = Val (c', got, Err x) -> rstep (RState c d b) (Refused r x) (RState c' d (b ++ got))
  | rs_receive c d b u us : queue c = u :: us -> rstep (RState c d b) Received (RState (Chan (cap c) us (alive c)) d (b ++ [u]))
  | rs_publish c d b d' : b <> [] -> rules_apply name d b = Val d' -> rstep (RState c d b) Published (RState c d' []).
  Inductive rsteps : rstate -> list revent -> rstate -> Prop :=
  | rss_nil s : rsteps s [] s
  | rss_snoc s es s' e s'' : rsteps s es s' -> rstep s' e s'' -> rsteps s (es ++ [e]) s''.

  (** The rules whose insertion succeeded, in order. *)
  Definition inserted (es : list revent) : list R := flat_map (fun e => match e with Inserted r => [r] | _ => [] end) es.
  (** An empty dataset with a channel of [n] slots and its receiver. *)
  Definition rules_start (n : nat) : rstate := RState (Chan n [] true) rules_new [].
End RulesRun.

(** The attempts of one call: each is a call of [try_insert] that gives the rule back, and between them the owner receives. *)
Inductive attempts {R} (r : R) : chan (update R string (@rules_ds R)) -> list (update R string (@rules_ds R)) -> chan (update R string (@rules_ds R)) -> Prop :=
| at_none c : attempts r c [] c
| at_refused c c1 got c2 : try_insert c r = Val (c1, Err r) -> attempts r c1 got c2 -> attempts r c got c2
| at_receive c u us got c2 : queue c = u :: us -> attempts r (Chan (cap c) us (alive c)) got c2 -> attempts r c (u :: got) c2.
