(** Histories of the datasets: sequences of calls of the modelled API, channel schedules and the vocabulary of the
    calendar, i18n and holder properties. *)
From Coq Require Import String NArith ZArith List.
From Verif Require Import Base.Ord Base.BTree Base.Outcome Model.Ip Model.Datasets Model.NetDataset Model.Calendar
  Model.DatasetTypes Model.Holder Model.Language Model.I18n Spec.DatasetSpec.
Import ListNotations.

(** * Calls, in order, on an empty dataset *)
Definition ip_map_run {T} (ops : list (op siem_ip T)) : ip_map T :=
  fold_left (fun d o => match o with Ins k v => ip_map_insert k v d | Del k => ip_map_remove k d end) ops ip_map_new.

Definition ip_set_run (ops : list (op siem_ip unit)) : ip_set :=
  fold_left (fun d o => match o with Ins k _ => ip_set_insert k d | Del k => ip_set_remove k d end) ops ip_set_new.

Definition text_map_run {T} (ops : list (op string T)) : text_map T :=
  fold_left (fun d o => match o with Ins k v => text_map_insert k v d | Del k => text_map_remove k d end) ops text_map_new.

Definition text_set_run (vals : list string) : bset string :=
  fold_left (fun d x => text_set_insert x d) vals text_set_new.

Definition rules_run {R} (name : R -> string) (ops : list (op string R)) : rules_ds :=
  fold_left (fun d o => match o with Ins _ r => rules_insert name r d | Del k => rules_remove k d end) ops rules_new.

Section Nets.
  Context {T : Type}.
  Local Open Scope N_scope.
  Notation netop := (op (siem_ip * N) T).
  Definition net_step (d : outcome (ip_net T)) (o : netop) : outcome (ip_net T) :=
    obind d (fun d => match o with Ins (ip, net) v => ip_net_insert ip net v d | Del (ip, net) => ip_net_remove ip net d end).
  Definition ip_net_run (ops : list netop) : outcome (ip_net T) := fold_left net_step ops (Val ip_net_new).

  (** The addresses of a history are addresses, the lengths inserted are lengths. *)
  Definition op_addr_ok (o : netop) : Prop := ip_ok (fst (op_key o)).
  Definition op_len_ok (o : netop) : Prop :=
    match o with Ins (ip, net) _ => net <= width ip | Del _ => True end.
End Nets.

Inductive net_update_step {T} : ip_net T -> update_ip_net T -> ip_net T -> Prop :=
| nus_add d ip net v d' : ip_net_insert ip net v d = Val d' -> net_update_step d (Add (ip, net, v)) d'
| nus_remove d ip net d' : ip_net_remove ip net d = Val d' -> net_update_step d (Remove (ip, net)) d'
| nus_replace d d' : net_update_step d (Replace d') d'.

(** V4-only histories *)
Definition v4op {T} (o : N * N * T) : op (siem_ip * N) T := let '(ip, net, v) := o in Ins (V4 ip, net) v.

Definition slow_run {T} (ops : list (siem_ip * N * T)) : outcome (tree T) :=
  fold_left (fun t o => let '(ip, net, v) := o in obind t (slow_insert ip net v)) ops (Val []).


(** * One update of a batch *)
Section Batch.
  Context {A Rm D : Type} (ins : A -> D -> D) (rem : Rm -> D -> D).
  (** One update, through the dataset's own [insert] and [remove]. *)
  Inductive update_step : D -> update A Rm D -> D -> Prop :=
  | us_add d a : update_step d (Add a) (ins a d)
  | us_remove d r : update_step d (Remove r) (rem r d)
  | us_replace d d' : update_step d (Replace d') d'.
End Batch.

(** * Schedules of a channel *)
Section Channel.
  Context {U : Type}.
  Inductive event := Write (u : U) | Take | DropReceiver.
  (** A run: the channel and what its owner has received.  A write goes through [try_send] and its result is ignored. *)
  Definition ev_step (s : chan U * list U) (e : event) : chan U * list U :=
    let (c, got) := s in
    match e with
    | Write u => (fst (try_send c u), got)
    | Take => match recv c with (c', Some u) => (c', got ++ [u]) | (c', None) => (c', got) end
    | DropReceiver => (Chan (cap c) [] false, got)
    end.
  Definition ev_run (c : chan U) (es : list event) : chan U * list U := fold_left ev_step es (c, []).
  Definition writes (es : list event) : list U := flat_map (fun e => match e with Write u => [u] | _ => [] end) es.

  (** Every write of [es] finds a free slot and a living receiver. *)
  Inductive roomy : chan U * list U -> list event -> Prop :=
  | roomy_nil s : roomy s []
  | roomy_write c got u es : alive c = true -> (length (queue c) < cap c)%nat ->
      roomy (ev_step (c, got) (Write u)) es -> roomy (c, got) (Write u :: es)
  | roomy_take s es : roomy (ev_step s Take) es -> roomy s (Take :: es).
End Channel.
Arguments event : clear implicits.

(** * Calendars *)
Section Calendars.
Local Open Scope Z_scope.
Definition cal_event := (Z * Z * string)%type.
Definition ev_start (e : cal_event) : Z := fst (fst e).
Definition ev_end (e : cal_event) : Z := snd (fst e).
Definition ev_data (e : cal_event) : string := snd e.
(** The event is going on at [t]. *)
Definition active (t : Z) (e : cal_event) : Prop := ev_start e <= t <= ev_end e.
Definition activeb (t : Z) (e : cal_event) : bool := (ev_start e <=? t) && (t <=? ev_end e).

Definition cal_run (evs : list cal_event) : calendar :=
  fold_left (fun m e => cal_insert (ev_start e) (ev_end e) (ev_data e) m) evs cal_new.

(** What a lookup returns for a list of reported texts. *)
Definition reported (l : list string) : option (list string) := match l with [] => None | _ => Some l end.
End Calendars.

(** * Holders *)
(** The holders a program can build. *)
Inductive built : holder -> Prop :=
| b_new : built holder_new
| b_from l : built (from_datasets l)
| b_insert d h : built h -> built (holder_insert d h)
| b_subset l h : built h -> built (holder_subset l h).

(** * I18n *)
Inductive dict_op := DInsert (lang : language) (text value : string) | DSet (lang : language) (data : bt string string).
Definition dict_apply (d : i18n) (o : dict_op) : i18n :=
  match o with DInsert l t v => i18n_insert l t v d | DSet l m => i18n_set_dictionary l m d end.
Definition i18n_run (ops : list dict_op) : i18n := fold_left dict_apply ops i18n_new.
(** The single texts a history writes, in order. *)
Definition dict_writes (ops : list dict_op) : list (op (string * language) string) :=
  flat_map (fun o => match o with
                     | DInsert l t v => [Ins (t, l) v]
                     | DSet l m => map (fun p => Ins (fst p, l) (snd p)) m
                     end) ops.

Definition the_default (live : language -> string -> Prop) (lang : language) (v : string) : Prop :=
  live lang v \/
  ((forall x, ~ live lang x) /\ live L_EN v) \/
  ((forall x, ~ live lang x) /\ (forall x, ~ live L_EN x) /\
   exists l, live l v /\ forall l' x, live l' x -> cmp l l' <> Gt).

