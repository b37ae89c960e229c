(** Model of src/components/dataset: ip_set.rs, ip_map.rs, ip_map_list.rs, text_map.rs, text_map_list.rs,
    text_set.rs, rules.rs.  A [LogString] is its text.  Serialisation is not modelled. *)
From Coq Require Import String NArith List Bool Arith.
From Verif Require Import Base.Ord Base.BTree Base.Outcome Model.Ip.
Import ListNotations.

(** * The channel of a synchronised dataset *)

(** A [crossbeam_channel::bounded(cap)] channel of at least one slot: the undelivered messages, oldest first, and
    whether a receiver is still alive.  (The rendezvous channel, capacity 0, is not modelled: the code never makes one.) *)
Record chan (U : Type) := Chan { cap : nat; queue : list U; alive : bool }.
Arguments Chan {U} _ _ _.
Arguments cap {U} _.
Arguments queue {U} _.
Arguments alive {U} _.

(** [crossbeam_channel::TrySendError]: the message is handed back *)
Inductive send_err (U : Type) := Full (u : U) | Disconnected (u : U).
Arguments Full {U} _.
Arguments Disconnected {U} _.

(** [Sender::try_send] *)
Definition try_send {U} (c : chan U) (u : U) : chan U * result unit (send_err U) :=
  if alive c then
    if length (queue c) <? cap c then (Chan (cap c) (queue c ++ [u]) true, Ok tt)
    else (c, Err (Full u))
  else (c, Err (Disconnected u)).

(** [Sender::send]: waits for room ([None]: still waiting) or fails if no receiver is left *)
Definition send {U} (c : chan U) (u : U) : option (chan U * result unit U) :=
  if alive c then
    if length (queue c) <? cap c then Some (Chan (cap c) (queue c ++ [u]) true, Ok tt) else None
  else Some (c, Err u).

(** [Receiver::try_recv] *)
Definition recv {U} (c : chan U) : chan U * option U :=
  match queue c with
  | u :: q => (Chan (cap c) q (alive c), Some u)
  | [] => (c, None)
  end.

(** [let (sender, _) = crossbeam_channel::bounded(1)]: ip_set.rs:22-28, ip_map.rs:23-29, ip_map_list.rs:24-30,
    ip_net.rs:23-29, text_map.rs:21-27, text_map_list.rs:23-29, text_set.rs:21-27, i18n.rs:407-413.  The receiver is
    dropped at once. *)
Definition empty_comm {U} : chan U := Chan 1 [] false.

(** The enums [UpdateIpSet] (ip_set.rs:8-12), [UpdateIpMap] (ip_map.rs:9-13), [UpdateIpMapList] (ip_map_list.rs:10-14),
    [UpdateNetIp] (ip_net.rs:9-13), [UpdateTextMap] (text_map.rs:7-11), [UpdateTextMapList] (text_map_list.rs:9-13),
    [UpdateTextSet] (text_set.rs:7-11), [UpdateRules] (rules.rs:10-14), [UpdateI18n] (i18n.rs:8-12),
    [UpdateCalendar] (calendar.rs:9-13): what is added, the key removed, the dataset that replaces the old one. *)
Inductive update (A R D : Type) := Add (a : A) | Remove (r : R) | Replace (d : D).
Arguments Add {A R D} _.
Arguments Remove {A R D} _.
Arguments Replace {A R D} _.

(** The writing methods of the synchronised datasets: [let _ = self.comm.try_send(..)].  They return nothing.
    ip_set.rs:30-41, ip_map.rs:31-42, ip_map_list.rs:32-43, ip_net.rs:30-41, text_map.rs:28-46, text_map_list.rs:30-41,
    text_set.rs:28-45, i18n.rs:414-432, calendar.rs:25-36 *)
Definition syn_insert {A R D} (c : chan (update A R D)) (a : A) : chan (update A R D) := fst (try_send c (Add a)).
Definition syn_remove {A R D} (c : chan (update A R D)) (r : R) : chan (update A R D) := fst (try_send c (Remove r)).
Definition syn_update {A R D} (c : chan (update A R D)) (d : D) : chan (update A R D) := fst (try_send c (Replace d)).

(** * IP sets *)

(** ip_set.rs:82-85 *)
Record ip_set := IpSet { set4 : bset N; set6 : bset N }.
(** ip_set.rs:94-99 *)
Definition ip_set_new : ip_set := IpSet bt_empty bt_empty.
(** ip_set.rs:100-109 *)
Definition ip_set_insert (ip : siem_ip) (d : ip_set) : ip_set :=
  match ip with
  | V4 ip => IpSet (bset_add ip (set4 d)) (set6 d)
  | V6 ip => IpSet (set4 d) (bset_add ip (set6 d))
  end.
(** ip_set.rs:110-115 *)
Definition ip_set_contains (ip : siem_ip) (d : ip_set) : bool :=
  match ip with V4 ip => bset_mem ip (set4 d) | V6 ip => bset_mem ip (set6 d) end.
(** ip_set.rs:120-125 *)
Definition ip_set_remove (ip : siem_ip) (d : ip_set) : ip_set :=
  match ip with
  | V4 ip => IpSet (bt_remove ip (set4 d)) (set6 d)
  | V6 ip => IpSet (set4 d) (bt_remove ip (set6 d))
  end.

Notation update_ip_set := (update siem_ip siem_ip ip_set).

(** ip_set.rs:65-77, the loop over the remaining updates *)
Fixpoint ip_set_rest (new : ip_set) (iter : list update_ip_set) : ip_set :=
  match iter with
  | [] => new
  | Add a :: r => ip_set_rest (ip_set_insert a new) r
  | Remove v :: r => ip_set_rest (ip_set_remove v new) r
  | Replace v :: r => ip_set_rest v r
  end.
(** ip_set.rs:49-79: [iter.next().unwrap()] aborts on an empty batch *)
Definition ip_set_apply (dataset : ip_set) (updates : list update_ip_set) : outcome ip_set :=
  match updates with
  | [] => Panic
  | first :: iter =>
      let new := match first with
                 | Add a => ip_set_insert a dataset
                 | Remove v => ip_set_remove v dataset
                 | Replace v => v
                 end in
      Val (ip_set_rest new iter)
  end.

(** * IP maps: ip_map.rs ([T] is a text) and ip_map_list.rs ([T] is a list of texts); the two files have the same code *)

(** ip_map.rs:83-86, ip_map_list.rs:81-84 *)
Record ip_map (T : Type) := IpMap { map4 : bt N T; map6 : bt N T }.
Arguments IpMap {T} _ _.
Arguments map4 {T} _.
Arguments map6 {T} _.
(** ip_map.rs:89-91, ip_map_list.rs:87-89 *)
Definition ip_map_new {T} : ip_map T := IpMap bt_empty bt_empty.
(** ip_map.rs:92-104, ip_map_list.rs:90-99 *)
Definition ip_map_insert {T} (ip : siem_ip) (data : T) (d : ip_map T) : ip_map T :=
  match ip with
  | V4 ip => IpMap (bt_insert ip data (map4 d)) (map6 d)
  | V6 ip => IpMap (map4 d) (bt_insert ip data (map6 d))
  end.
(** ip_map.rs:105-110, ip_map_list.rs:100-105 *)
Definition ip_map_get {T} (ip : siem_ip) (d : ip_map T) : option T :=
  match ip with V4 ip => bt_get ip (map4 d) | V6 ip => bt_get ip (map6 d) end.
(** ip_map.rs:111-120, ip_map_list.rs:115-124 *)
Definition ip_map_remove {T} (ip : siem_ip) (d : ip_map T) : ip_map T :=
  match ip with
  | V4 ip => IpMap (bt_remove ip (map4 d)) (map6 d)
  | V6 ip => IpMap (map4 d) (bt_remove ip (map6 d))
  end.

Notation update_ip_map T := (update (siem_ip * T) siem_ip (ip_map T)).

(** ip_map.rs:66-78, ip_map_list.rs:64-76 *)
Fixpoint ip_map_rest {T} (new : ip_map T) (iter : list (update_ip_map T)) : ip_map T :=
  match iter with
  | [] => new
  | Add (a, b) :: r => ip_map_rest (ip_map_insert a b new) r
  | Remove v :: r => ip_map_rest (ip_map_remove v new) r
  | Replace v :: r => ip_map_rest v r
  end.
(** ip_map.rs:50-80, ip_map_list.rs:48-78 *)
Definition ip_map_apply {T} (dataset : ip_map T) (updates : list (update_ip_map T)) : outcome (ip_map T) :=
  match updates with
  | [] => Panic
  | first :: iter =>
      let new := match first with
                 | Add (a, b) => ip_map_insert a b dataset
                 | Remove v => ip_map_remove v dataset
                 | Replace v => v
                 end in
      Val (ip_map_rest new iter)
  end.

(** * Text maps *)

(** text_map.rs:87-89; text_map_list.rs:51-53 with lists of texts as values *)
Notation text_map T := (bt string T).
(** text_map.rs:92-94, text_map_list.rs:56-58 *)
Definition text_map_new {T} : text_map T := bt_empty.
(** text_map.rs:95-100, text_map_list.rs:59-61 *)
Definition text_map_insert {T} (key : string) (data : T) (d : text_map T) : text_map T := bt_insert key data d.
(** text_map.rs:101-103, text_map_list.rs:62-64 *)
Definition text_map_get {T} (key : string) (d : text_map T) : option T := bt_get key d.
(** text_map.rs:107-109 (text_map_list.rs has no removal) *)
Definition text_map_remove {T} (key : string) (d : text_map T) : text_map T := bt_remove key d.

Notation update_text_map T := (update (string * T) string (text_map T)).

(** text_map.rs:70-82 *)
Fixpoint text_map_rest {T} (new : text_map T) (iter : list (update_text_map T)) : text_map T :=
  match iter with
  | [] => new
  | Add (a, b) :: r => text_map_rest (text_map_insert a b new) r
  | Remove a :: r => text_map_rest (text_map_remove a new) r
  | Replace v :: r => text_map_rest v r
  end.
(** text_map.rs:54-84 *)
Definition text_map_apply {T} (dataset : text_map T) (updates : list (update_text_map T)) : outcome (text_map T) :=
  match updates with
  | [] => Panic
  | first :: iter =>
      let new := match first with
                 | Replace v => v
                 | Add (a, b) => text_map_insert a b dataset
                 | Remove a => text_map_remove a dataset
                 end in
      Val (text_map_rest new iter)
  end.

(** * Text sets: text_set.rs:55-57, 60-62, 63-68, 69-71 *)
Definition text_set_new : bset string := bt_empty.
Definition text_set_insert (val : string) (d : bset string) : bset string := bset_add val d.
Definition text_set_contains (val : string) (d : bset string) : bool := bset_mem val d.

(** * Correlation rules.  [R] is the type of rules and [name] the name of a rule. *)
Section Rules.
  Context {R : Type} (name : R -> string).
  (** rules.rs:93-95 *)
  Definition rules_ds := bt string R.
  (** rules.rs:98-100 *)
  Definition rules_new : rules_ds := bt_empty.
  (** rules.rs:101-103 *)
  Definition rules_insert (rule : R) (d : rules_ds) : rules_ds := bt_insert (name rule) rule d.
  (** rules.rs:104-106 *)
  Definition rules_get (id : string) (d : rules_ds) : option R := bt_get id d.
  (** rules.rs:107-109 *)
  Definition rules_remove (id : string) (d : rules_ds) : rules_ds := bt_remove id d.

  Notation update_rules := (update R string rules_ds).

  (** rules.rs:76-88 *)
  Fixpoint rules_rest (new : rules_ds) (iter : list update_rules) : rules_ds :=
    match iter with
    | [] => new
    | Add a :: r => rules_rest (rules_insert a new) r
    | Remove v :: r => rules_rest (rules_remove v new) r
    | Replace v :: r => rules_rest v r
    end.
  (** rules.rs:60-90 *)
  Definition rules_apply (dataset : rules_ds) (updates : list update_rules) : outcome rules_ds :=
    match updates with
    | [] => Panic
    | first :: iter =>
        let new := match first with
                   | Add a => rules_insert a dataset
                   | Remove v => rules_remove v dataset
                   | Replace v => v
                   end in
        Val (rules_rest new iter)
    end.

  (** rules.rs:112-118: only an [Add] can come back *)
  Definition extract_rule (u : update_rules) : outcome R :=
    match u with Add r => Val r | Remove _ => Panic | Replace _ => Panic end.

  (** rules.rs:45-55 *)
  Definition try_insert (c : chan update_rules) (rule : R) : outcome (chan update_rules * result unit R) :=
    match try_send c (Add rule) with
    | (c', Ok _) => Val (c', Ok tt)
    | (c', Err (Full r)) => let! r := extract_rule r in Val (c', Err r)
    | (c', Err (Disconnected r)) => let! r := extract_rule r in Val (c', Err r)
    end.

  (** rules.rs:28-44.  [env] gives, for every turn of the loop, how many messages the dataset owner takes before the
      attempt and whether the deadline has passed after it; the loop runs at most as long as [env] says. *)
  Fixpoint insert_timeout (c : chan update_rules) (rule : R) (env : list (nat * bool))
      : outcome (chan update_rules * list update_rules * result unit R) :=
    match env with
    | [] => OutOfFuel
    | (taken, late) :: env' =>
        let got := firstn taken (queue c) in
        let c1 := Chan (cap c) (skipn taken (queue c)) (alive c) in
        match try_send c1 (Add rule) with
        | (c2, Ok _) => Val (c2, got, Ok tt)
        | (c2, Err (Full r)) | (c2, Err (Disconnected r)) =>
            let! rule := extract_rule r in
            if late then Val (c2, got, Err rule)
            else let! x := insert_timeout c2 rule env' in let '(c3, got', res) := x in Val (c3, got ++ got', res)
        end
    end.

  (** rules.rs:25-27: [let _ = self.comm.send(..)] *)
  Definition rules_syn_insert (c : chan update_rules) (rule : R) : option (chan update_rules) :=
    match send c (Add rule) with Some (c', _) => Some c' | None => None end.
End Rules.

(** * Shared snapshots.  A synchronised dataset holds an [Arc] to an immutable dataset; the heap maps an [Arc] to its
    dataset.  [apply_updates] never writes through the [Arc]: it clones, changes the clone and allocates a new one
    ([Self::new(Arc::new(new), self.comm.clone())], ip_set.rs:78 and the same line of the other files).
    [comm] stands for the identity of the channel. *)
Record syn := Syn { arc : nat; comm : nat }.

Definition syn_apply {D U} (apply : D -> list U -> outcome D) (heap : list D) (self : syn) (updates : list U)
    : outcome (list D * syn) :=
  match nth_error heap (arc self) with
  | None => Panic
  | Some dataset =>
      let! new := apply dataset updates in
      Val (heap ++ [new], Syn (length heap) (comm self))
  end.
