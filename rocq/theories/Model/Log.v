(** Model of src/events/log.rs and src/events/ifield.rs *)
From Coq Require Import String Ascii NArith ZArith List Bool.
From Verif Require Import Base.Ord Base.BTree Base.Str Base.Outcome Model.Ip Model.Field.
Import ListNotations.
Local Open Scope string_scope.

(** ifield.rs:5-11 [PreStoredField] *)
Inductive cache (T : Type) := CInvalid | CNone | CSome (v : T).
Arguments CInvalid {T}. Arguments CNone {T}. Arguments CSome {T} v.

(** ifield.rs:13-28 [InternalField] *)
Record ifield := mkI {
  original : field;
  c_array : cache (list string);
  c_text : cache string;
  c_u64 : cache N;
  c_i64 : cache Z;
  c_f64 : cache f64;
  c_ip : cache siem_ip }.

(** ifield.rs:30-56 [From<SiemField>] *)
Definition ifield_of (v : field) : ifield :=
  {| original := v; c_array := CNone; c_text := CNone;
     c_u64 := match v with U64 n => CSome n | _ => CNone end;
     c_i64 := match v with I64 z => CSome z | Date z => CSome z | _ => CNone end;
     c_f64 := match v with F64 x => CSome x | _ => CNone end;
     c_ip := match v with IP a => CSome a | _ => CNone end |}.

(** log.rs:14-24 *)
Record log := mkLog { l_tags : bset string; l_fields : bt string ifield; l_ip_fields : bset string }.

(** [self.fields.insert(name, value.into())] *)
Definition put (name : string) (v : field) (l : log) : log :=
  mkLog (l_tags l) (bt_insert name (ifield_of v) (l_fields l)) (l_ip_fields l).

(** log.rs:26-52 *)
Definition log_new (message : string) (received : Z) (origin : string) : log :=
  let l := mkLog [] [] [] in
  let l := put "message" (Text message) l in
  let l := put "origin" (Text origin) l in
  let l := put "event.created" (Date received) l in
  put "event.received" (Date received) l.

(** log.rs:201-203 *)
Definition log_field (name : string) (l : log) : option field :=
  option_map original (bt_get name (l_fields l)).

(** The text getters: log.rs:54-59 (message), 66-71 (origin), 76-81 (tenant), 92-97 (product), 109-114 (service),
    127-132 (category), 144-151 (vendor) all read a [Text] field or give "". *)
Definition get_text (name : string) (l : log) : string :=
  match log_field name l with Some (Text v) => v | _ => "" end.
Definition log_message := get_text "message".
Definition log_origin := get_text "origin".
Definition log_tenant := get_text "tenant".
Definition log_product := get_text "product".
Definition log_service := get_text "service".
Definition log_category := get_text "category".
Definition log_vendor := get_text "vendor".
(** The text setters: log.rs:60-65, 72-75, 82-90, 98-107, 116-125, 133-142, 152-161 *)
Definition set_text (name s : string) (l : log) : log := put name (Text s) l.
Definition set_message := set_text "message".
Definition set_origin := set_text "origin".
Definition set_tenant := set_text "tenant".
Definition set_product := set_text "product".
Definition set_service := set_text "service".
Definition set_category := set_text "category".
Definition set_vendor := set_text "vendor".

(** log.rs:163-168 *)
Definition event_received (l : log) : Z :=
  match log_field "event.received" l with Some (Date v) => v | _ => 0%Z end.
(** log.rs:170-175 *)
Definition event_created (l : log) : Z :=
  match log_field "event.created" l with Some (Date v) => v | _ => 0%Z end.
(** log.rs:176-181: stores an [I64] *)
Definition set_event_created (date : Z) (l : log) : log := put "event.created" (I64 date) l.

(** log.rs:182-184 *)
Definition has_tag (tag : string) (l : log) : bool := bset_mem tag (l_tags l).
(** log.rs:185-197. [to_lowercase] is modelled on ASCII letters. *)
Definition add_tag (tag : string) (l : log) : log :=
  let tags := bset_add (to_lower tag) (l_tags l) in
  mkLog tags
    (bt_insert "tags" (ifield_of (Array (map to_lower (bset_elems tags)))) (l_fields l))
    (l_ip_fields l).
(** log.rs:198-200 *)
Definition log_tags (l : log) : list string := bset_elems (l_tags l).

(** log.rs:204-206 [field_mut]: the caller overwrites the original through the returned reference;
    the caches are not touched. *)
Definition field_mut_set (name : string) (v : field) (l : log) : log :=
  match bt_get name (l_fields l) with
  | None => l
  | Some f =>
      mkLog (l_tags l)
        (bt_insert name (mkI v (c_array f) (c_text f) (c_u64 f) (c_i64 f) (c_f64 f) (c_ip f)) (l_fields l))
        (l_ip_fields l)
  end.
(** log.rs:211-216 *)
Definition log_insert (name : string) (v : field) (l : log) : log :=
  let ips := match v with IP _ => bset_add name (l_ip_fields l) | _ => l_ip_fields l end in
  mkLog (l_tags l) (bt_insert name (ifield_of v) (l_fields l)) ips.
(** log.rs:207-210 *)
Definition add_field := log_insert.
(** log.rs:217-219 *)
Definition has_field (name : string) (l : log) : bool := bt_has name (l_fields l).
(** log.rs:220-229, 388-395 [fields], [iter] *)
Definition log_iter (l : log) : list (string * field) := map (fun p => (fst p, original (snd p))) (l_fields l).
(** log.rs:230-234, 396-403 [iter_mut]: the caller rewrites each original; caches are not touched *)
Definition iter_mut_map (g : string -> field -> field) (l : log) : log :=
  mkLog (l_tags l)
    (map (fun p => let f := snd p in
            (fst p, mkI (g (fst p) (original f)) (c_array f) (c_text f) (c_u64 f) (c_i64 f) (c_f64 f) (c_ip f))) (l_fields l))
    (l_ip_fields l).
(** log.rs:404-413 [EventFieldIter::next]: the [?] on a missing field ends the iteration *)
Fixpoint ip_iter (names : list string) (fields : bt string ifield) : list (string * field) :=
  match names with
  | [] => []
  | n :: r => match bt_get n fields with
              | None => []
              | Some f => (n, original f) :: ip_iter r fields
              end
  end.
(** log.rs:235-240 *)
Definition ip_fields (l : log) : list (string * field) := ip_iter (bset_elems (l_ip_fields l)) (l_fields l).

(** The six typed reads share one shape: log.rs:242-259 (i64), 261-278 (f64), 280-297 (u64), 299-316 (ip),
    318-345 (text), 347-374 (array): use the cache if it is set, otherwise convert and store the outcome. *)
Definition cached {T} (get : ifield -> cache T) (set : cache T -> ifield -> ifield)
    (conv : field -> outcome (result T string)) (name : string) (l : log) : outcome (option T * log) :=
  match bt_get name (l_fields l) with
  | None => Val (None, l)
  | Some f =>
      match get f with
      | CInvalid => Val (None, l)
      | CSome v => Val (Some v, l)
      | CNone =>
          let! r := conv (original f) in
          let c := match r with Ok v => CSome v | Err _ => CInvalid end in
          let l' := mkLog (l_tags l) (bt_insert name (set c f) (l_fields l)) (l_ip_fields l) in
          Val (match r with Ok v => Some v | Err _ => None end, l')
      end
  end.
Definition set_i64 c f := mkI (original f) (c_array f) (c_text f) (c_u64 f) c (c_f64 f) (c_ip f).
Definition set_f64 c f := mkI (original f) (c_array f) (c_text f) (c_u64 f) (c_i64 f) c (c_ip f).
Definition set_u64 c f := mkI (original f) (c_array f) (c_text f) c (c_i64 f) (c_f64 f) (c_ip f).
Definition set_ip c f := mkI (original f) (c_array f) (c_text f) (c_u64 f) (c_i64 f) (c_f64 f) c.
Definition set_txt c f := mkI (original f) (c_array f) c (c_u64 f) (c_i64 f) (c_f64 f) (c_ip f).
Definition set_arr c f := mkI (original f) c (c_text f) (c_u64 f) (c_i64 f) (c_f64 f) (c_ip f).
(** log.rs:242-259 *)
Definition i64_field := cached c_i64 set_i64 (fun f => Val (to_i64 f)).
(** log.rs:261-278 *)
Definition f64_field := cached c_f64 set_f64 (fun f => Val (to_f64 f)).
(** log.rs:280-297 *)
Definition u64_field := cached c_u64 set_u64 (fun f => Val (to_u64 f)).
(** log.rs:299-316 *)
Definition ip_field := cached c_ip set_ip to_ip.
(** log.rs:318-345 *)
Definition txt_field := cached c_text set_txt (fun f => Val (to_logstring f)).
(** log.rs:347-374 *)
Definition array_field (P : printers) := cached c_array set_arr (fun f => Val (to_array P f)).
