(** Histories of a log that also edit fields in place and apply schemas. *)
From Coq Require Import String List ZArith Sorted.
From Verif Require Import Base.Str Base.Outcome Model.Ip Model.Field Model.Log Model.Schema Spec.LogSpec.
Import ListNotations.
Local Open Scope string_scope.

Inductive edit :=
| ECall (o : op)                                (* insert, the setters, add_tag, the typed reads *)
| EMut (name : string) (v : field)              (* if let Some(f) = log.field_mut(name) { *f = v } *)
| EMutAll (g : string -> field -> field)        (* for (n, f) in log.iter_mut() { *f = g(n, f) } *)
| ESchema (s : schema).                         (* schema.apply(&mut log) *)
Definition edit_step (P : printers) (e : edit) (l : log) : outcome log :=
  match e with
  | ECall o => step P o l
  | EMut n v => Val (field_mut_set n v l)
  | EMutAll g => Val (iter_mut_map g l)
  | ESchema s => Val (apply_schema s l)
  end.
Fixpoint edits (P : printers) (h : list edit) (l : log) : outcome log :=
  match h with [] => Val l | e :: h => let! l' := edit_step P e l in edits P h l' end.

(** The six typed reads, with one type of answers. *)
Inductive value := AI64 (z : Z) | AU64 (n : N) | AF64 (x : f64) | AIp (a : siem_ip) | AText (s : string) | AArray (l : list string).
Definition answer_with {T} (c : T -> value) (o : outcome (option T * log)) : outcome (option value * log) :=
  let! p := o in Val (option_map c (fst p), snd p).
Definition typed_read (P : printers) (k : read_kind) (n : string) (l : log) : outcome (option value * log) :=
  match k with
  | KI64 => answer_with AI64 (i64_field n l)
  | KU64 => answer_with AU64 (u64_field n l)
  | KF64 => answer_with AF64 (f64_field n l)
  | KIp => answer_with AIp (ip_field n l)
  | KText => answer_with AText (txt_field n l)
  | KArray => answer_with AArray (array_field P n l)
  end.
(** What the field's own conversion gives. *)
Definition ok_of {T} (c : T -> value) (r : result T string) : option value := match r with Ok v => Some (c v) | Err _ => None end.
Inductive converts (P : printers) : read_kind -> field -> option value -> Prop :=
| Cv_i64 f : converts P KI64 f (ok_of AI64 (to_i64 f))
| Cv_u64 f : converts P KU64 f (ok_of AU64 (to_u64 f))
| Cv_f64 f : converts P KF64 f (ok_of AF64 (to_f64 f))
| Cv_ip f r : to_ip f = Val r -> converts P KIp f (ok_of AIp r)
| Cv_text f : converts P KText f (ok_of AText (to_logstring f))
| Cv_array f : converts P KArray f (ok_of AArray (to_array P f)).
Definition converts_now (P : printers) (k : read_kind) (f : option field) (a : option value) : Prop :=
  match f with Some f => converts P k f a | None => a = None end.

(** A step writes the field [n]: it stores a value under that name, or a schema takes the field away. In-place edits are not writes. *)
Definition writes (n : string) (e : edit) : Prop :=
  match e with
  | ECall (OInsert n' _) => n' = n
  | ECall (OHeader k _) => header_name k = n
  | ECall (OCreated _) => "event.created" = n
  | ECall (OTag _) => "tags" = n
  | ECall (ORead _ _) => False
  | EMut _ _ => False
  | EMutAll _ => False
  | ESchema s => get_field n s = None
  end.
Definition unwritten (n : string) (h : list edit) : Prop := Forall (fun e => ~ writes n e) h.
(** Values that are of the kind of the read already. *)
Inductive of_kind : read_kind -> field -> Prop :=
| Ok_u64 x : of_kind KU64 (U64 x)
| Ok_i64 z : of_kind KI64 (I64 z)
| Ok_date z : of_kind KI64 (Date z)
| Ok_f64 x : of_kind KF64 (F64 x)
| Ok_ip a : of_kind KIp (IP a).

(** Which value a typed read of kind [k] of the name [n] answers for after a history, on a log that began as [l0]. *)
Inductive stands (P : printers) (l0 : log) (k : read_kind) (n : string) : list edit -> option value -> Prop :=
(** A value written that is of the kind of the read: that value, whatever is edited in place afterwards. *)
| St_written h w l v a h2 : writes n w -> edits P (h ++ [w]) l0 = Val l -> log_field n l = Some v -> of_kind k v -> converts P k v a ->
    unwritten n h2 -> stands P l0 k n (h ++ w :: h2) a
(** A log that began with such a value and never had it written again. *)
| St_fresh v a h : log_field n l0 = Some v -> of_kind k v -> converts P k v a -> unwritten n h -> stands P l0 k n h a
(** A read: the answer it gave, whatever is edited in place afterwards. *)
| St_read h a h2 : stands P l0 k n h a -> unwritten n h2 -> stands P l0 k n (h ++ ECall (ORead k n) :: h2) a
(** Otherwise, with no read of this kind since the field was written (or since the log is there): the current value. *)
| St_now h w l h2 l' a : writes n w -> edits P (h ++ [w]) l0 = Val l -> (forall v, log_field n l = Some v -> ~ of_kind k v) ->
    unwritten n h2 -> ~ In (ECall (ORead k n)) h2 ->
    edits P (h ++ w :: h2) l0 = Val l' -> converts_now P k (log_field n l') a -> stands P l0 k n (h ++ w :: h2) a
| St_first h l' a : (forall v, log_field n l0 = Some v -> ~ of_kind k v) -> unwritten n h -> ~ In (ECall (ORead k n)) h ->
    edits P h l0 = Val l' -> converts_now P k (log_field n l') a -> stands P l0 k n h a.
