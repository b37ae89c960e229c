(** Histories of operations on a log and what they should amount to. *)
From Coq Require Import String List ZArith Sorted.
From Verif Require Import Base.Str Base.Outcome Model.Ip Model.Field Model.Log.
Import ListNotations.
Local Open Scope string_scope.

(** The text header fields and their names. *)
Inductive header := HMessage | HOrigin | HTenant | HProduct | HService | HCategory | HVendor.
Definition header_name (h : header) : string :=
  match h with HMessage => "message" | HOrigin => "origin" | HTenant => "tenant" | HProduct => "product"
             | HService => "service" | HCategory => "category" | HVendor => "vendor" end.
Definition header_get (h : header) : log -> string :=
  match h with HMessage => log_message | HOrigin => log_origin | HTenant => log_tenant | HProduct => log_product
             | HService => log_service | HCategory => log_category | HVendor => log_vendor end.
Definition header_set (h : header) : string -> log -> log :=
  match h with HMessage => set_message | HOrigin => set_origin | HTenant => set_tenant | HProduct => set_product
             | HService => set_service | HCategory => set_category | HVendor => set_vendor end.

Inductive read_kind := KI64 | KU64 | KF64 | KIp | KText | KArray.
(** The API calls that may follow each other in any order. *)
Inductive op :=
| OInsert (name : string) (v : field)      (* insert / add_field *)
| OHeader (h : header) (s : string)        (* set_message ... set_vendor *)
| OCreated (z : Z)                         (* set_event_created *)
| OTag (t : string)                        (* add_tag *)
| ORead (k : read_kind) (name : string).   (* i64_field ... array_field *)

Definition forget {A} (o : outcome (A * log)) : outcome log := let! p := o in Val (snd p).
Definition step (P : printers) (o : op) (l : log) : outcome log :=
  match o with
  | OInsert n v => Val (log_insert n v l)
  | OHeader h s => Val (header_set h s l)
  | OCreated z => Val (set_event_created z l)
  | OTag t => Val (add_tag t l)
  | ORead KI64 n => forget (i64_field n l)
  | ORead KU64 n => forget (u64_field n l)
  | ORead KF64 n => forget (f64_field n l)
  | ORead KIp n => forget (ip_field n l)
  | ORead KText n => forget (txt_field n l)
  | ORead KArray n => forget (array_field P n l)
  end.
Fixpoint run (P : printers) (h : list op) (l : log) : outcome log :=
  match h with [] => Val l | o :: h => let! l' := step P o l in run P h l' end.

(** The tags a history adds, lower-cased, in order. *)
Fixpoint added_tags (h : list op) : list string :=
  match h with [] => [] | OTag t :: h => to_lower t :: added_tags h | _ :: h => added_tags h end.

(** [lists ts l]: the list [l] is strictly increasing and has exactly the elements of [ts]. *)
Definition lists (ts l : list string) : Prop :=
  StronglySorted (fun a b => String.compare a b = Lt) l /\ forall t, In t l <-> In t ts.

(** [written h n v]: the last operation of [h] that writes the field [n] gives it the value [v]. *)
Inductive written : list op -> string -> field -> Prop :=
| w_insert h n v : written (h ++ [OInsert n v]) n v
| w_header h k s : written (h ++ [OHeader k s]) (header_name k) (Text s)
| w_created h z : written (h ++ [OCreated z]) "event.created" (I64 z)
| w_tag h t l : lists (added_tags (h ++ [OTag t])) l -> written (h ++ [OTag t]) "tags" (Array l)
| w_later h o n v : written h n v ->
    match o with
    | OInsert n' _ => n' <> n
    | OHeader k _ => header_name k <> n
    | OCreated _ => "event.created" <> n
    | OTag _ => "tags" <> n
    | ORead _ _ => True
    end -> written (h ++ [o]) n v.
(** [untouched h n]: no operation of [h] writes the field [n]. *)
Definition untouched (h : list op) (n : string) : Prop :=
  Forall (fun o => match o with
                   | OInsert n' _ => n' <> n
                   | OHeader k _ => header_name k <> n
                   | OCreated _ => "event.created" <> n
                   | OTag _ => "tags" <> n
                   | ORead _ _ => True
                   end) h.
