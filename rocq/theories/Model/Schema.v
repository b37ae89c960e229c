(** Model of src/events/schema.rs *)
From Coq Require Import String List Bool.
From Verif Require Import Base.Ord Base.BTree Model.Log.
Import ListNotations.
Local Open Scope string_scope.

(** schema.rs:123-138 [FieldType] *)
Inductive field_type :=
| FTIp (doc : string) | FTArray (doc : string) | FTText (doc : string) | FTNumeric (doc : string)
| FTDecimal (doc : string) | FTDate (doc : string)
| FTTextOptions (options : bt string string) (doc : string).

(** schema.rs:147-153 *)
Inductive gdpr_method := GStorage | GApiProtected.
(** schema.rs:140-145 *)
Record gdpr := mkGdpr { g_fields : bset string; g_method : gdpr_method }.
(** schema.rs:9-17 *)
Record schema := mkSchema { s_fields : bt string field_type; s_allow_unknown : bool; s_gdpr : option gdpr }.

(** schema.rs:26-68 *)
Definition schema_new : schema :=
  mkSchema (bt_of_list [
    ("origin", FTIp "IP or Hostname of the server that sent the log");
    ("tenant", FTText "Customer name for SOC environments. Ex: Contoso");
    ("product", FTText "Name of the product for wich the log belongs. Ex: ASA");
    ("service", FTText "Subset of the product logs. Like a OS that can have multiple programs running inside generating multiple logs.");
    ("category", FTText "Category of the device: Firewall, web, antivirus");
    ("vendor", FTText "Company that created the product. Ex: Cisco");
    ("event.type", FTText "uSIEM log type: SiemEvent");
    ("tags", FTText "Tags to better describe the event");
    ("message", FTText "Original log message including syslog header");
    ("event_received", FTDate "Timestamp at witch the log arrived  ");
    ("event_created", FTDate "Timestamp at witch the log was generated")]) false None.

(** schema.rs:74-76: the options of the merged-in schema are inserted one by one *)
Definition merge_options (list_val already : bt string string) : bt string string :=
  fold_left (fun m p => bt_insert (fst p) (snd p) m) list_val already.
(** schema.rs:70-86: one iteration of the loop *)
Definition add_element (fields : bt string field_type) (p : string * field_type) : bt string field_type :=
  let '(name, element) := p in
  match element with
  | FTTextOptions list_val _ =>
      match bt_get name fields with
      | Some (FTTextOptions already doc2) => bt_insert name (FTTextOptions (merge_options list_val already) doc2) fields
      | _ => bt_insert name element fields
      end
  | _ => bt_insert name element fields
  end.
(** schema.rs:69-87 *)
Definition add_schema (self other : schema) : schema :=
  mkSchema (fold_left add_element (s_fields other) (s_fields self)) (s_allow_unknown self) (s_gdpr self).
(** schema.rs:88-90 *)
Definition schema_insert (key : string) (v : field_type) (s : schema) : schema :=
  mkSchema (bt_insert key v (s_fields s)) (s_allow_unknown s) (s_gdpr s).
(** schema.rs:91-93 *)
Definition set_gdpr (g : option gdpr) (s : schema) : schema := mkSchema (s_fields s) (s_allow_unknown s) g.
(** schema.rs:94-99 *)
Definition protected_field (field : string) (s : schema) : bool :=
  match s_gdpr s with Some g => bset_mem field (g_fields g) | None => false end.
(** schema.rs:100-102 *)
Definition get_field (field : string) (s : schema) : option field_type := bt_get field (s_fields s).
(** schema.rs:103-109 *)
Definition field_names (s : schema) : list string := bt_keys (s_fields s).
(** schema.rs:111-115 *)
Definition remove_fields (fields : list string) (s : schema) : schema :=
  mkSchema (fold_left (fun m k => bt_remove k m) fields (s_fields s)) (s_allow_unknown s) (s_gdpr s).
(** schema.rs:118-120 *)
Definition apply_schema (s : schema) (l : log) : log :=
  mkLog (l_tags l) (bt_retain (fun k _ => bt_has k (s_fields s)) (l_fields l)) (l_ip_fields l).
