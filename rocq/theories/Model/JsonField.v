(** The JSON of addresses, field values and logs: src/events/ip.rs, field.rs, ifield.rs, log.rs *)
From Coq Require Import String Ascii NArith ZArith List Bool.
From Verif Require Import Base.Ord Base.BTree Base.Str Model.Ip Model.Field Model.Log Model.Json.
Import ListNotations.
Local Open Scope string_scope.

(** ip.rs:57-64 [Serialize]: its text *)
Definition json_of_ip (a : siem_ip) : json := JStr (ip_to_string a).
(** ip.rs:12-16 [derive(Deserialize)]: externally tagged *)
Definition ip_of_json (j : json) : option siem_ip :=
  read_enum [("V4", newtype_v (read_uint 32) V4); ("V6", newtype_v (read_uint 128) V6)] j.
(** The same from serde's buffered content, which an untagged or flattened value goes through: 128-bit integers are
    not supported there *)
Definition ip_of_content (j : json) : option siem_ip :=
  read_enum [("V4", newtype_v (read_uint 32) V4); ("V6", fun _ => None)] j.

(** field.rs:10-44 [derive(Serialize)], untagged; ifield.rs:58-76 writes the same *)
Definition json_of_field (f : field) : json :=
  match f with
  | Null => JNull
  | Text s => JStr s
  | IP a => json_of_ip a
  | Domain s => JStr s
  | User s => JStr s
  | AssetID s => JStr s
  | U64 n => json_of_n n
  | I64 z => JInt z
  | F64 x => json_of_f64 x
  | Date z => JInt z
  | Array l => json_of_strings l
  | Path p => JStr p
  end.

(** A number as it arrives in buffered content: an unsigned or signed integer of 64 bits, or a float *)
Inductive number := NUnsigned (n : N) | NSigned (z : Z) | NFloat (f : f64).
Definition read_number (io : float_io) (j : json) : option number :=
  match j with
  | JInt z =>
      if (0 <=? z)%Z && (z <? 2 ^ 64)%Z then Some (NUnsigned (Z.to_N z))
      else if (- 2 ^ 63 <=? z)%Z && (z <? 0)%Z then Some (NSigned z)
      else let? x := big_int io z in Some (NFloat x)
  | JFloat f => let? x := reread io f in Some (NFloat x)
  | _ => None
  end.
(** field.rs:10-44 [derive(Deserialize)], untagged: the first variant that fits, in the order of declaration. A text
    fits [Text], so never [Domain], [User], [AssetID] or [Path]; an integer fits [U64] or [I64], so never [Date]. *)
Definition field_of_json (io : float_io) (j : json) : option field :=
  match j with
  | JNull => Some Null
  | JStr s => Some (Text s)
  | JObj _ => let? a := ip_of_content j in Some (IP a)
  | JInt _ | JFloat _ =>
      let? n := read_number io j in
      match n with NUnsigned n => Some (U64 n) | NSigned z => Some (I64 z) | NFloat x => Some (F64 x) end
  | JArr _ => let? l := read_list read_str j in Some (Array l)
  | JBool _ => None
  end.

(** ifield.rs:13-28 [derive(Deserialize)]: a struct with the field [original]; the other fields are skipped and
    take their default *)
Definition ifield_of_json (io : float_io) (j : json) : option ifield :=
  match struct_fields ["original"] j with
  | Some [o] => let? f := req (field_of_json io) o in Some (mkI f CNone CNone CNone CNone CNone CNone)
  | _ => None
  end.

(** log.rs:13-24 [derive(Serialize)]: the fields flattened, tags and [ip_fields] skipped *)
Definition json_of_log (l : log) : json :=
  json_of_map (fun i => json_of_field (original i)) (l_fields l).
(** log.rs:13-24 [derive(Deserialize)]: every entry is a field; tags and [ip_fields] are empty *)
Definition log_of_json (io : float_io) (j : json) : option log :=
  let? fields := read_map (ifield_of_json io) j in Some (mkLog [] fields []).
