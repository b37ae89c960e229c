(** Model of src/events/field.rs *)
From Coq Require Import String Ascii NArith ZArith List Bool Floats.SpecFloat.
From Verif Require Import Base.Str Base.Outcome Model.IpUtils Model.Ip.
Import ListNotations.
Local Open Scope string_scope.
Local Open Scope N_scope.

(** An [f64]: Coq's [spec_float] (zero, infinity, NaN, or sign * mantissa * 2^exponent). *)
Definition f64 := spec_float.

(** field.rs:13-44. A path is kept as its text. *)
Inductive field :=
| Null
| Text (s : string)
| IP (ip : siem_ip)
| Domain (s : string)
| User (s : string)
| AssetID (s : string)
| U64 (n : N)
| I64 (z : Z)
| F64 (f : f64)
| Date (millis : Z)
| Array (l : list string)
| Path (p : string).

(** The values the Rust types can hold. *)
Definition u64_ok (n : N) : Prop := n < 2 ^ 64.
Definition i64_ok (z : Z) : Prop := (- 2 ^ 63 <= z < 2 ^ 63)%Z.
Definition field_ok (f : field) : Prop :=
  match f with
  | IP ip => ip_ok ip | U64 n => u64_ok n | I64 z => i64_ok z | Date z => i64_ok z | _ => True
  end.

(** What the code takes from std / chrono: the text of an [f64] and the RFC 3339 text of a timestamp. *)
Record printers := { f64_str : f64 -> string; date_str : Z -> string }.

(** field.rs:49-51 *)
Definition generate_user_id (user_name user_domain : string) : string := user_domain ++ "|" ++ user_name.

(** [v.join(",")] *)
Definition join_comma (l : list string) : string := join "," l.

(** field.rs:53-76 [Display] *)
Definition display (P : printers) (f : field) : string :=
  match f with
  | Text s => s
  | IP ip => ip_to_string ip
  | Domain s => s
  | User s => s
  | AssetID s => s
  | U64 n => dec n
  | I64 z => dec_z z
  | F64 x => f64_str P x
  | Date z => date_str P z
  | Array l => "[" ++ join_comma l ++ "]"
  | Null | Path _ => ""
  end.

(** field.rs:78-111 [PartialEq] *)
Definition field_eqb (P : printers) (self other : field) : bool :=
  match self with
  | Domain v | User v | AssetID v =>
      match other with
      | Text txt => String.eqb v txt
      | IP ip => String.eqb v (ip_to_string ip)
      | User txt => String.eqb v txt
      | Domain txt => String.eqb v txt
      | AssetID txt => String.eqb v txt
      | _ => false
      end
  | Text txt =>
      match other with
      | Domain v | User v | AssetID v => String.eqb v txt
      | IP ip => String.eqb txt (ip_to_string ip)
      | _ => String.eqb txt (display P other)
      end
  | IP ip =>
      match other with
      | Domain v | User v | AssetID v => String.eqb v (ip_to_string ip)
      | Text txt => String.eqb (ip_to_string ip) txt
      | IP ip2 => ip_eqb ip ip2
      | _ => false
      end
  | _ =>
      match other with
      | Domain _ | User _ | AssetID _ => false
      | Text txt => String.eqb (display P other) txt
      | IP _ => false
      | _ => String.eqb (display P self) (display P other)
      end
  end.

(** [v as u64] / [v as i64] on integers: two's complement *)
Definition wrap_u64 (z : Z) : N := Z.to_N (z mod 2 ^ 64)%Z.
Definition wrap_i64 (z : Z) : Z := ((z + 2 ^ 63) mod 2 ^ 64 - 2 ^ 63)%Z.

(** Truncation towards zero of the magnitude [m * 2^e]. *)
Definition trunc_mag (m : positive) (e : Z) : Z :=
  if (0 <=? e)%Z then (Zpos m * 2 ^ e)%Z else (Zpos m / 2 ^ (- e))%Z.
(** [v as u64], [v as i64] on floats: truncation, saturating; NaN gives 0. *)
Definition f64_as_u64 (x : f64) : N :=
  match x with
  | S754_zero _ | S754_nan => 0
  | S754_infinity s => if s then 0 else 2 ^ 64 - 1
  | S754_finite s m e => if s then 0 else Z.to_N (Z.min (trunc_mag m e) (2 ^ 64 - 1))
  end.
Definition f64_as_i64 (x : f64) : Z :=
  match x with
  | S754_zero _ | S754_nan => 0%Z
  | S754_infinity s => if s then (- 2 ^ 63)%Z else (2 ^ 63 - 1)%Z
  | S754_finite s m e => if s then Z.max (- trunc_mag m e) (- 2 ^ 63) else Z.min (trunc_mag m e) (2 ^ 63 - 1)
  end.
(** [v as f64] on integers: rounding to nearest, ties to even *)
Definition int_as_f64 (z : Z) : f64 := binary_normalize 53 1024 z 0 false.

(** Bytes fed to a hasher: an integer of [k] bytes, little endian; a str is its bytes then 0xff. *)
Fixpoint le_bytes (k : nat) (n : N) : list N :=
  match k with O => [] | S k => n mod 256 :: le_bytes k (n / 256) end.
Definition str_bytes (s : string) : list N := map N_of_ascii (list_ascii_of_string s).
Definition hash_str (s : string) : list N := str_bytes s ++ [255].
(** ip.rs:147-154 *)
Definition hash_ip (ip : siem_ip) : list N :=
  match ip with V4 n => le_bytes 4 n | V6 n => le_bytes 16 n end.
(** field.rs:113-129 *)
Definition hash_field (f : field) : list N :=
  match f with
  | Text s => hash_str s
  | IP ip => hash_ip ip
  | Domain s => hash_str s
  | User s => hash_str s
  | AssetID s => hash_str s
  | U64 n => le_bytes 8 n
  | I64 z => le_bytes 8 (wrap_u64 z)
  | F64 x => le_bytes 8 (f64_as_u64 x)
  | Date z => le_bytes 8 (wrap_u64 z)
  | Array l => le_bytes 8 (N.of_nat (length l)) ++ concat (map hash_str l)
  | Null | Path _ => []
  end.

(** field.rs:196-208 [TryInto<&str>] *)
Definition to_str (f : field) : result string string :=
  match f with
  | Text v => Ok v | Domain v => Ok v | User v => Ok v | AssetID v => Ok v
  | _ => Err "Invalid text type"
  end.

(** field.rs:139-151 *)
Definition eq_ignore_ascii_case (self other : field) : bool :=
  match to_str self with
  | Err _ => false
  | Ok self_txt =>
      match other with
      | Text v => eq_ignore_case v self_txt
      | User v => eq_ignore_case v self_txt
      | Domain v => eq_ignore_case v self_txt
      | AssetID v => eq_ignore_case v self_txt
      | _ => false
      end
  end.
(** field.rs:152-158 *)
Definition eq_ignore_ascii_case_str (self : field) (other : string) : bool :=
  match to_str self with Err _ => false | Ok self_txt => eq_ignore_case other self_txt end.

(** field.rs:159-167 *)
Definition contains_str (self : field) (txt : string) : bool :=
  match self with
  | Text v => str_contains txt v
  | User v => str_contains txt v
  | Domain v => str_contains txt v
  | AssetID v => str_contains v v
  | _ => false
  end.
(** field.rs:168-176 *)
Definition contains (self other : field) : bool :=
  match other with
  | Text v => contains_str self v
  | User v => contains_str self v
  | Domain v => contains_str self v
  | AssetID v => contains_str self v
  | _ => false
  end.
(** field.rs:177-187 *)
Definition is_text (f : field) : bool :=
  match f with Array _ | Text _ | User _ | Path _ | AssetID _ | Domain _ => true | _ => false end.
(** field.rs:188-193 *)
Definition is_numeric (f : field) : bool := match f with U64 _ | I64 _ | F64 _ => true | _ => false end.

(** field.rs:210-222 [TryInto<LogString>] *)
Definition to_logstring (f : field) : result string string :=
  match f with
  | Text v => Ok v | Domain v => Ok v | User v => Ok v | AssetID v => Ok v
  | _ => Err "Invalid type"
  end.
(** field.rs:223-232 [TryInto<&LogString>] *)
Definition to_logstring_ref (f : field) : result string string :=
  match f with Text v => Ok v | _ => Err "Invalid type" end.
(** field.rs:234-243 [TryInto<&Vec<LogString>>] *)
Definition to_array_ref (f : field) : result (list string) string :=
  match f with Array v => Ok v | _ => Err "Invalid type" end.
(** field.rs:245-265 [TryInto<Vec<LogString>>] *)
Definition to_array (P : printers) (f : field) : result (list string) string :=
  match f with
  | Array v => Ok v
  | AssetID v => Ok [v]
  | Text v => Ok [v]
  | Domain v => Ok [v]
  | User v => Ok [v]
  | I64 v => Ok [dec_z v]
  | F64 v => Ok [f64_str P v]
  | U64 v => Ok [dec v]
  | Date v => Ok [dec_z v]
  | IP v => Ok [ip_to_string v]
  | Null => Ok [""]
  | Path v => Ok [v]
  end.
(** field.rs:267-279 [TryInto<u64>] *)
Definition to_u64 (f : field) : result N string :=
  match f with
  | F64 v => Ok (f64_as_u64 v)
  | I64 v => Ok (wrap_u64 v)
  | U64 v => Ok v
  | Date v => Ok (wrap_u64 v)
  | _ => Err "Invalid type"
  end.
(** field.rs:280-292 [TryInto<i64>] *)
Definition to_i64 (f : field) : result Z string :=
  match f with
  | F64 v => Ok (f64_as_i64 v)
  | I64 v => Ok v
  | U64 v => Ok (wrap_i64 (Z.of_N v))
  | Date v => Ok v
  | _ => Err "Invalid type"
  end.
(** field.rs:293-305 [TryInto<f64>] *)
Definition to_f64 (f : field) : result f64 string :=
  match f with
  | F64 v => Ok v
  | I64 v => Ok (int_as_f64 v)
  | U64 v => Ok (int_as_f64 (Z.of_N v))
  | Date v => Ok (int_as_f64 v)
  | _ => Err "Invalid type"
  end.
(** field.rs:307-316 [TryInto<SiemIp>] *)
Definition to_ip (f : field) : outcome (result siem_ip string) :=
  match f with
  | Text v => let! r := from_ip_str v in Val (match r with Ok x => Ok x | Err _ => Err "Invalud ip format" end)
  | IP v => Val (Ok v)
  | _ => Val (Err "Type cannot be converted to Ip")
  end.
(** field.rs:132-137, 318-390: the [From] conversions are the constructors [Text], [U64], [I64], [F64], [IP], [Array]. *)
