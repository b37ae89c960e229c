(** The records of the GeoIP datasets and how the on-disk dataset (feature slow_geoip) stores them:
    src/components/dataset/geo_ip/mod.rs and geo_ip/slow.rs. *)
From Coq Require Import String NArith ZArith List Bool Floats.SpecFloat.
From Verif Require Import Base.Outcome Model.Field Model.Ip Model.Datasets Model.NetDataset Model.Json.
Import ListNotations.
Local Open Scope string_scope.

(** Rust's [f32]: IEEE 754, 24 bits *)
Definition f32 := spec_float.

(** geo_ip/mod.rs:12-21 *)
Record geo_info := GeoInfo { country : string; country_iso : string; city : string; latitude : f32; longitude : f32; isp : string; asn : N }.

(** What serde_json's writer makes of an [f32]: the shortest decimal text that tells it from its neighbours, here the
    double nearest to that decimal. A parameter, like [float_io]. *)
Definition f32_text := f32 -> f64.

(** [serialize_f32] of serde_json *)
Definition json_of_f32 (t : f32_text) (f : f32) : json := if is_finite f then JFloat (t f) else JNull.
(** [d as f32] *)
Definition to_f32 (d : f64) : f32 := match d with S754_finite s m e => binary_round 24 128 s m e | _ => d end.
(** [z as f32] *)
Definition int_as_f32 (z : Z) : f32 := binary_normalize 24 128 z 0 false.
(** serde's [Deserialize for f32] from a JSON value *)
Definition read_f32 (io : float_io) (j : json) : option f32 :=
  match j with
  | JFloat d => let? d := reread io d in Some (to_f32 d)
  | JInt z => if (- 2 ^ 63 <=? z)%Z && (z <? 2 ^ 64)%Z then Some (int_as_f32 z) else let? d := big_int io z in Some (to_f32 d)
  | _ => None
  end.

(** geo_ip/mod.rs:12 [derive(Serialize)] *)
Definition json_of_geo_info (t : f32_text) (g : geo_info) : json :=
  JObj [("country", JStr (country g)); ("country_iso", JStr (country_iso g)); ("city", JStr (city g));
        ("latitude", json_of_f32 t (latitude g)); ("longitude", json_of_f32 t (longitude g)); ("isp", JStr (isp g));
        ("asn", json_of_n (asn g))].
(** geo_ip/mod.rs:12 [derive(Deserialize)] *)
Definition geo_info_of_json (io : float_io) (j : json) : option geo_info :=
  match struct_fields ["country"; "country_iso"; "city"; "latitude"; "longitude"; "isp"; "asn"] j with
  | Some [a; b; c; d; e; f; g] =>
      let? a := req read_str a in let? b := req read_str b in let? c := req read_str c in
      let? d := req (read_f32 io) d in let? e := req (read_f32 io) e in let? f := req read_str f in
      let? g := req (read_uint 32) g in
      Some (GeoInfo a b c d e f g)
  | _ => None
  end.

(** slow.rs:64-66 with geo_ip/mod.rs:22-27: the record is stored as JSON; writing it to a text cannot fail *)
Definition geo_insert (t : f32_text) (ip : siem_ip) (net : N) (data : geo_info) (tr : tree json) : outcome (tree json) :=
  slow_insert ip net (json_of_geo_info t data) tr.
(** slow.rs:90-112 with geo_ip/mod.rs:28-34: [from_slice(..).unwrap()] aborts when the stored JSON is not a record *)
Definition geo_get (io : float_io) (ip : siem_ip) (tr : tree json) : outcome (option geo_info) :=
  let! r := slow_get ip tr in
  match r with
  | None => Val None
  | Some j => match geo_info_of_json io j with Some g => Val (Some g) | None => Panic end
  end.
