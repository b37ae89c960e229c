(** JSON values and the way serde's derived code and serde_json read and write them.
    Trusted reading of serde 1 and serde_json 1 (not part of /repo): [serde_json::to_string] then
    [serde_json::from_str] gives back the same tree, except that
    - a float that is not finite is written [null] (see [json_of_f64]),
    - a finite float may come back changed, because serde_json's default reader is not exact, and an integer too
      large for 64 bits is read as a float: both conversions are parameters ([float_io]),
    - a text nested more than 127 deep is refused (Model/JsonText.v).
    Object entries keep their order and duplicates. A key with escaped characters is a key like any other here. *)
From Coq Require Import String Ascii NArith ZArith List Bool Floats.SpecFloat.
From Verif Require Import Base.Ord Base.BTree Base.Str Model.Field.
Import ListNotations.
Local Open Scope string_scope.

Inductive json :=
| JNull
| JBool (b : bool)
| JInt (z : Z)
| JFloat (f : f64)
| JStr (s : string)
| JArr (l : list json)
| JObj (l : list (string * json)).

(** What reading a float, or an integer beyond 64 bits, gives: [None] is an error *)
Record float_io := { reread : f64 -> option f64; big_int : Z -> option f64 }.

Notation "'let?' x ':=' e 'in' k" := (match e with Some x => k | None => None end)
  (at level 200, x pattern, e at level 100, k at level 200).

(** * Writing *)

Definition is_finite (f : f64) : bool := match f with S754_zero _ | S754_finite _ _ _ => true | _ => false end.
(** [serialize_f64] of serde_json *)
Definition json_of_f64 (f : f64) : json := if is_finite f then JFloat f else JNull.
Definition json_of_n (n : N) : json := JInt (Z.of_N n).
Definition json_of_option {A} (w : A -> json) (o : option A) : json := match o with Some a => w a | None => JNull end.
Definition json_of_list {A} (w : A -> json) (l : list A) : json := JArr (map w l).
Definition json_of_strings (l : list string) : json := json_of_list JStr l.
(** a map keyed by texts, in the order of its keys *)
Definition json_of_map {A} (w : A -> json) (m : bt string A) : json := JObj (map (fun e => (fst e, w (snd e))) m).
(** an externally tagged variant *)
Definition tagged (tag : string) (payload : json) : json := JObj [(tag, payload)].

(** * Reading. [None] is an error. *)

(** [mapM f l]: every element, or an error *)
Section mapM.
  Context {A B : Type} (f : A -> option B).
  Fixpoint mapM (l : list A) : option (list B) :=
    match l with
    | [] => Some []
    | x :: r => let? y := f x in let? ys := mapM r in Some (y :: ys)
    end.
End mapM.

Definition read_str (j : json) : option string := match j with JStr s => Some s | _ => None end.
Definition read_bool (j : json) : option bool := match j with JBool b => Some b | _ => None end.
(** an unsigned integer of [bits] bits *)
Definition read_uint (bits : Z) (j : json) : option N :=
  match j with JInt z => if (0 <=? z)%Z && (z <? 2 ^ bits)%Z then Some (Z.to_N z) else None | _ => None end.
(** a signed integer of 64 bits *)
Definition read_i64 (j : json) : option Z :=
  match j with JInt z => if (- 2 ^ 63 <=? z)%Z && (z <? 2 ^ 63)%Z then Some z else None | _ => None end.
Definition read_option {A} (r : json -> option A) (j : json) : option (option A) :=
  match j with JNull => Some None | _ => let? a := r j in Some (Some a) end.
Definition read_list {A} (r : json -> option A) (j : json) : option (list A) :=
  match j with JArr l => mapM r l | _ => None end.
(** a map keyed by texts; of two entries with one key the last one counts *)
Definition read_map {A} (r : json -> option A) (j : json) : option (bt string A) :=
  match j with
  | JObj l => let? es := mapM (fun e => let? a := r (snd e) in Some (fst e, a)) l in Some (bt_of_list es)
  | _ => None
  end.
Definition read_pair {A B} (ra : json -> option A) (rb : json -> option B) (j : json) : option (A * B) :=
  match j with JArr [x; y] => let? a := ra x in let? b := rb y in Some (a, b) | _ => None end.

(** the values of the entries with key [k] *)
Definition entries (k : string) (l : list (string * json)) : list json :=
  map snd (filter (fun e => String.eqb (fst e) k) l).
(** a field of a struct: absent, given once, or given twice (an error) *)
Definition once (l : list json) : option (option json) :=
  match l with [] => Some None | [v] => Some (Some v) | _ => None end.
(** A derived struct with the fields [names]: from an object, where unknown keys are ignored, or from an array with
    exactly these fields in order *)
Definition struct_fields (names : list string) (j : json) : option (list (option json)) :=
  match j with
  | JObj l => mapM (fun n => once (entries n l)) names
  | JArr l => if Nat.eqb (length l) (length names) then Some (map Some l) else None
  | _ => None
  end.
(** a field that must be there; a field of type [Option] *)
Definition req {A} (r : json -> option A) (o : option json) : option A := match o with Some j => r j | None => None end.
Definition opt {A} (r : json -> option A) (o : option json) : option (option A) :=
  match o with Some j => read_option r j | None => Some None end.

(** A derived enum, externally tagged: a text, or an object with one entry *)
Definition variant (j : json) : option (string * option json) :=
  match j with
  | JStr s => Some (s, None)
  | JObj [(k, v)] => Some (k, Some v)
  | _ => None
  end.
(** The variants of an enum: how the payload of each is read *)
Definition unit_v {A} (a : A) (p : option json) : option A :=
  match p with None => Some a | Some JNull => Some a | Some _ => None end.
Definition newtype_v {A B} (r : json -> option A) (f : A -> B) (p : option json) : option B :=
  match p with Some j => let? a := r j in Some (f a) | None => None end.
Definition pair_v {A B C} (ra : json -> option A) (rb : json -> option B) (f : A -> B -> C) (p : option json) : option C :=
  match p with Some j => let? ab := read_pair ra rb j in Some (f (fst ab) (snd ab)) | None => None end.
(** a tuple variant without fields *)
Definition empty_v {A} (a : A) (p : option json) : option A :=
  match p with Some (JArr []) => Some a | _ => None end.
Fixpoint pick {A} (tag : string) (l : list (string * A)) : option A :=
  match l with [] => None | (k, a) :: r => if String.eqb k tag then Some a else pick tag r end.
Definition read_enum {A} (variants : list (string * (option json -> option A))) (j : json) : option A :=
  let? kp := variant j in
  let? r := pick (fst kp) variants in
  r (snd kp).
