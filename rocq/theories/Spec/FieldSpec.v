(** What field values denote, independently of the conversion functions. *)
From Coq Require Import String NArith ZArith List Floats.SpecFloat.
From Verif Require Import Model.Ip Model.Field.
Import ListNotations.
Local Open Scope string_scope.

(** A textual field and its text. *)
Inductive textual : field -> string -> Prop :=
| textual_text s : textual (Text s) s
| textual_domain s : textual (Domain s) s
| textual_user s : textual (User s) s
| textual_asset s : textual (AssetID s) s.

Definition substring_of (p s : string) : Prop := exists a b, s = a ++ p ++ b.

(** An integer-valued field and its number. *)
Inductive integer_field : field -> Z -> Prop :=
| int_u64 n : integer_field (U64 n) (Z.of_N n)
| int_i64 z : integer_field (I64 z) z
| int_date z : integer_field (Date z) z.

(** The float [x] is exactly the integer [z]. *)
Definition float_is (x : spec_float) (z : Z) : Prop :=
  match x with
  | S754_zero _ => z = 0%Z
  | S754_finite s m e =>
      let v := if s then Z.neg m else Z.pos m in
      ((0 <= e)%Z /\ z = (v * 2 ^ e)%Z) \/ ((e < 0)%Z /\ (z * 2 ^ (- e))%Z = v)
  | _ => False
  end.

(** [z] is the float [x] with its fraction dropped: |z| <= |x| < |z| + 1 and the signs do not oppose. *)
Definition truncates (x : spec_float) (z : Z) : Prop :=
  match x with
  | S754_zero _ => z = 0%Z
  | S754_finite s m e =>
      (if s then (z <= 0)%Z else (0 <= z)%Z) /\
      ((0 <= e)%Z /\ Z.abs z = (Z.pos m * 2 ^ e)%Z \/
       (e < 0)%Z /\ (Z.abs z * 2 ^ (- e) <= Z.pos m < (Z.abs z + 1) * 2 ^ (- e))%Z)
  | _ => False
  end.

(** The whole numbers an [f64] can hold in its 53-bit mantissa (the exponent is bounded by the format). *)
Definition double (r : Z) : Prop := exists m e, (Z.abs m < 2 ^ 53)%Z /\ (0 <= e <= 971)%Z /\ r = (m * 2 ^ e)%Z.
(** [r] is the double nearest to [z]; of two equally near ones it is the one with the even mantissa. *)
Definition nearest_double (z r : Z) : Prop :=
  double r /\
  (forall y, double y -> (Z.abs (r - z) <= Z.abs (y - z))%Z) /\
  (forall y, double y -> y <> r -> Z.abs (y - z) = Z.abs (r - z) ->
     exists m e, (0 <= e)%Z /\ Z.even m = true /\ r = (m * 2 ^ e)%Z /\ Z.abs (y - r) = (2 ^ e)%Z).

(** [r] is [z] brought into the range from [lo] to [hi]. *)
Definition saturates (lo hi z r : Z) : Prop :=
  ((lo <= z <= hi)%Z -> r = z) /\ ((z < lo)%Z -> r = lo) /\ ((hi < z)%Z -> r = hi).
(** The 64-bit pattern of [r] is that of [z]. *)
Definition same_bits (z r : Z) : Prop := exists k, r = (z + k * 2 ^ 64)%Z.
