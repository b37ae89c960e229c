(** Numbers of 32 bits (IEEE 754 single precision), for C185. Sizes are counted in units of 2^-1074, the smallest number of
    64 bits, so that all of them are whole. *)
From Coq Require Import ZArith Bool Floats.SpecFloat.
Local Open Scope Z_scope.

(** The sizes a number of 32 bits can have: 24 bits of mantissa, exponents from -149 to 104. *)
Definition single (r : Z) : Prop := exists m e, 0 <= m < 2 ^ 24 /\ -149 <= e <= 104 /\ r = m * 2 ^ (e + 1074).
(** [r] is the one nearest to [v]; of two equally near ones it is the one with the even mantissa. *)
Definition nearest_single (v r : Z) : Prop :=
  single r /\
  (forall y, single y -> Z.abs (r - v) <= Z.abs (y - v)) /\
  (forall y, single y -> y <> r -> Z.abs (y - v) = Z.abs (r - v) ->
     exists m e, -149 <= e /\ Z.even m = true /\ r = m * 2 ^ (e + 1074) /\ Z.abs (y - r) = 2 ^ (e + 1074)).
(** Half a step above the largest single: from there on the answer is infinite. *)
Definition too_large (v : Z) : Prop := (2 ^ 25 - 1) * 2 ^ (103 + 1074) <= v.
(** [x] is the number with sign [s] ([true]: negative) and size [v], as 32 bits can tell it. *)
Definition rounded (s : bool) (v : Z) (x : spec_float) : Prop :=
  match x with
  | S754_zero t => t = s /\ nearest_single v 0
  | S754_finite t m e => t = s /\ Z.pos m < 2 ^ 24 /\ -149 <= e <= 104 /\ nearest_single v (Z.pos m * 2 ^ (e + 1074)) /\ ~ too_large v
  | S754_infinity t => t = s /\ too_large v
  | S754_nan => False
  end.
(** What a number of 64 bits becomes as one of 32. *)
Definition narrowed (d x : spec_float) : Prop :=
  match d with
  | S754_finite s m e => rounded s (Z.pos m * 2 ^ (e + 1074)) x
  | _ => x = d
  end.
