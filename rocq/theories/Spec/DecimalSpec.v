(** The number an [f64] stands for. *)
From Coq Require Import ZArith QArith List Floats.SpecFloat.
Local Open Scope Q_scope.

Definition value (x : spec_float) (v : Q) : Prop :=
  match x with
  | S754_zero _ => v == 0
  | S754_finite s m e => v == inject_Z (if s then Zneg m else Zpos m) * 2 ^ e
  | _ => False
  end.
Definition qsum (l : list Q) : Q := fold_right Qplus 0 l.
Definition close (a b bound : Q) : Prop := - bound <= a - b <= bound.
