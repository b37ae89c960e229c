(** Results and panics. *)
Inductive result (A E : Type) := Ok (a : A) | Err (e : E).
Arguments Ok {A E} a.
Arguments Err {A E} e.

(** What running a piece of code yields: a value, a panic (index out of bounds, arithmetic
    overflow in a checked build, [unwrap] of nothing, [todo!], [unreachable!]) or, for loops
    modelled with explicit fuel, exhaustion of that fuel. *)
Inductive outcome (A : Type) := Val (a : A) | Panic | OutOfFuel.
Arguments Val {A} a.
Arguments Panic {A}.
Arguments OutOfFuel {A}.

Definition obind {A B} (o : outcome A) (f : A -> outcome B) : outcome B :=
  match o with Val a => f a | Panic => Panic | OutOfFuel => OutOfFuel end.
Notation "'let!' x ':=' o 'in' k" := (obind o (fun x => k))
  (at level 200, x pattern, o at level 100, k at level 200).

Definition is_ok {A E} (r : result A E) : bool := match r with Ok _ => true | Err _ => false end.
