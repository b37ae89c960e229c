(** What a correlation rule says about a log, independently of how it is evaluated. *)
From Coq Require Import String List.
From Verif Require Import Base.BTree Model.Field Model.Log Model.Rule.
Import ListNotations.

(** A condition holds of the value of its field ([None]: the log has no such field). [leaf o v]: the test [o] on a value
    (equality, prefix, comparison, ...), whatever it is. *)
Fixpoint holds (leaf : rule_op -> field -> Prop) (f : option field) (o : rule_op) : Prop :=
  match o with
  | OExists b => b = true <-> f <> None
  | OIsNull b => b = true <-> f = None
  | ONot o => ~ holds leaf f o
  | OAll l => (fix go l := match l with [] => True | o :: r => holds leaf f o /\ go r end) l
  | OAny l => (fix go l := match l with [] => False | o :: r => holds leaf f o \/ go r end) l
  | o => match f with Some v => leaf o v | None => False end
  end.

Definition cond_holds leaf (l : log) (c : rule_cond) : Prop := holds leaf (log_field (rc_field c) l) (rc_op c).
Definition subrule_holds leaf (l : log) (s : subrule) : Prop := forall c, In c (sr_conditions s) -> cond_holds leaf l c.
(** Every condition of every subrule *)
Definition rule_holds leaf (l : log) (r : siem_rule) : Prop :=
  forall name s, In (name, s) (ru_subrules r) -> subrule_holds leaf l s.

(** A rule's list of triggers: some group of subrules, all of which hold *)
Definition triggered leaf (l : log) (r : siem_rule) : Prop :=
  exists group, In group (ru_conditions r) /\
    forall name, In name group -> exists s, In (name, s) (ru_subrules r) /\ subrule_holds leaf l s.

(** Operators that combine others / that only ask for presence *)
Definition compound (o : rule_op) : Prop :=
  match o with OAll _ | OAny _ | ONot _ => True | _ => False end.
Definition presence (o : rule_op) : Prop :=
  match o with OExists _ | OIsNull _ => True | _ => False end.
(** All the conditions of a rule, in the order of the names of its subrules *)
Definition all_conditions (r : siem_rule) : list rule_cond := flat_map (fun p => sr_conditions (snd p)) (ru_subrules r).

(** The meaning of the operators a Sigma condition translates to, on a text value [s]. *)
Fixpoint op_text (P : printers) (o : rule_op) (s : string) : Prop :=
  match o with
  | OAll l => (fix go l := match l with [] => True | o :: r => op_text P o s /\ go r end) l
  | OAny l => (fix go l := match l with [] => False | o :: r => op_text P o s \/ go r end) l
  | OEquals f => s = display P f
  | OStartsWith x => exists b, s = append x b
  | OEndsWith x => exists a, s = append a x
  | OContains x => exists a b, s = append a (append x b)
  | _ => False
  end.

(** Operators that embed no field value *)
Fixpoint field_free (o : rule_op) : Prop :=
  match o with
  | OEquals _ | OGT _ | OLT _ | OGTE _ | OLTE _ => False
  | ONot o | OB64 o => field_free o
  | OAll l | OAny l => (fix go l := match l with [] => True | o :: r => field_free o /\ go r end) l
  | _ => True
  end.
