(** How deeply values are nested, said without the JSON they are written as. *)
From Coq Require Import String NArith List Arith.
From Verif Require Import Model.Field Model.DatasetTypes Model.Rule Model.Sigma Model.Json.
Import ListNotations.

(** a JSON value with at most [n] arrays and objects inside each other *)
Inductive nested : nat -> json -> Prop :=
| n_null n : nested n JNull
| n_bool n b : nested n (JBool b)
| n_int n z : nested n (JInt z)
| n_float n f : nested n (JFloat f)
| n_str n s : nested n (JStr s)
| n_arr n l : Forall (nested n) l -> nested (S n) (JArr l)
| n_obj n l : Forall (fun e => nested n (snd e)) l -> nested (S n) (JObj l).

(** operators inside each other *)
Fixpoint op_nesting (o : rule_op) : nat :=
  match o with
  | OAll l | OAny l => S (list_max (map op_nesting l))
  | ONot o | OB64 o => S (op_nesting o)
  | _ => 0
  end.

(** arrays and objects inside each other in what an operator is written with: a list of operators is an array of objects,
    an operator in another one is an object; of the others, lists of texts, networks and datasets with a name of their own
    are one level, states three *)
Fixpoint op_levels (o : rule_op) : nat :=
  match o with
  | OAll l | OAny l => S (list_max (map (fun o => S (op_levels o)) l))
  | ONot o | OB64 o => S (op_levels o)
  | OEquals (Array _) | OGT (Array _) | OLT (Array _) | OGTE (Array _) | OLTE (Array _) => 1
  | OSameNet _ _ => 1
  | OInDataset (T_CustomMapIpNet _ | T_CustomMapText _ | T_CustomMapTextList _ | T_CustomIpList _ | T_CustomIpMap _
                | T_CustomTextList _ | T_Secrets _) => 1
  | OExistsRuleState [] => 1
  | OExistsRuleState (_ :: _) => 3
  | _ => 0
  end.

(** lists inside each other *)
Fixpoint value_nesting (v : sigma_value) : nat :=
  match v with SArray l => S (list_max (map value_nesting l)) | _ => 0 end.
