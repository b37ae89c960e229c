(** Specifications for the datasets: histories, networks, channels. *)
From Coq Require Import NArith ZArith List.
From Verif Require Import Model.Ip.
Import ListNotations.

(** A history of a keyed dataset. *)
Inductive op (K V : Type) := Ins (k : K) (v : V) | Del (k : K).
Arguments Ins {K V} _ _.
Arguments Del {K V} _.

Definition op_key {K V} (o : op K V) : K := match o with Ins k _ => k | Del k => k end.

(** [k] was last inserted with value [v] and not removed since.  [same] says which keys denote the same entry. *)
Definition lives {K V} (same : K -> K -> Prop) (history : list (op K V)) (k : K) (v : V) : Prop :=
  exists before k' after,
    history = before ++ Ins k' v :: after /\ same k' k /\
    Forall (fun o => ~ same (op_key o) k) after.

(** The address [a] of [w] bits is in the network [base]/[len]: they agree on the [len] leading bits. *)
Definition in_network (w a base len : N) : Prop :=
  (len <= w /\ a / 2 ^ (w - len) = base / 2 ^ (w - len))%N.

(** What the batch [updates] makes of a dataset when its updates are applied one by one, in order. *)
Inductive one_by_one {U D} (step : D -> U -> D -> Prop) : D -> list U -> D -> Prop :=
| obo_nil d : one_by_one step d [] d
| obo_cons d u d1 us d2 : step d u d1 -> one_by_one step d1 us d2 -> one_by_one step d (u :: us) d2.

(** [b] is [a] without some of its elements. *)
Inductive subseq {A} : list A -> list A -> Prop :=
| sub_nil : subseq [] []
| sub_keep x a b : subseq a b -> subseq (x :: a) (x :: b)
| sub_drop x a b : subseq a b -> subseq a (x :: b).

(** ** Networks *)
Local Open Scope N_scope.
Definition width (ip : siem_ip) : N := match ip with V4 _ => 32 | V6 _ => 128 end.
Definition bits (ip : siem_ip) : N := match ip with V4 x => x | V6 x => x end.
Definition same_family (a b : siem_ip) : Prop := width a = width b.

(** [a] is in the network [base]/[len] (of its own family). *)
Definition contains (base : siem_ip) (len : N) (a : siem_ip) : Prop :=
  same_family base a /\ in_network (width a) (bits a) (bits base) len.

(** Two ways of writing the same network. *)
Definition same_net (p q : siem_ip * N) : Prop :=
  snd p = snd q /\ contains (fst p) (snd p) (fst q).


(** The networks start at the same address, whatever their lengths. *)
Definition same_start (w : N) (p q : N * N) : Prop :=
  fst p / 2 ^ (w - snd p) * 2 ^ (w - snd p) = fst q / 2 ^ (w - snd q) * 2 ^ (w - snd q).
