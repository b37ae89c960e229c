(** Total orders used as map keys (Rust's [Ord]). *)
From Coq Require Import String Ascii NArith ZArith List Bool Lia.
Import ListNotations.

Class Ord (K : Type) := {
  cmp : K -> K -> comparison;
  cmp_eq : forall x y, cmp x y = Eq <-> x = y;
  cmp_anti : forall x y, cmp y x = CompOpp (cmp x y);
  cmp_lt_trans : forall x y z, cmp x y = Lt -> cmp y z = Lt -> cmp x z = Lt
}.

Section Ord.
  Context {K : Type} {OK : Ord K}.

  Definition keqb (x y : K) : bool := match cmp x y with Eq => true | _ => false end.
  Definition kltb (x y : K) : bool := match cmp x y with Lt => true | _ => false end.

  Lemma cmp_refl (x : K) : cmp x x = Eq.
  Proof. apply cmp_eq; reflexivity. Qed.

  Lemma keqb_eq (x y : K) : keqb x y = true <-> x = y.
  Proof. unfold keqb. rewrite <- cmp_eq. destruct (cmp x y); split; congruence. Qed.

  Lemma keqb_spec (x y : K) : reflect (x = y) (keqb x y).
  Proof. apply Bool.iff_reflect. symmetry. apply keqb_eq. Qed.

  Lemma keqb_refl (x : K) : keqb x x = true.
  Proof. apply keqb_eq; reflexivity. Qed.

  Lemma keqb_neq (x y : K) : keqb x y = false <-> x <> y.
  Proof. destruct (keqb_spec x y); split; congruence. Qed.

  Lemma ord_eq_dec (x y : K) : {x = y} + {x <> y}.
  Proof. destruct (keqb_spec x y); auto. Qed.

  Lemma cmp_lt_irrefl (x : K) : cmp x x <> Lt.
  Proof. rewrite cmp_refl; discriminate. Qed.

  Lemma cmp_gt_lt (x y : K) : cmp x y = Gt <-> cmp y x = Lt.
  Proof. rewrite (cmp_anti x y). destruct (cmp x y); simpl; split; congruence. Qed.

  Lemma kltb_lt (x y : K) : kltb x y = true <-> cmp x y = Lt.
  Proof. unfold kltb; destruct (cmp x y); split; congruence. Qed.
End Ord.

Lemma ascii_compare_lt_trans (a b c : ascii) :
  Ascii.compare a b = Lt -> Ascii.compare b c = Lt -> Ascii.compare a c = Lt.
Proof.
  unfold Ascii.compare. rewrite !N.compare_lt_iff. lia.
Qed.

Lemma ascii_compare_refl (a : ascii) : Ascii.compare a a = Eq.
Proof. unfold Ascii.compare. apply N.compare_refl. Qed.

Lemma string_compare_refl (s : string) : String.compare s s = Eq.
Proof. induction s as [|a s IH]; simpl; [reflexivity|]. rewrite ascii_compare_refl; exact IH. Qed.

Lemma string_compare_lt_trans (x y z : string) :
  String.compare x y = Lt -> String.compare y z = Lt -> String.compare x z = Lt.
Proof.
  revert y z; induction x as [|a x IH]; intros [|b y] [|c z]; simpl; try congruence.
  destruct (Ascii.compare a b) eqn:E1; try congruence;
  destruct (Ascii.compare b c) eqn:E2; try congruence.
  - apply compare_eq_iff in E1; apply compare_eq_iff in E2; subst.
    rewrite ascii_compare_refl. apply IH.
  - apply compare_eq_iff in E1; subst. rewrite E2. congruence.
  - apply compare_eq_iff in E2; subst. rewrite E1. congruence.
  - rewrite (ascii_compare_lt_trans _ _ _ E1 E2). congruence.
Qed.

(** [String]'s order: lexicographic on bytes, as Rust's [Ord for str]. *)
#[global] Instance Ord_string : Ord string.
Proof.
  refine {| cmp := String.compare |}.
  - intros x y; split; [apply String.compare_eq_iff|]. intros ->; apply string_compare_refl.
  - intros x y. rewrite String.compare_antisym. reflexivity.
  - apply string_compare_lt_trans.
Defined.

#[global] Instance Ord_N : Ord N.
Proof.
  refine {| cmp := N.compare |}.
  - apply N.compare_eq_iff.
  - intros x y; apply N.compare_antisym.
  - intros x y z; rewrite !N.compare_lt_iff; lia.
Defined.

#[global] Instance Ord_Z : Ord Z.
Proof.
  refine {| cmp := Z.compare |}.
  - apply Z.compare_eq_iff.
  - intros x y; apply Z.compare_antisym.
  - intros x y z; rewrite !Z.compare_lt_iff; lia.
Defined.

(** Lexicographic order on pairs, as Rust's derived [Ord] for tuples. *)
#[global] Instance Ord_pair {A B} (OA : Ord A) (OB : Ord B) : Ord (A * B).
Proof.
  refine {| cmp := fun p q => match cmp (fst p) (fst q) with Eq => cmp (snd p) (snd q) | r => r end |}.
  - intros [a b] [c d]; simpl. destruct (cmp a c) eqn:E.
    + apply cmp_eq in E; subst. rewrite cmp_eq. split; [intros ->; reflexivity|congruence].
    + split; [discriminate|]. intros H; inversion H; subst. rewrite cmp_refl in E; discriminate.
    + split; [discriminate|]. intros H; inversion H; subst. rewrite cmp_refl in E; discriminate.
  - intros [a b] [c d]; simpl. rewrite (cmp_anti a c). destruct (cmp a c); simpl; auto using cmp_anti.
  - intros [a b] [c d] [e f]; simpl.
    destruct (cmp a c) eqn:E1; try discriminate; destruct (cmp c e) eqn:E2; try discriminate.
    + apply cmp_eq in E1; apply cmp_eq in E2; subst. rewrite cmp_refl. apply cmp_lt_trans.
    + apply cmp_eq in E1; subst. rewrite E2. reflexivity.
    + apply cmp_eq in E2; subst. rewrite E1. reflexivity.
    + rewrite (cmp_lt_trans _ _ _ E1 E2). reflexivity.
Defined.
