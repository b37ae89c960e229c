(** Interleavings of threads, each a list of atomic actions. *)
From Coq Require Import List Permutation.
Import ListNotations.

(** [interleaves ths tr]: [tr] performs every action of every thread, respecting each thread's order. *)
Inductive interleaves {A : Type} : list (list A) -> list A -> Prop :=
| il_done ths : Forall (fun t => t = []) ths -> interleaves ths []
| il_step pre a t post tr : interleaves (pre ++ t :: post) tr -> interleaves (pre ++ (a :: t) :: post) (a :: tr).

Lemma interleaves_perm {A} (ths : list (list A)) tr : interleaves ths tr -> Permutation tr (concat ths).
Proof.
  induction 1 as [ths H|pre a t post tr _ IH].
  - induction H as [|t ths -> _ IH]; simpl; auto.
  - rewrite concat_app in *. simpl in *. apply Permutation_cons_app. exact IH.
Qed.

(** Threads run one after the other are a schedule. *)
Lemma interleaves_seq {A} (ths : list (list A)) : interleaves ths (concat ths).
Proof.
  induction ths as [|t ths IH]; simpl; [constructor; constructor|].
  induction t as [|a t IHt]; simpl.
  - remember (concat ths) as tr eqn:E. clear E. induction IH as [ths H|pre a t post tr _ IH].
    + constructor. constructor; auto.
    + apply (il_step ([] :: pre)). exact IH.
  - apply (il_step []). exact IHt.
Qed.

(** A prefix of a schedule is a schedule of prefixes of the threads. *)
Lemma interleaves_prefix {A} tr1 : forall tr2 (ths : list (list A)), interleaves ths (tr1 ++ tr2) ->
  exists pre, Forall2 (fun p t => exists q, t = p ++ q) pre ths /\ interleaves pre tr1.
Proof.
  induction tr1 as [|a tr1 IH]; intros tr2 ths H.
  - exists (map (fun _ => []) ths). split.
    + clear H. induction ths; simpl; constructor; auto. exists a. reflexivity.
    + constructor. clear H. induction ths; simpl; constructor; auto.
  - simpl in H. inversion H as [|P a' t Q tr K]; subst. destruct (IH _ _ K) as (pre & F & I).
    apply Forall2_app_inv_r in F. destruct F as (P' & R & F1 & F2 & ->). inversion F2 as [|t' ? Q' ? [q ->] F3]; subst.
    exists (P' ++ (a :: t') :: Q'). split.
    + apply Forall2_app; auto. constructor; auto. exists q. reflexivity.
    + constructor. exact I.
Qed.

(** The last action of a schedule of two threads that is not the second one's is the last one of the first. *)
Lemma interleaves_last {A} (p o : list A) tr a : interleaves [p; o] (tr ++ [a]) -> ~ In a o ->
  exists p0, p = p0 ++ [a] /\ interleaves [p0; o] tr.
Proof.
  intros I N. destruct (interleaves_prefix _ _ _ I) as (pre & F & J).
  inversion F as [|p0 x pre' y [q1 Q1] F']; subst; clear F. inversion F' as [|o0 x pre'' y [q2 Q2] F]; subst; clear F'.
  inversion F; subst; clear F.
  pose proof (interleaves_perm _ _ I) as P1. pose proof (interleaves_perm _ _ J) as P2. cbn [concat] in P1, P2. rewrite app_nil_r in P1, P2.
  assert (PQ : Permutation (q1 ++ q2) [a]).
  { apply (Permutation_app_inv_l (p0 ++ o0)). rewrite <- P2 at 2. rewrite P1.
    rewrite <- !app_assoc. apply Permutation_app_head. rewrite !app_assoc. apply Permutation_app_tail. apply Permutation_app_comm. }
  assert (q2 = []).
  { destruct q2 as [|b q2]; auto. exfalso. apply N. apply in_or_app. right. left.
    assert (H : In b [a]) by (eapply Permutation_in; [exact PQ|apply in_or_app; right; left; reflexivity]).
    destruct H as [H|[]]. congruence. }
  subst. rewrite !app_nil_r in *. exists p0. split; auto. f_equal. apply Permutation_length_1_inv. apply Permutation_sym. exact PQ.
Qed.
