(** Lemmas on pipelines of which some components stop. *)
From Coq Require Import NArith List Bool Lia Permutation.
From Verif Require Import Base.Outcome Base.Arith Model.Log Model.Command Model.Err Model.Component Model.Fleet
  Spec.ComponentSpec Spec.FleetSpec Proofs.ComponentP Proofs.FleetP.
Import ListNotations.
Local Open Scope list_scope.

Section Stop.
  Context {P : payloads} {St : Type} (size depth : nat) (C : nat -> component P St) (stage : nat -> nat) (f : nat -> log -> option log).
  Context (PL : pipeline size C stage depth f) (comp : nat -> St) (caps : nat -> option nat).
  Implicit Types (w : fleet P St) (tr : list (event P)).
  Notation next := (fun i => S (stage i)).
  Notation fstep := (fstep size C stage next).
  Notation frun := (frun size C stage next).
  Notation start := (spawn C comp (pipes depth caps)).

  Definition staffed_by w : Prop := forall k, k < depth -> exists i, i < size /\ stage i = k /\ ~ done (thread (workers w i)).

  (** who has returned stays so; who is dropped has returned *)
  Lemma done_step w e w' i : fstep w e w' -> done (thread (workers w i)) -> done (thread (workers w' i)).
  Proof.
    intros S [x D]. destruct S as [w j a p t ms q b o c r L O S|w j m|w j l|w j l q R Q|w j|w j|w t|w j r0 L D' A]; try (exists x; exact D).
    - unfold put. simpl. unfold set. destruct (Nat.eqb_spec j i) as [->|N]; [|exists x; exact D]. exfalso.
      destruct (returned_step (C i) _ _ _ x (D : ph (view size stage next w i) = _) S) as [_ X]. apply X, own_by, O.
    - simpl. unfold set. destruct (Nat.eqb_spec j i) as [->|N]; exists x; exact D.
    - simpl. unfold set. destruct (Nat.eqb_spec j i) as [->|N]; exists x; exact D.
  Qed.
  Lemma dropped_step w e w' i : fstep w e w' -> (attached (workers w i) = false -> done (thread (workers w i))) ->
    attached (workers w' i) = false -> done (thread (workers w' i)).
  Proof.
    intros S H A. destruct (attached (workers w i)) eqn:B.
    - destruct S as [w j a p t ms q b o c r L O S|w j m|w j l|w j l q R Q|w j|w j|w t|w j r0 L D' A']; simpl in A; unfold set in *; try congruence.
      + destruct (Nat.eqb_spec j i) as [->|N]; simpl in A; congruence.
      + destruct (Nat.eqb_spec j i) as [->|N]; simpl in A; congruence.
      + simpl. unfold set. destruct (Nat.eqb_spec j i) as [->|N]; simpl in A; [exists r0; exact D'|congruence].
    - eapply done_step; eauto.
  Qed.
  Lemma dropped_run tr w i : frun start tr w -> attached (workers w i) = false -> done (thread (workers w i)).
  Proof.
    intro R. remember start as w0 eqn:E. induction R as [|w0 tr w1 a w2 R IH S]; [subst; discriminate|].
    eapply dropped_step; eauto.
  Qed.
  Lemma listens tr w : frun start tr w -> ~ In (DropReceiver depth) tr -> outside_receives (channels w depth) = true.
  Proof.
    intro R. remember start as w0 eqn:E. induction R as [|w0 tr w1 a w2 R IH S]; intro N.
    - subst. simpl. apply Nat.eqb_refl.
    - assert (H : outside_receives (channels w1 depth) = true) by (apply IH; auto; intro X; apply N; apply in_or_app; auto). clear IH.
      destruct S as [w j a p t ms q b o c r L O S|w j m|w j l|w j l q R' Q|w j|w j|w t|w j r0]; auto.
      + rewrite put_channels by (apply (stages_apart stage size); exact L). exact H.
      + simpl. unfold set. destruct (Nat.eqb_spec j depth) as [->|]; exact H.
      + simpl. unfold set. destruct (Nat.eqb_spec j depth) as [->|]; exact H.
      + simpl. unfold set. destruct (Nat.eqb_spec j depth) as [->|]; exact H.
      + simpl. unfold set. destruct (Nat.eqb_spec j depth) as [->|]; [|exact H]. exfalso. apply N. apply in_or_app. right. left. reflexivity.
  Qed.
  Lemma received_by w k : k < depth -> staffed_by w -> (forall i, attached (workers w i) = false -> done (thread (workers w i))) ->
    has_receiver size stage w k = true.
  Proof.
    intros L ST A. destruct (ST k L) as (i & Li & E & N). unfold has_receiver. apply orb_true_iff. right. apply existsb_exists.
    exists i. split; [apply in_seq; lia|]. destruct (attached (workers w i)) eqn:B; [|destruct (N (A i B))]. apply Nat.eqb_eq. exact E.
  Qed.
  Lemma undeliverable_app (a b : list (label P)) : undeliverable (a ++ b) = undeliverable a ++ undeliverable b.
  Proof. apply flat_map_app. Qed.

  (** while every stage has somebody at work and the outside listens, no log is refused *)
  Lemma all_delivered tr w : frun start tr w -> ~ In (DropReceiver depth) tr -> staffed_by w ->
    forall i, i < size -> undeliverable (own i tr) = [].
  Proof.
    intro R. remember start as w0 eqn:E. induction R as [|w0 tr w1 a w2 R IH S]; intros N ST i L; [reflexivity|]. subst w0.
    assert (N1 : ~ In (DropReceiver depth) tr) by (intro X; apply N; apply in_or_app; auto).
    assert (ST1 : staffed_by w1).
    { intros k Lk. destruct (ST k Lk) as (j & Lj & Ej & D). exists j. splits; auto. intro X. apply D. eapply done_step; eauto. }
    rewrite own_app, undeliverable_app, (IH eq_refl N1 ST1 i L). cbn [app].
    pose proof (listens tr w1 R N1) as LS. pose proof (fun i => dropped_run tr w1 i R) as AT.
    destruct S as [w j a p t ms q b o c r Lj O S|w j m|w j l|w j l q R' Q|w j|w j|w t|w j r0]; try reflexivity; cbn [own flat_map app].
    - destruct (Nat.eqb_spec j i) as [->|Ne]; [|reflexivity]. destruct a; try reflexivity. exfalso. unfold view in S.
      pose proof (in_stages _ _ _ _ _ PL i Lj) as Di.
      assert (H : has_receiver size stage w (Datatypes.S (stage i)) = true).
      { destruct (Nat.eq_dec (Datatypes.S (stage i)) depth) as [->|]; [unfold has_receiver; rewrite LS; reflexivity|apply received_by; auto; lia]. }
      inversion S; subst. match goal with G : out_gone _ = true |- _ => simpl in G; rewrite H in G; discriminate G end.
    - destruct (Nat.eqb_spec j i) as [->|Ne]; reflexivity.
  Qed.

  (** at rest, with room at the end, nobody is stuck in a send *)
  Lemma nobody_blocked tr w : frun start tr w -> settled size C stage w -> (forall k, can_hold (caps k)) -> staffed_by w ->
    has_room (channels w depth) = true -> forall i, i < size -> forall s d l, thread (workers w i) <> Sending s d l.
  Proof.
    intros R SE CH ST RM. pose proof (ends_run size depth C stage comp caps tr w R) as EN.
    enough (A : forall n i, depth - stage i <= n -> i < size -> forall s d l, thread (workers w i) <> Sending s d l) by (intros i L; exact (A _ i (le_n _) L)).
    induction n as [|n IH]; intros i B L s d l T; [pose proof (in_stages _ _ _ _ _ PL i L); lia|].
    destruct (settled_worker size C stage w i SE L) as [([r D] & _)|[(s' & d' & E & _)|(s' & d' & l' & _ & FR & HR)]]; try congruence.
    destruct (Nat.eq_dec (S (stage i)) depth) as [E|E]; [rewrite E in FR; congruence|]. pose proof (in_stages _ _ _ _ _ PL i L) as LD.
    assert (Q : queue (channels w (S (stage i))) <> []).
    { intro Q. unfold has_room in FR. rewrite Q in FR. destruct (EN (S (stage i))) as [C1 _]. specialize (CH (S (stage i))). unfold can_hold in CH. rewrite <- C1 in CH.
      destruct (capacity (channels w (S (stage i)))) as [[|m]|]; cbn in FR; congruence. }
    destruct (ST (S (stage i)) ltac:(lia)) as (j & Lj & Ej & Nj).
    destruct (settled_worker size C stage w j SE Lj) as [(D & _)|[(s2 & d2 & _ & Q' & _)|(s2 & d2 & l2 & T' & _)]]; [contradiction|congruence|].
    exact (IH j ltac:(lia) Lj _ _ _ T').
  Qed.
  Lemma at_rest tr w : frun start tr w -> settled size C stage w -> (forall k, can_hold (caps k)) -> staffed_by w ->
    has_room (channels w depth) = true ->
    (forall k, k < depth -> queue (channels w k) = [])
    /\ (forall i, i < size -> done (thread (workers w i)) \/ exists s d, thread (workers w i) = Waiting s d).
  Proof.
    intros R SE CH ST RM. pose proof (nobody_blocked tr w R SE CH ST RM) as NB. split.
    - intros k L. destruct (ST k L) as (i & Li & <- & N).
      destruct (settled_worker size C stage w i SE Li) as [(D & _)|[(s & d & _ & Q & _)|(s & d & l & T & _)]]; [contradiction|exact Q|destruct (NB i Li _ _ _ T)].
    - intros i Li. destruct (settled_worker size C stage w i SE Li) as [(D & _)|[(s & d & T & _)|(s & d & l & T & _)]]; eauto. destruct (NB i Li _ _ _ T).
  Qed.
  Lemma nothing_left tr w : frun start tr w -> ~ In (DropReceiver depth) tr -> staffed_by w ->
    (forall k, k < depth -> queue (channels w k) = []) ->
    (forall i, i < size -> done (thread (workers w i)) \/ exists s d, thread (workers w i) = Waiting s d) ->
    under_way size stage f tr w depth = [].
  Proof.
    intros R N ST Q W. apply (nothing_under_way _ _ _ comp caps). intros k L. split; [|auto]. unfold held. apply seg_nil. intros i I. apply in_seq in I.
    destruct (Nat.eqb_spec (stage i) k); [|reflexivity]. rewrite (all_delivered tr w R N ST i ltac:(lia)).
    unfold in_hand. simpl. destruct (W i ltac:(lia)) as [[r ->]|(s & d & ->)]; reflexivity.
  Qed.
End Stop.
