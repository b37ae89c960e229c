(** Lemmas on fleets of components. *)
From Coq Require Import NArith List Bool Lia Permutation.
From Verif Require Import Base.Outcome Base.Arith Model.Log Model.Command Model.Err Model.Component Model.Fleet
  Spec.ComponentSpec Spec.FleetSpec Proofs.ComponentP.
Import ListNotations.

Lemma flat_snoc {A B} (f : A -> list B) tr a : flat_map f (tr ++ [a]) = flat_map f tr ++ f a.
Proof. rewrite flat_map_app. simpl. rewrite app_nil_r. reflexivity. Qed.
Lemma set_same {A} (f : nat -> A) i x : set f i x i = x.
Proof. unfold set. rewrite Nat.eqb_refl. reflexivity. Qed.
Lemma set_other {A} (f : nat -> A) i j x : i <> j -> set f i x j = f j.
Proof. intro N. unfold set. destruct (Nat.eqb_spec i j); [contradiction|reflexivity]. Qed.
Lemma own_by {P} (a : label P) : own_label a = true -> by_component a.
Proof. destruct a; simpl; intro H; try discriminate H; exact I. Qed.
Lemma by_own {P} (a : label P) : by_component a -> own_label a = true.
Proof. destruct a; simpl; intro H; try destruct H; reflexivity. Qed.

Definition took {P} (a : label P) : list log := match a with TakeLog l => [l] | _ => [] end.
Definition gave {P} (a : label P) : list log := match a with Forward l => [l] | _ => [] end.

Lemma own_step {P St} (C : component P St) p t ms q b o c r a p' t' ms' q' b' o' c' r' :
  own_label a = true -> step C (World p t ms (Wired q b o c r)) a (World p' t' ms' (Wired q' b' o' c' r')) ->
  t' = t /\ q = took a ++ q' /\ o' = o ++ gave a /\ b' = b /\ c' = c /\ r' = r.
Proof.
  intros O S. inversion S; subst; simpl in *; try discriminate; splits; auto; try (rewrite app_nil_r; reflexivity).
  all: match goal with H : match ?z with _ => _ end = Some _ |- _ => destruct z; inversion H; subst end; auto; try (rewrite app_nil_r; reflexivity).
Qed.

Section FleetP.
  Context {P : payloads} {St : Type}.
  Context (size : nat) (C : nat -> component P St) (source target : nat -> nat).
  Context (apart : forall i, i < size -> source i <> target i).
  Implicit Types (w : fleet P St) (tr : list (event P)).
  Notation fstep := (fstep size C source target).
  Notation frun := (frun size C source target).
  Notation view := (view size source target).
  Notation put := (put source target).

  Lemma put_channels w i p ms q o k : source i <> target i ->
    channels (put w i p ms q o) k =
      with_queue (if Nat.eqb (source i) k then q else if Nat.eqb (target i) k then o else queue (channels w k)) (channels w k).
  Proof.
    intro N. unfold put. simpl. unfold set. destruct (Nat.eqb_spec (target i) k) as [E|E], (Nat.eqb_spec (source i) k) as [E'|E']; subst; auto; try congruence.
    destruct (channels w k). reflexivity.
  Qed.
  Lemma put_workers w i p ms q o j :
    workers (put w i p ms q o) j = if Nat.eqb i j then Worker p ms (attached (workers w i)) else workers w j.
  Proof. reflexivity. Qed.

  (** ** Channels: first in, first out; each log is received once *)
  Lemma channel_step w e w' k : fstep w e w' ->
    queue (channels w k) ++ sent target k [e] = received source k [e] ++ queue (channels w' k).
  Proof.
    intro S. destruct S as [w i a p t ms q b o c r L O S|w i m|w j l|w j l q R Q|w j|w j|w t|w i r0]; try (simpl; rewrite app_nil_r; reflexivity).
    - unfold Fleet.view in S. apply own_step in S; [|exact O]. destruct S as (_ & Q & -> & _). rewrite put_channels by auto. unfold sent, received. simpl.
      assert (N := apart i L). rewrite !app_nil_r.
      destruct (Nat.eqb_spec (source i) k) as [E|E]; destruct (Nat.eqb_spec (target i) k) as [E'|E']; try congruence; try subst k; destruct a; simpl in *; try discriminate; rewrite ?app_nil_r; auto.
    - simpl. destruct (Nat.eqb_spec j k) as [->|E]; [rewrite set_same|rewrite set_other by exact E]; simpl; rewrite ?app_nil_r; reflexivity.
    - simpl. destruct (Nat.eqb_spec j k) as [->|E]; [rewrite set_same|rewrite set_other by exact E]; simpl; rewrite ?app_nil_r; [exact Q|reflexivity].
    - simpl. destruct (Nat.eqb_spec j k) as [->|E]; [rewrite set_same|rewrite set_other by exact E]; simpl; rewrite ?app_nil_r; reflexivity.
    - simpl. destruct (Nat.eqb_spec j k) as [->|E]; [rewrite set_same|rewrite set_other by exact E]; simpl; rewrite ?app_nil_r; reflexivity.
  Qed.
  Lemma sent_app k tr tr' : sent target k (tr ++ tr') = sent target k tr ++ sent target k tr'.
  Proof. apply flat_map_app. Qed.
  Lemma received_app k tr tr' : received source k (tr ++ tr') = received source k tr ++ received source k tr'.
  Proof. apply flat_map_app. Qed.
  Lemma channel_run w tr w' k : frun w tr w' ->
    queue (channels w k) ++ sent target k tr = received source k tr ++ queue (channels w' k).
  Proof.
    intro R. induction R as [|w tr w1 a w2 R IH S]; [simpl; rewrite app_nil_r; reflexivity|].
    rewrite sent_app, received_app, app_assoc, IH, <- !app_assoc. f_equal. apply channel_step. exact S.
  Qed.

  (** ** Each component behaves as alone *)
  Lemma inv_logs (D : component P St) s0 h p t ms x x' : inv D s0 h (World p t ms x) -> inv D s0 h (World p t ms x').
  Proof. exact (fun H => H). Qed.
  Lemma own_app i tr tr' : own i (tr ++ tr') = own i tr ++ own i tr'.
  Proof. apply flat_map_app. Qed.
  Lemma worker_step s0 i tr w e w' : i < size -> inv (C i) s0 (own i tr) (view w i) -> fstep w e w' -> inv (C i) s0 (own i (tr ++ [e])) (view w' i).
  Proof.
    intros L I S. rewrite own_app. destruct S as [w j a p t ms q b o c r Lj O S|w j m Lj R|w j l|w j l q|w j|w j|w t T|w j r Lj R]; try (simpl; rewrite app_nil_r; exact (inv_logs _ _ _ _ _ _ _ _ I)).
    - unfold Fleet.view. rewrite put_workers. unfold own. cbn [time Fleet.put flat_map]. destruct (Nat.eqb_spec j i) as [->|E].
      + simpl. pose proof (inv_step (C i) _ _ _ _ _ I S) as I'. unfold Fleet.view in S. apply own_step in S; [|exact O]. destruct S as (-> & _).
        exact (inv_logs _ _ _ _ _ _ _ _ I').
      + rewrite app_nil_r. exact (inv_logs _ _ _ _ _ _ _ _ I).
    - unfold Fleet.view. simpl. unfold set. destruct (Nat.eqb_spec j i) as [->|E]; simpl.
      + eapply inv_step; [eapply inv_logs; exact I|]. apply s_arrive_msg. exact R.
      + rewrite app_nil_r. exact (inv_logs _ _ _ _ _ _ _ _ I).
    - eapply inv_step; [exact I|]. unfold Fleet.view. simpl. apply s_clock. exact T.
    - rewrite app_nil_r. unfold Fleet.view. simpl. unfold set. destruct (Nat.eqb_spec j i) as [->|E]; exact (inv_logs _ _ _ _ _ _ _ _ I).
  Qed.
  Lemma worker_run comp chans tr w i : i < size -> frun (spawn C comp chans) tr w -> inv (C i) (duplicate (C i) (comp i)) (own i tr) (view w i).
  Proof.
    intros L R. remember (spawn C comp chans) as w0 eqn:E. induction R as [|w0 tr w1 a w2 R IH S].
    - subst. unfold inv, thread_ok. simpl. splits; auto. tauto.
    - eapply worker_step; eauto.
  Qed.
End FleetP.

(** * Lists over the components *)
Section Segments.
  Context {B : Type}.
  Lemma seg_same (g g' : nat -> list B) l : (forall j, In j l -> g' j = g j) -> flat_map g' l = flat_map g l.
  Proof. induction l as [|j l IH]; intro H; [reflexivity|]. simpl. rewrite (H j (or_introl eq_refl)), IH; [reflexivity|]. intros x I. apply H. right. exact I. Qed.
  Lemma seg_add (g g' : nat -> list B) x i l : NoDup l -> In i l -> g' i = g i ++ x -> (forall j, In j l -> j <> i -> g' j = g j) ->
    Permutation (flat_map g' l) (flat_map g l ++ x).
  Proof.
    intros N. induction N as [|j l A N IH]; intros I E O; [destruct I|]. simpl. destruct I as [->|I].
    - rewrite E, (seg_same g g' l), <- !app_assoc; [apply Permutation_app_head, Permutation_app_comm|].
      intros y Iy. apply O; [right; exact Iy|]. intros ->. contradiction.
    - assert (Ej : g' j = g j) by (apply O; [left; reflexivity|intros ->; contradiction]).
      rewrite Ej, <- app_assoc. apply Permutation_app_head, IH; auto. intros y Iy. apply O. right. exact Iy.
  Qed.
  Lemma seg_nil (g : nat -> list B) l : (forall j, In j l -> g j = []) -> flat_map g l = [].
  Proof. induction l as [|j l IH]; intro H; [reflexivity|]. simpl. rewrite (H j (or_introl eq_refl)), IH; [reflexivity|]. intros x I. apply H. right. exact I. Qed.
  Lemma seg_app {A} (g h : A -> list B) l : Permutation (flat_map (fun j => g j ++ h j) l) (flat_map g l ++ flat_map h l).
  Proof.
    induction l as [|j l IH]; simpl; [constructor|]. rewrite IH, <- !app_assoc. apply Permutation_app_head.
    rewrite !app_assoc. apply Permutation_app_tail, Permutation_app_comm.
  Qed.
End Segments.

(** * Sums *)
Definition total (g : nat -> nat) (n : nat) : nat := list_sum (map g (seq 0 n)).
Lemma sum_same (g g' : nat -> nat) l : (forall j, In j l -> g' j = g j) -> list_sum (map g' l) = list_sum (map g l).
Proof. intro H. f_equal. apply map_ext_in. exact H. Qed.
Lemma sum_change (g g' : nat -> nat) i l : NoDup l -> In i l -> (forall j, In j l -> j <> i -> g' j = g j) ->
  list_sum (map g' l) + g i = list_sum (map g l) + g' i.
Proof.
  intro N. induction N as [|j l A N IH]; intros I O; [destruct I|]. simpl. destruct I as [->|I].
  - rewrite (sum_same g g' l); [lia|]. intros j J. apply O; [right; exact J|]. intros ->. contradiction.
  - rewrite (O j); [|left; reflexivity|intros ->; contradiction]. enough (list_sum (map g' l) + g i = list_sum (map g l) + g' i) by lia.
    apply IH; auto. intros y Y. apply O. right. exact Y.
Qed.
Lemma total_same g g' n : (forall j, j < n -> g' j = g j) -> total g' n = total g n.
Proof. intro H. apply sum_same. intros j J. apply in_seq in J. apply H. lia. Qed.
Lemma total_change g g' i n : i < n -> (forall j, j <> i -> g' j = g j) -> total g' n + g i = total g n + g' i.
Proof. intros L O. apply sum_change; [apply seq_NoDup|apply in_seq; lia|]. auto. Qed.
Lemma total_le g g' n : (forall j, j < n -> g j <= g' j) -> total g n <= total g' n.
Proof.
  intro H. unfold total. assert (B : forall j, In j (seq 0 n) -> g j <= g' j) by (intros j J; apply in_seq in J; apply H; lia).
  revert B. generalize (seq 0 n) as l. induction l as [|j l IH]; intro B; simpl; [lia|]. pose proof (B j (or_introl eq_refl)).
  enough (list_sum (map g l) <= list_sum (map g' l)) by lia. apply IH. intros y Y. apply B. right. exact Y.
Qed.
Lemma total_scale c g n : total (fun j => c * g j) n = c * total g n.
Proof. unfold total. generalize (seq 0 n) as l. induction l as [|j l IH]; simpl; [lia|]. rewrite IH. lia. Qed.
Lemma total_plus g h n : total (fun j => g j + h j) n = total g n + total h n.
Proof. unfold total. generalize (seq 0 n) as l. induction l as [|j l IH]; simpl; [lia|]. rewrite IH. lia. Qed.
Lemma total_const c n : total (fun _ => c) n = c * n.
Proof. unfold total. rewrite <- (seq_length n 0) at 2. generalize (seq 0 n) as l. induction l as [|j l IH]; simpl; [lia|]. rewrite IH. lia. Qed.

(** * keep *)
Lemma keep_app f a b : keep f (a ++ b) = keep f a ++ keep f b.
Proof. induction a as [|x a IH]; simpl; auto. destruct (f x); simpl; rewrite IH; reflexivity. Qed.
Lemma keep_perm f a b : Permutation a b -> Permutation (keep f a) (keep f b).
Proof.
  intro H. induction H as [|x a b H IH|x y a|a b c H1 IH1 H2 IH2]; simpl.
  - constructor.
  - destruct (f x); auto.
  - destruct (f x), (f y); auto. apply perm_swap.
  - eauto using Permutation_trans.
Qed.
Lemma keep_some a : keep Some a = a.
Proof. induction a as [|x a IH]; simpl; congruence. Qed.
Lemma keep_through f k a : keep (through f (S k)) a = keep (f k) (keep (through f k) a).
Proof. induction a as [|x a IH]; [reflexivity|]. simpl in *. destruct (through f k x) as [y|]; simpl; [|exact IH]. destruct (f k y); rewrite IH; reflexivity. Qed.
Lemma keep_flat f (g : nat -> list log) l : keep f (flat_map g l) = flat_map (fun j => keep f (g j)) l.
Proof. induction l as [|j l IH]; [reflexivity|]. simpl. rewrite keep_app, IH. reflexivity. Qed.

(** What a component that handles logs by [f] lets through *)
Definition no_logs {P} (m : message P) : Prop := match m with MLog _ => False | _ => True end.
Lemma handles_kept {P St} (C : component P St) f h : handles C f -> Forall no_logs (taken_msgs h) ->
  forall s, kept C s (given h) = keep f (taken_logs h).
Proof.
  intros H. induction h as [|a h IH]; intros F s; [reflexivity|]. unfold given, taken_logs, taken_msgs in *. simpl in *.
  destruct a as [m|l| |l| |t| | |m|l| |l|l]; simpl in *; auto.
  - inversion F as [|? ? N F']; subst. destruct m; simpl in *; auto; destruct N.
  - rewrite IH by exact F. unfold react. rewrite H. destruct (f l); reflexivity.
Qed.

(** * Who did what *)
Section Parts.
  Context {P : payloads} {St : Type} (size : nat) (C : nat -> component P St) (source target : nat -> nat).
  Implicit Types (w : fleet P St) (tr : list (event P)).

  Definition indexed (e : event P) : Prop := match e with Work i a => i < size /\ own_label a = true | _ => True end.
  Lemma run_indexed w tr w' : frun size C source target w tr w' -> Forall indexed tr.
  Proof. intro R. induction R as [|w tr w1 a w2 R IH S]; [constructor|]. apply Forall_app. split; auto. constructor; [|constructor]. destruct S; simpl; auto. Qed.

  Lemma parts (f : label P -> list log) (sel : nat -> bool) tr : Forall indexed tr -> (forall m, f (ArriveMsg m) = []) -> (forall t, f (Clock t) = []) ->
    Permutation (flat_map (fun e => match e with Work i a => if sel i then f a else [] | _ => [] end) tr)
      (flat_map (fun i => if sel i then flat_map f (own i tr) else []) (seq 0 size)).
  Proof.
    intros F A K. induction tr as [|e tr IH] using rev_ind.
    - simpl. rewrite seg_nil; [constructor|]. intros j _. destruct (sel j); reflexivity.
    - apply Forall_app in F. destruct F as [F Fe]. specialize (IH F). inversion Fe as [|? ? L _]; subst. rewrite flat_snoc.
      assert (same : forall i, flat_map f (own i [e]) = [] -> flat_map f (own i (tr ++ [e])) = flat_map f (own i tr)).
      { intros i E. rewrite own_app, flat_map_app, E, app_nil_r. reflexivity. }
      destruct e as [i a|i m|k l|k l|k|k|t|i]; simpl in L.
      + destruct L as [L _]. rewrite IH. symmetry. apply (seg_add _ _ _ i); [apply seq_NoDup|apply in_seq; lia| |].
        * rewrite own_app, flat_map_app. unfold own at 2. simpl. rewrite Nat.eqb_refl. simpl. rewrite app_nil_r. destruct (sel i); reflexivity.
        * intros j _ N. rewrite own_app, flat_map_app. unfold own at 2. simpl. destruct (Nat.eqb_spec i j); [congruence|]. simpl. rewrite app_nil_r. reflexivity.
      + rewrite app_nil_r, IH. erewrite (seg_same _ (fun i0 => if sel i0 then flat_map f (own i0 (tr ++ [_])) else [])); [reflexivity|]. intros j _. simpl. rewrite same; [reflexivity|].
        unfold own. simpl. destruct (Nat.eqb i j); simpl; rewrite ?A; reflexivity.
      + rewrite app_nil_r, IH. erewrite (seg_same _ (fun i0 => if sel i0 then flat_map f (own i0 (tr ++ [_])) else [])); [reflexivity|]. intros j _. simpl. rewrite same; reflexivity.
      + rewrite app_nil_r, IH. erewrite (seg_same _ (fun i0 => if sel i0 then flat_map f (own i0 (tr ++ [_])) else [])); [reflexivity|]. intros j _. simpl. rewrite same; reflexivity.
      + rewrite app_nil_r, IH. erewrite (seg_same _ (fun i0 => if sel i0 then flat_map f (own i0 (tr ++ [_])) else [])); [reflexivity|]. intros j _. simpl. rewrite same; reflexivity.
      + rewrite app_nil_r, IH. erewrite (seg_same _ (fun i0 => if sel i0 then flat_map f (own i0 (tr ++ [_])) else [])); [reflexivity|]. intros j _. simpl. rewrite same; reflexivity.
      + rewrite app_nil_r, IH. erewrite (seg_same _ (fun i0 => if sel i0 then flat_map f (own i0 (tr ++ [_])) else [])); [reflexivity|]. intros j _. simpl. rewrite same; [reflexivity|]. simpl. rewrite K. reflexivity.
      + rewrite app_nil_r, IH. erewrite (seg_same _ (fun i0 => if sel i0 then flat_map f (own i0 (tr ++ [_])) else [])); [reflexivity|]. intros j _. simpl. rewrite same; reflexivity.
  Qed.

  Lemma received_parts w tr w' k : frun size C source target w tr w' ->
    Permutation (received source k tr) (got_out k tr ++ flat_map (fun i => if Nat.eqb (source i) k then taken_logs (own i tr) else []) (seq 0 size)).
  Proof.
    intro R. unfold taken_logs. rewrite <- (parts (fun a => match a with TakeLog l => [l] | _ => [] end) (fun i => Nat.eqb (source i) k)); auto; [|eapply run_indexed; eauto].
    unfold got_out. rewrite <- seg_app. unfold received. erewrite flat_map_ext; [reflexivity|]. intros e. destruct e as [i a| | | | | | | ]; simpl; rewrite ?app_nil_r; auto.
    destruct a; simpl; destruct (Nat.eqb (source i) k); reflexivity.
  Qed.
  Lemma sent_parts w tr w' k : frun size C source target w tr w' ->
    Permutation (sent target k tr) (put_in k tr ++ flat_map (fun i => if Nat.eqb (target i) k then forwarded (own i tr) else []) (seq 0 size)).
  Proof.
    intro R. unfold forwarded. rewrite <- (parts (fun a => match a with Forward l => [l] | _ => [] end) (fun i => Nat.eqb (target i) k)); auto; [|eapply run_indexed; eauto].
    unfold put_in. rewrite <- seg_app. unfold sent. erewrite flat_map_ext; [reflexivity|]. intros e. destruct e as [i a| | | | | | | ]; simpl; rewrite ?app_nil_r; auto.
    destruct a; simpl; destruct (Nat.eqb (target i) k); reflexivity.
  Qed.
End Parts.

(** * Pipelines *)
Lemma stages_apart (stage : nat -> nat) (size : nat) : forall i, i < size -> stage i <> S (stage i).
Proof. intros i _. apply n_Sn. Qed.
Section Stages.
  Context {P : payloads} {St : Type} (size depth : nat) (C : nat -> component P St) (stage : nat -> nat) (f : nat -> log -> option log).
  Context (PL : pipeline size C stage depth f) (comp : nat -> St) (caps : nat -> option nat).
  Implicit Types (w : fleet P St) (tr : list (event P)).
  Notation next := (fun i => S (stage i)).
  Notation fstep := (fstep size C stage next).
  Notation frun := (frun size C stage next).
  Notation start := (spawn C comp (pipes depth caps)).
  Notation view := (view size stage next).

  (** the ends held outside *)
  Definition ends w : Prop := forall k, capacity (channels w k) = caps k
    /\ (outside_sends (channels w k) = true -> k = 0) /\ (outside_receives (channels w k) = true -> k = depth).
  Lemma ends_step w e w' : ends w -> fstep w e w' -> ends w'.
  Proof.
    intros E S k. specialize (E k). destruct S as [w i a p t ms q b o c r L O S|w i m|w j l|w j l q R Q|w j|w j|w t|w i r0]; auto.
    - rewrite put_channels by (apply (stages_apart stage size); exact L). exact E.
    - simpl. unfold set. destruct (Nat.eqb_spec j k) as [->|N]; exact E.
    - simpl. unfold set. destruct (Nat.eqb_spec j k) as [->|N]; exact E.
    - simpl. unfold set. destruct (Nat.eqb_spec j k) as [->|N]; [|exact E]. simpl. intuition discriminate.
    - simpl. unfold set. destruct (Nat.eqb_spec j k) as [->|N]; [|exact E]. simpl. intuition discriminate.
  Qed.
  Lemma ends_run tr w : frun start tr w -> ends w.
  Proof.
    intro R. remember start as w0 eqn:E. induction R as [|w0 tr w1 a w2 R IH S].
    - subst. intros k. simpl. splits; auto; apply Nat.eqb_eq.
    - eapply ends_step; eauto.
  Qed.
  Lemma outside_only tr w : frun start tr w -> (forall k l, In (SendLog k l) tr -> k = 0) /\ (forall k l, In (Receive k l) tr -> k = depth).
  Proof.
    intro R. remember start as w0 eqn:E. induction R as [|w0 tr w1 a w2 R IH S]; [split; intros k l []|]. specialize (IH E). subst w0.
    destruct IH as [A B]. assert (K := ends_run _ _ R). split; intros k l I; apply in_app_or in I; destruct I as [I|[->|[]]]; eauto.
    - inversion S; subst. eapply (K k); eauto.
    - inversion S; subst. eapply (K k); eauto.
  Qed.
  Lemma put_in_only tr w k : frun start tr w -> k <> 0 -> put_in k tr = [].
  Proof.
    intros R N. destruct (outside_only _ _ R) as [A _]. clear R. unfold put_in. induction tr as [|e tr IH]; [reflexivity|]. simpl. rewrite IH by (intros; eapply A; right; eauto).
    destruct e as [| |j l| | | | | ]; auto. destruct (Nat.eqb_spec j k) as [->|]; auto. destruct N. eapply A. left. reflexivity.
  Qed.
  Lemma got_out_only tr w k : frun start tr w -> k <> depth -> got_out k tr = [].
  Proof.
    intros R N. destruct (outside_only _ _ R) as [_ A]. clear R. unfold got_out. induction tr as [|e tr IH]; [reflexivity|]. simpl. rewrite IH by (intros; eapply A; right; eauto).
    destruct e as [| | |j l| | | | ]; auto. destruct (Nat.eqb_spec j k) as [->|]; auto. destruct N. eapply A. left. reflexivity.
  Qed.

  (** one component *)
  Lemma own_msgs i tr : Forall (indexed size) tr -> Forall no_log_message tr -> Forall no_logs (arrived_msgs (own i tr)).
  Proof.
    intros X F. induction F as [|e tr H F IH]; [constructor|]. inversion X as [|? ? Xe X']; subst. specialize (IH X').
    unfold own, arrived_msgs in *. simpl. rewrite flat_map_app. apply Forall_app. split; [|exact IH].
    destruct e as [j a|j m| | | | |t| ]; simpl; try constructor.
    - destruct (Nat.eqb j i); simpl; [|constructor]. destruct Xe as [_ O]. destruct a; simpl in *; try discriminate; constructor.
    - destruct (Nat.eqb j i); simpl; [|constructor]. constructor; [|constructor]. destruct m; simpl in *; auto.
  Qed.
  Lemma component_out tr w i : frun start tr w -> Forall no_log_message tr -> i < size ->
    keep (f (stage i)) (taken_logs (own i tr)) = forwarded (own i tr) ++ in_hand (view w i) ++ undeliverable (own i tr).
  Proof.
    intros R F L. pose proof (worker_run size C stage next comp (pipes depth caps) tr w i L R) as I. destruct I as (_ & K & _ & _ & M). rewrite K.
    symmetry. apply handles_kept; [exact (by_stage _ _ _ _ _ PL i L)|].
    pose proof (own_msgs i tr (run_indexed _ _ _ _ _ _ _ R) F) as A. rewrite M in A. apply Forall_app in A. apply A.
  Qed.
  (** the logs in the hands of the stage [k], or that it could not deliver *)
  Definition held tr w k : list log :=
    flat_map (fun i => if Nat.eqb (stage i) k then in_hand (view w i) ++ undeliverable (own i tr) else []) (seq 0 size).
  Lemma stage_out tr w k : frun start tr w -> Forall no_log_message tr -> k < depth ->
    Permutation (keep (f k) (received stage k tr)) (sent next (S k) tr ++ held tr w k).
  Proof.
    intros R F L. rewrite (keep_perm _ _ _ (received_parts _ _ _ _ _ _ _ k R)). rewrite (got_out_only _ _ _ R) by lia. simpl app.
    rewrite (sent_parts _ _ _ _ _ _ _ (S k) R), (put_in_only _ _ _ R) by lia. simpl app. unfold held. rewrite <- seg_app, keep_flat.
    erewrite seg_same; [reflexivity|]. intros i I. apply in_seq in I. simpl. destruct (Nat.eqb_spec (stage i) k) as [<-|N]; [|reflexivity].
    apply (component_out _ _ _ R F). lia.
  Qed.
  Lemma sent_first tr : sent next 0 tr = put_in 0 tr.
  Proof. unfold sent, put_in. apply flat_map_ext. intros [i a| | | | | | | ]; auto. destruct a; reflexivity. Qed.
  Lemma received_last tr w : frun start tr w -> received stage depth tr = got_out depth tr.
  Proof.
    intros R. pose proof (run_indexed _ _ _ _ _ _ _ R) as X. clear R. unfold received, got_out. induction X as [|e tr Xe X IH]; [reflexivity|]. simpl. rewrite IH. f_equal.
    destruct e as [i a| | | | | | | ]; auto. destruct Xe as [L _]. pose proof (in_stages _ _ _ _ _ PL i L) as D. destruct a; auto.
    destruct (Nat.eqb_spec (stage i) depth); [lia|reflexivity].
  Qed.
  (** what is on its way before the channel [k] *)
  Fixpoint under_way tr w k : list log :=
    match k with
    | O => []
    | S j => held tr w j ++ keep (f j) (queue (channels w j)) ++ keep (f j) (under_way tr w j)
    end.
  Lemma pipe_out tr w k : frun start tr w -> Forall no_log_message tr -> k <= depth ->
    Permutation (keep (through f k) (put_in 0 tr)) (sent next k tr ++ under_way tr w k).
  Proof.
    intros R F. induction k as [|k IH]; intro L.
    - simpl. rewrite sent_first, app_nil_r, keep_some. reflexivity.
    - rewrite keep_through, (keep_perm _ _ _ (IH (Nat.lt_le_incl _ _ L))), keep_app.
      pose proof (channel_run size C stage next (stages_apart stage size) _ _ _ k R) as Q. simpl queue in Q. simpl app in Q. rewrite Q, keep_app.
      rewrite (stage_out _ _ _ R F L). simpl under_way. rewrite <- !app_assoc. reflexivity.
  Qed.
  Lemma pipe_result tr w : frun start tr w -> Forall no_log_message tr ->
    Permutation (keep (through f depth) (put_in 0 tr)) (got_out depth tr ++ queue (channels w depth) ++ under_way tr w depth).
  Proof.
    intros R F. rewrite (pipe_out tr w depth R F (le_n _)). pose proof (channel_run size C stage next (stages_apart stage size) _ _ _ depth R) as Q. simpl in Q.
    rewrite (received_last _ _ R) in Q. rewrite Q, <- app_assoc. reflexivity.
  Qed.
  Lemma nothing_under_way tr w k : (forall j, j < k -> held tr w j = [] /\ queue (channels w j) = []) -> under_way tr w k = [].
  Proof.
    induction k as [|k IH]; intro H; [reflexivity|]. simpl. destruct (H k (le_n _)) as [-> ->]. rewrite IH; [reflexivity|]. intros j L. apply H. lia.
  Qed.

  (** ** One component per stage: the order is kept *)
  Definition single : Prop := forall i j, i < size -> j < size -> stage i = stage j -> i = j.
  Lemma received_one tr w i : single -> frun start tr w -> i < size -> received stage (stage i) tr = taken_logs (own i tr).
  Proof.
    intros O R L. assert (G := got_out_only _ _ (stage i) R). pose proof (in_stages _ _ _ _ _ PL i L) as D. specialize (G ltac:(lia)).
    pose proof (run_indexed _ _ _ _ _ _ _ R) as X. clear R. unfold received, taken_logs, own, got_out in *.
    induction X as [|e tr Xe X IH]; [reflexivity|]. simpl in *. apply app_eq_nil in G. destruct G as [Ge G]. rewrite flat_map_app, <- (IH G). f_equal.
    destruct e as [j a|j m| |j l| | |t| ]; auto.
    - destruct Xe as [Lj _]. destruct (Nat.eqb_spec (stage j) (stage i)) as [E|E].
      + assert (j = i) as -> by (apply O; auto). rewrite Nat.eqb_refl. destruct a; reflexivity.
      + destruct (Nat.eqb_spec j i) as [->|N]; [congruence|]. destruct a; reflexivity.
    - destruct (Nat.eqb j i); reflexivity.
  Qed.
  Lemma sent_one tr w i : single -> frun start tr w -> i < size -> sent next (S (stage i)) tr = forwarded (own i tr).
  Proof.
    intros O R L. assert (G := put_in_only _ _ (S (stage i)) R). specialize (G ltac:(lia)).
    pose proof (run_indexed _ _ _ _ _ _ _ R) as X. clear R. unfold sent, forwarded, own, put_in in *.
    induction X as [|e tr Xe X IH]; [reflexivity|]. cbn [flat_map] in *. apply app_eq_nil in G. destruct G as [Ge G]. rewrite flat_map_app, <- (IH G). f_equal.
    destruct e as [j a|j m|j l| | | |t| ]; auto.
    - destruct Xe as [Lj _]. cbn [Nat.eqb]. destruct (Nat.eqb_spec (stage j) (stage i)) as [E|E].
      + assert (j = i) as -> by (apply O; auto). rewrite Nat.eqb_refl. destruct a; reflexivity.
      + destruct (Nat.eqb_spec j i) as [->|N]; [congruence|]. destruct a; reflexivity.
    - destruct (Nat.eqb j i); reflexivity.
  Qed.
  Lemma held_one tr w i : single -> i < size -> held tr w (stage i) = in_hand (view w i) ++ undeliverable (own i tr).
  Proof.
    intros O L. unfold held. assert (I : In i (seq 0 size)) by (apply in_seq; lia).
    assert (B : forall j, In j (seq 0 size) -> j < size) by (intros j J; apply in_seq in J; lia). revert I B. generalize (seq_NoDup size 0).
    generalize (seq 0 size) as l. intros l N. induction N as [|j l A N IH]; intros I B; [destruct I|]. cbn [flat_map].
    destruct I as [->|I].
    - rewrite Nat.eqb_refl, seg_nil, app_nil_r; [reflexivity|]. intros j J. destruct (Nat.eqb_spec (stage j) (stage i)) as [E|]; [|reflexivity].
      assert (j = i) as -> by (apply O; auto; apply B; right; exact J). contradiction.
    - rewrite IH by (auto; intros; apply B; right; assumption). destruct (Nat.eqb_spec (stage j) (stage i)) as [E|]; [|reflexivity].
      assert (j = i) as -> by (apply O; auto; apply B; left; reflexivity). contradiction.
  Qed.
  Lemma pipe_out_one tr w k : single -> frun start tr w -> Forall no_log_message tr -> k <= depth ->
    keep (through f k) (put_in 0 tr) = sent next k tr ++ under_way tr w k.
  Proof.
    intros O R F. induction k as [|k IH]; intro L.
    - simpl. rewrite sent_first, app_nil_r, keep_some. reflexivity.
    - rewrite keep_through, (IH (Nat.lt_le_incl _ _ L)), keep_app.
      pose proof (channel_run size C stage next (stages_apart stage size) _ _ _ k R) as Q. simpl queue in Q. simpl app in Q. rewrite Q, keep_app.
      destruct (staffed _ _ _ _ _ PL k L) as (i & Li & <-). rewrite (received_one _ _ i O R Li), (component_out _ _ _ R F Li).
      rewrite (sent_one _ _ i O R Li). simpl under_way. rewrite (held_one _ _ _ O Li), <- !app_assoc. reflexivity.
  Qed.
  Lemma pipe_result_one tr w : single -> frun start tr w -> Forall no_log_message tr ->
    keep (through f depth) (put_in 0 tr) = got_out depth tr ++ queue (channels w depth) ++ under_way tr w depth.
  Proof.
    intros O R F. rewrite (pipe_out_one tr w depth O R F (le_n _)). pose proof (channel_run size C stage next (stages_apart stage size) _ _ _ depth R) as Q. simpl in Q.
    rewrite (received_last _ _ R) in Q. rewrite Q, <- app_assoc. reflexivity.
  Qed.

  (** ** Shutting down *)
  Definition done (x : phase St) : Prop := exists r, x = Returned r.
  Definition orderly tr w : Prop :=
    outside_receives (channels w depth) = true /\
    forall i, i < size ->
      (attached (workers w i) = false -> done (thread (workers w i)))
      /\ (done (thread (workers w i)) -> has_sender size next w (stage i) = false /\ queue (channels w (stage i)) = [])
      /\ undeliverable (own i tr) = []
      /\ Forall (fun m => ~ is_stop m) (inbox (workers w i)).
  Context (ticks : forall i s e, snd (tick (C i) s) <> Err e).

  Lemma sender_spec w k : has_sender size next w k = false <->
    outside_sends (channels w k) = false /\ forall i, i < size -> next i = k -> attached (workers w i) = false.
  Proof.
    unfold has_sender. rewrite orb_false_iff. apply and_iff_compat_l. split.
    - intros H i L E. destruct (attached (workers w i)) eqn:A; [|reflexivity]. assert (X : existsb (fun i => attached (workers w i) && Nat.eqb (S (stage i)) k) (seq 0 size) = true).
      { apply existsb_exists. exists i. split; [apply in_seq; lia|]. rewrite A. apply Nat.eqb_eq. exact E. } congruence.
    - intros H. destruct (existsb _ _) eqn:X; [|reflexivity]. apply existsb_exists in X. destruct X as (i & I & X). apply in_seq in I. apply andb_true_iff in X.
      destruct X as [A E]. apply Nat.eqb_eq in E. rewrite H in A by (auto; lia). discriminate.
  Qed.
  Lemma receiver_spec w k : has_receiver size stage w k = false <->
    outside_receives (channels w k) = false /\ forall i, i < size -> stage i = k -> attached (workers w i) = false.
  Proof.
    unfold has_receiver. rewrite orb_false_iff. apply and_iff_compat_l. split.
    - intros H i L E. destruct (attached (workers w i)) eqn:A; [|reflexivity]. assert (X : existsb (fun i => attached (workers w i) && Nat.eqb (stage i) k) (seq 0 size) = true).
      { apply existsb_exists. exists i. split; [apply in_seq; lia|]. rewrite A. apply Nat.eqb_eq. exact E. } congruence.
    - intros H. destruct (existsb _ _) eqn:X; [|reflexivity]. apply existsb_exists in X. destruct X as (i & I & X). apply in_seq in I. apply andb_true_iff in X.
      destruct X as [A E]. apply Nat.eqb_eq in E. rewrite H in A by (auto; lia). discriminate.
  Qed.
  Lemma ends_shrink w e w' : fstep w e w' -> (forall k, outside_sends (channels w k) = false -> outside_sends (channels w' k) = false)
    /\ (forall i, attached (workers w i) = false -> attached (workers w' i) = false).
  Proof.
    intro S. destruct S as [w i a p t ms q b o c r L O S|w i m|w j l|w j l q R Q|w j|w j|w t|w i r0]; split; auto; try (intros k; simpl; unfold set; match goal with |- context [Nat.eqb ?a k] => destruct (Nat.eqb_spec a k) as [->|] end; auto; fail).
    - intros k. rewrite put_channels by (apply (stages_apart stage size); exact L). auto.
  Qed.
  Lemma sender_gone w e w' k : fstep w e w' -> has_sender size next w k = false -> has_sender size next w' k = false.
  Proof. intros S H. destruct (ends_shrink _ _ _ S) as [A B]. apply sender_spec in H. destruct H as [H1 H2]. apply sender_spec. split; eauto. Qed.
  Lemma returned_view w i : has_returned (view w i) <-> done (thread (workers w i)).
  Proof. reflexivity. Qed.

  (** how a component ends *)
  Lemma ends_how D p t ms q b o c r a p' t' ms' q' b' o' c' r' : (forall s e, snd (tick D s) <> Err e) -> Forall (fun m => ~ is_stop m) ms ->
    step D (World p t ms (Wired q b o c r)) a (World p' t' ms' (Wired q' b' o' c' r') : world P St) -> own_label a = true ->
    ~ done p /\ Forall (fun m => ~ is_stop m) ms' /\
    (~ done p' /\ undeliverable [a] = [] \/ (a = LogsGone /\ q = [] /\ b = false) \/ (r = false /\ exists s d l, p = Sending s d l)).
  Proof.
    intros T F S O. splits.
    - intros [x ->]. destruct (returned_step D _ _ _ x (eq_refl : ph (World (Returned x) t ms (Wired q b o c r)) = _) S) as [_ X]. apply X, own_by, O.
    - inversion S; subst; simpl in *; try discriminate; auto. inversion F; auto.
    - inversion S; subst; simpl in *; try discriminate.
      + left. split; auto. intros [x X]. destruct (after_tick_cases D s t') as [(d & E & _)|(e & _ & E)]; [congruence|]. exact (T _ _ E).
      + left. split; auto. intros [x X]. discriminate.
      + left. split; auto. intros [x X]. destruct (after_tick_cases D s t') as [(d' & E & _)|(e & _ & E)]; [congruence|]. exact (T _ _ E).
      + left. split; auto. intros [x X]. inversion F; subst. destruct (process_message_cases D s d m) as [(Y & _)|[(_ & s' & E & _)|(_ & s' & l' & E & _)]]; [contradiction|congruence|congruence].
      + left. split; auto. intros [x X]. destruct (process_log_cases D s d l) as [(s' & E & _)|(s' & l' & E & _)]; congruence.
      + right. left. destruct q'; [|discriminate]. destruct b'; [discriminate|]. auto.
      + left. split; auto. intros [x X]. discriminate.
      + right. right. destruct r'; [discriminate|]. split; auto. eauto.
  Qed.

  Lemma closed_stays_empty tr w e w' k : orderly tr w -> fstep w e w' -> has_sender size next w k = false -> queue (channels w k) = [] -> queue (channels w' k) = [].
  Proof.
    intros (_ & I) S H Q. pose proof (channel_step size C stage next (stages_apart stage size) w e w' k S) as E. rewrite Q in E.
    assert (N : sent next k [e] = []); [|rewrite N in E; simpl in E; symmetry in E; apply app_eq_nil in E; apply E].
    apply sender_spec in H. destruct H as [H1 H2]. destruct S as [w i a p t ms q b o c r L O S|w i m|w j l|w j l q R Q'|w j|w j|w t|w i r0]; try reflexivity.
    - unfold sent. cbn [flat_map]. rewrite app_nil_r. destruct a; try reflexivity. destruct (Nat.eqb_spec (next i) k) as [E'|]; [|reflexivity].
      exfalso. specialize (H2 i L E'). destruct (I i L) as (A & _). specialize (A H2). destruct A as [x A]. unfold Fleet.view in S. rewrite A in S.
      destruct (returned_step _ _ _ _ x (eq_refl : ph (World (Returned x) _ _ _) = _) S) as [_ X]. apply X. exact Logic.I.
    - unfold sent. cbn [flat_map]. rewrite app_nil_r. destruct (Nat.eqb_spec j k) as [->|]; [congruence|reflexivity].
  Qed.
  Lemma orderly_step tr w e w' : ends w -> orderly tr w -> fstep w e w' -> ~ stopped e -> e <> DropReceiver depth -> orderly (tr ++ [e]) w'.
  Proof.
    intros EN OR S NS ND. pose proof OR as (R & I). split.
    - destruct S as [w i a p t ms q b o c r L O S|w i m|w j l|w j l q R' Q|w j|w j|w t|w i r0]; auto.
      + rewrite put_channels by (apply (stages_apart stage size); exact L). exact R.
      + simpl. unfold set. destruct (Nat.eqb_spec j depth) as [->|]; exact R.
      + simpl. unfold set. destruct (Nat.eqb_spec j depth) as [->|]; exact R.
      + simpl. unfold set. destruct (Nat.eqb_spec j depth) as [->|]; exact R.
      + simpl. unfold set. destruct (Nat.eqb_spec j depth) as [->|]; [congruence|exact R].
    - intros i L. destruct (I i L) as (A & B & U & M).
      assert (keepB : done (thread (workers w i)) -> has_sender size next w' (stage i) = false /\ queue (channels w' (stage i)) = []).
      { intro D. destruct (B D) as [B1 B2]. split; [eapply sender_gone; eauto|eapply closed_stays_empty; eauto]. }
      unfold undeliverable in *. rewrite own_app, flat_map_app, U. simpl app.
      destruct S as [w j a p t ms q b o c r Lj O S|w j m Lj RO|w j l|w j l q R' Q|w j|w j|w t|w j r0 Lj D At]; try (splits; auto; fail).
      + rewrite put_workers. unfold own. cbn [flat_map]. destruct (Nat.eqb_spec j i) as [->|N]; [|splits; auto].
        cbn [app thread attached inbox flat_map]. pose proof S as S0. unfold Fleet.view in S. apply ends_how in S; [|apply ticks|exact M|exact O].
        destruct S as (ND' & M' & K). destruct K as [[K1 K2]|[(-> & Q1 & Q2)|(K1 & s & d & l & K2)]].
        * splits; auto; [intro A'; destruct (ND' (A A'))|intro D; contradiction].
        * splits; auto.
          -- intro A'. destruct (ND' (A A')).
          -- intro D. split; [eapply sender_gone; eauto; eapply f_work; eauto|]. eapply closed_stays_empty; eauto. eapply f_work; eauto.
        * exfalso. apply receiver_spec in K1. destruct K1 as [O1 O2]. destruct (Nat.eq_dec (next i) depth) as [E|E]; [congruence|].
          pose proof (in_stages _ _ _ _ _ PL i L) as LD. destruct (staffed _ _ _ _ _ PL (next i) ltac:(cbv beta in *; lia)) as (h & Lh & Eh).
          destruct (I h Lh) as (A2 & B2 & _). destruct (B2 (A2 (O2 h Lh Eh))) as [S2 _]. rewrite Eh in S2. apply sender_spec in S2. destruct S2 as [_ S2].
          specialize (S2 i L eq_refl). exact (ND' (A S2)).
      + simpl. unfold set. destruct (Nat.eqb_spec j i) as [->|N]; simpl; [|splits; auto]. splits; auto. apply Forall_app. split; auto. constructor; [|constructor].
        intro X. apply NS. exists i, m. auto.
      + simpl. unfold set. destruct (Nat.eqb_spec j i) as [->|N]; simpl; splits; auto. intros _. exists r0. exact D.
  Qed.
  Lemma orderly_run tr w : frun start tr w -> Forall (fun e => ~ stopped e) tr -> ~ In (DropReceiver depth) tr -> orderly tr w.
  Proof.
    intro R. remember start as w0 eqn:E. induction R as [|w0 tr w1 a w2 R IH S]; intros F N.
    - subst. split; [simpl; apply Nat.eqb_refl|]. intros i L. splits; [discriminate|intros [r X]; discriminate|reflexivity|constructor].
    - subst w0. apply Forall_app in F. destruct F as [F Fa]. inversion Fa; subst. eapply orderly_step; eauto.
      + eapply ends_run; eauto.
      + apply IH; auto. intro X. apply N. apply in_or_app. auto.
      + intros ->. apply N. apply in_or_app. right. left. reflexivity.
  Qed.

  (** Nothing more to do *)
  Definition settled w : Prop := forall e w', inside e -> ~ fstep w e w'.
  Lemma settled_worker w i : settled w -> i < size ->
    (done (thread (workers w i)) /\ attached (workers w i) = false)
    \/ (exists s d, thread (workers w i) = Waiting s d /\ queue (channels w (stage i)) = [] /\ has_sender size next w (stage i) = true)
    \/ (exists s d l, thread (workers w i) = Sending s d l /\ has_room (channels w (next i)) = false /\ has_receiver size stage w (next i) = true).
  Proof.
    intros H L. assert (X : forall a (x : world P St), by_component a -> ~ step (C i) (view w i) a x).
    { intros a v B S. destruct v as [p t ms x].
      assert (W : exists q b o c r, x = Wired q b o c r).
      { pose proof (step_wired (C i) _ _ _ (I : is_wired (view w i)) S) as W. unfold is_wired in W. simpl in W. destruct x; [destruct W|]. eauto 6. }
      destruct W as (q & b & o & c & r & ->). eapply (H (Work i a)); [exact I|]. eapply f_work; eauto. apply by_own. exact B. }
    destruct (stuck_cases (C i) (view w i) X) as [(r & D)|[(s & d & E & R & _)|(s & d & l & E & O & G)]]; simpl in *.
    - left. split; [exists r; exact D|]. destruct (attached (workers w i)) eqn:A; [|reflexivity]. exfalso. eapply (H (Detach i)); [exact I|]. eapply f_detach; eauto.
    - right. left. exists s, d. unfold ready in R. simpl in R. destruct (inbox (workers w i)); [|discriminate]. destruct (queue (channels w (stage i))); [|discriminate].
      splits; auto. destruct (has_sender size next w (stage i)); auto; discriminate.
    - right. right. exists s, d, l. splits; auto. destruct (has_receiver size stage w (S (stage i))); auto; discriminate.
  Qed.
  Lemma settled_all tr w : frun start tr w -> settled w -> outside_sends (channels w 0) = false -> (forall k, can_hold (caps k)) ->
    has_room (channels w depth) = true -> forall i, i < size -> done (thread (workers w i)) /\ attached (workers w i) = false.
  Proof.
    intros R ST O CH RM. pose proof (ends_run _ _ R) as EN.
    assert (A : forall n i, depth - stage i <= n -> i < size -> forall s d l, thread (workers w i) = Sending s d l -> False).
    { induction n as [|n IH]; intros i B L s d l T; [pose proof (in_stages _ _ _ _ _ PL i L); lia|].
      destruct (settled_worker w i ST L) as [([r D] & _)|[(s' & d' & E & _)|(s' & d' & l' & _ & FR & HR)]]; try congruence.
      destruct (Nat.eq_dec (next i) depth) as [E|E]; [rewrite E in FR; congruence|]. pose proof (in_stages _ _ _ _ _ PL i L) as LD.
      assert (Q : queue (channels w (next i)) <> []).
      { intro Q. unfold has_room in FR. rewrite Q in FR. destruct (EN (next i)) as [C1 _]. specialize (CH (next i)). unfold can_hold in CH. rewrite <- C1 in CH.
        cbv beta in *. destruct (capacity (channels w (S (stage i)))) as [[|m]|]; cbn in FR; congruence. }
      assert (W : exists j, j < size /\ stage j = next i /\ attached (workers w j) = true).
      { destruct (EN (next i)) as (_ & _ & C2). unfold has_receiver in HR. apply orb_true_iff in HR. destruct HR as [HR|HR]; [exfalso; apply E; apply C2; exact HR|].
        apply existsb_exists in HR. destruct HR as (j & J & HR). apply in_seq in J. apply andb_true_iff in HR. destruct HR as [HA HE]. apply Nat.eqb_eq in HE. exists j. splits; auto. lia. }
      destruct W as (j & Lj & Ej & Aj). destruct (settled_worker w j ST Lj) as [(_ & D)|[(s2 & d2 & _ & Q' & _)|(s2 & d2 & l2 & T' & _)]]; try congruence.
      apply (IH j ltac:(cbv beta in *; lia) Lj _ _ _ T'). }
    assert (B : forall k i, i < size -> stage i = k -> done (thread (workers w i)) /\ attached (workers w i) = false).
    { induction k as [k IH] using lt_wf_ind. intros i L E. destruct (settled_worker w i ST L) as [D|[(s & d & _ & _ & HS)|(s & d & l & T & _)]]; [exact D| |destruct (A _ i (le_n _) L _ _ _ T)].
      exfalso. destruct (has_sender size next w (stage i)) eqn:X; [|discriminate]. assert (Y : has_sender size next w (stage i) = false); [|congruence].
      apply sender_spec. split.
      - destruct (EN (stage i)) as (_ & C1 & _). destruct (outside_sends (channels w (stage i))) eqn:Z; [|reflexivity]. rewrite (C1 eq_refl) in Z. congruence.
      - intros j Lj Ej. apply (IH (stage j) ltac:(cbv beta in *; lia) j Lj eq_refl). }
    intros i L. exact (B _ i L eq_refl).
  Qed.
  Lemma shutdown tr w : frun start tr w -> settled w -> outside_sends (channels w 0) = false -> (forall k, can_hold (caps k)) ->
    has_room (channels w depth) = true -> Forall (fun e => ~ stopped e) tr -> ~ In (DropReceiver depth) tr ->
    (forall i, i < size -> done (thread (workers w i))) /\ under_way tr w depth = [].
  Proof.
    intros R ST O CH RM F N. pose proof (settled_all _ _ R ST O CH RM) as A. pose proof (orderly_run _ _ R F N) as (_ & I). split; [intros i L; apply A; exact L|].
    apply nothing_under_way. intros k L. split.
    - unfold held. apply seg_nil. intros i Ii. apply in_seq in Ii. destruct (Nat.eqb_spec (stage i) k); [|reflexivity].
      destruct (I i ltac:(lia)) as (_ & _ & U & _). rewrite U. destruct (A i ltac:(lia)) as [[r D] _]. unfold in_hand. simpl. rewrite D. reflexivity.
    - destruct (staffed _ _ _ _ _ PL k L) as (i & Li & <-). destruct (I i Li) as (_ & B & _). apply B. apply A. exact Li.
  Qed.

End Stages.

(** * Bounded work *)
Section Work.
  Context {P : payloads} {St : Type} (size depth : nat) (C : nat -> component P St) (stage : nat -> nat) (f : nat -> log -> option log).
  Context (PL : pipeline size C stage depth f).
  Implicit Types (w : fleet P St) (tr : list (event P)).
  Notation next := (fun i => S (stage i)).
  Notation fstep := (fstep size C stage next).
  Notation frun := (frun size C stage next).
  Definition cost k := 4 * (depth - k).
  Definition phase_cost k (u : worker P St) : nat :=
    match thread u with
    | Starting _ => 5 | Sending _ _ _ => 4 + cost (S k) | Polling _ _ => 3 | Waiting _ _ => 2
    | Returned _ => if attached u then 1 else 0
    end.
  Definition worker_cost w i := phase_cost (stage i) (workers w i) + cost (stage i) * length (inbox (workers w i)).
  Definition potential w := total (fun k => cost k * length (queue (channels w k))) (S depth) + total (worker_cost w) size.
  Definition ticked (e : event P) : nat := match e with Work _ Tick => 1 | _ => 0 end.

  Lemma local_cost D k p t ms q b o c r a p' t' ms' q' b' o' c' r' at0 : k < depth ->
    step D (World p t ms (Wired q b o c r)) a (World p' t' ms' (Wired q' b' o' c' r') : world P St) -> own_label a = true ->
    phase_cost k (Worker p' ms' at0) + cost k * length ms' + cost k * length q' + cost (S k) * length o' + 1
      <= phase_cost k (Worker p ms at0) + cost k * length ms + cost k * length q + cost (S k) * length o + 2 * match a with Tick => 1 | _ => 0 end.
  Proof.
    intros L ST O. assert (K : cost k = cost (S k) + 4) by (unfold cost; lia). unfold phase_cost; cbn [thread attached].
    pose proof (own_step _ _ _ _ _ _ _ _ _ _ _ _ _ _ _ _ _ _ O ST) as (_ & Q & Qo & _).
    inversion ST; subst; cbn [took gave app length] in *; try discriminate O; rewrite ?app_nil_r in *.
    - destruct (after_tick_cases D s t') as [(d & -> & _)|(e & -> & _)]; destruct at0; lia.
    - lia.
    - destruct (after_tick_cases D s t') as [(d' & -> & _)|(e & -> & _)]; destruct at0; lia.
    - match goal with H : selecting _ = Some _ |- _ => apply selecting_phase in H; cbn [ph] in H end.
      destruct (process_message_cases D s d m) as [(_ & -> & _)|[(_ & s' & -> & _)|(_ & s' & l' & -> & _)]];
        match goal with H : _ \/ _ |- _ => destruct H as [-> | ->] end; cbn [length]; rewrite ?Nat.mul_succ_r; destruct at0; lia.
    - match goal with H : selecting _ = Some _ |- _ => apply selecting_phase in H; cbn [ph] in H end.
      destruct (process_log_cases D s d l) as [(s' & -> & _)|(s' & l' & -> & _)];
        match goal with H : _ \/ _ |- _ => destruct H as [-> | ->] end; cbn [length]; rewrite ?Nat.mul_succ_r; destruct at0; lia.
    - match goal with H : selecting _ = Some _ |- _ => apply selecting_phase in H; cbn [ph] in H end.
      match goal with H : _ \/ _ |- _ => destruct H as [-> | ->] end; destruct at0; lia.
    - rewrite app_length. cbn [length]. lia.
    - destruct at0; lia.
  Qed.

  Lemma potential_step w e w' : fstep w e w' -> inside e -> potential w' + 1 <= potential w + 2 * ticked e.
  Proof.
    intros ST IN. destruct ST as [w i a p t ms q b o c r L O ST|w i m|w j l|w j l q R Q|w j|w j|w t|w i r0 L D A]; try destruct IN.
    - pose proof (in_stages _ _ _ _ _ PL i L) as LD. unfold Fleet.view in ST.
      pose proof (local_cost (C i) (stage i) _ _ _ _ _ _ _ _ _ _ _ _ _ _ _ _ _ (attached (workers w i)) LD ST O) as LC.
      unfold potential. set (w' := put stage next w i p ms q o).
      assert (W : total (worker_cost w') size + worker_cost w i = total (worker_cost w) size + worker_cost w' i).
      { apply total_change; [exact L|]. intros j N. unfold worker_cost, w'. rewrite put_workers. destruct (Nat.eqb_spec i j); [congruence|reflexivity]. }
      assert (Wi : worker_cost w' i = phase_cost (stage i) (Worker p ms (attached (workers w i))) + cost (stage i) * length ms).
      { unfold worker_cost, w'. rewrite put_workers, Nat.eqb_refl. reflexivity. }
      assert (Wo : worker_cost w i = phase_cost (stage i) (Worker (thread (workers w i)) (inbox (workers w i)) (attached (workers w i))) + cost (stage i) * length (inbox (workers w i))).
      { reflexivity. }
      set (g := fun k => cost k * length (queue (channels w k))). set (g' := fun k => cost k * length (queue (channels w' k))).
      set (h := fun k => if Nat.eqb k (stage i) then g' k else g k).
      assert (H1 : total h (S depth) + g (stage i) = total g (S depth) + h (stage i)).
      { apply total_change; [lia|]. intros k N. unfold h. destruct (Nat.eqb_spec k (stage i)); [contradiction|reflexivity]. }
      assert (H2 : total g' (S depth) + h (S (stage i)) = total h (S depth) + g' (S (stage i))).
      { apply total_change; [lia|]. intros k N. unfold h. destruct (Nat.eqb_spec k (stage i)) as [E|E]; [reflexivity|]. unfold g', g, w'.
        rewrite put_channels by (apply (stages_apart stage size); exact L). cbn [with_queue queue]. destruct (Nat.eqb_spec (stage i) k); [congruence|].
        destruct (Nat.eqb_spec (S (stage i)) k); [congruence|reflexivity]. }
      assert (E1 : h (stage i) = cost (stage i) * length q).
      { unfold h. rewrite Nat.eqb_refl. unfold g', w'. rewrite put_channels by (apply (stages_apart stage size); exact L). cbn [with_queue queue]. rewrite Nat.eqb_refl. reflexivity. }
      assert (E2 : h (S (stage i)) = g (S (stage i))).
      { unfold h. destruct (Nat.eqb_spec (S (stage i)) (stage i)); [lia|reflexivity]. }
      assert (E3 : g' (S (stage i)) = cost (S (stage i)) * length o).
      { unfold g', w'. rewrite put_channels by (apply (stages_apart stage size); exact L). cbn [with_queue queue]. destruct (Nat.eqb_spec (stage i) (S (stage i))); [lia|]. rewrite Nat.eqb_refl. reflexivity. }
      assert (G1 : g (stage i) = cost (stage i) * length (queue (channels w (stage i)))) by reflexivity.
      assert (G2 : g (S (stage i)) = cost (S (stage i)) * length (queue (channels w (S (stage i))))) by reflexivity.
      rewrite E1, G1 in H1. rewrite E2, E3, G2 in H2. rewrite Wi, Wo in W.
      change (total (fun k => cost k * length (queue (channels w' k))) (S depth)) with (total g' (S depth)).
      change (total (fun k => cost k * length (queue (channels w k))) (S depth)) with (total g (S depth)).
      cbv beta in *. clearbody g g' h. clear E1 E2 E3 G1 G2 Wi Wo. unfold ticked. destruct a; lia.
    - unfold potential. set (w' := Fleet _ _ _).
      assert (W : total (worker_cost w') size + worker_cost w i = total (worker_cost w) size + worker_cost w' i).
      { apply total_change; [exact L|]. intros j N. unfold worker_cost, w'. cbn [workers]. rewrite set_other by congruence. reflexivity. }
      assert (Wi : worker_cost w' i + 1 = worker_cost w i).
      { unfold worker_cost, w'. cbn [workers]. rewrite set_same. unfold phase_cost. cbn [thread attached inbox]. rewrite D, A. lia. }
      change (fun k => cost k * length (queue (channels w' k))) with (fun k => cost k * length (queue (channels w k))). lia.
  Qed.
  Lemma work_bound w tr w' : frun w tr w' -> Forall inside tr -> length tr + potential w' <= potential w + 2 * tick_count tr.
  Proof.
    intro R. induction R as [|w tr w1 a w2 R IH ST]; intro F; [unfold tick_count; simpl; lia|].
    apply Forall_app in F. destruct F as [F Fa]. inversion Fa as [|? ? Ia]; subst. specialize (IH F). pose proof (potential_step _ _ _ ST Ia) as PS.
    unfold tick_count in *. rewrite filter_app, !app_length. cbn [length filter]. unfold ticked in PS. destruct a as [i []| | | | | | | ]; simpl in *; lia.
  Qed.
  Lemma potential_bound w : potential w <= 4 * depth * pending size depth w + (4 * depth + 5) * size.
  Proof.
    unfold potential, pending. fold (total (fun k => length (queue (channels w k))) (S depth)). fold (total (fun i => length (inbox (workers w i))) size).
    assert (A : total (fun k => cost k * length (queue (channels w k))) (S depth) <= 4 * depth * total (fun k => length (queue (channels w k))) (S depth)).
    { rewrite <- total_scale. apply total_le. intros k _. apply Nat.mul_le_mono_r. unfold cost. lia. }
    assert (B : total (worker_cost w) size <= total (fun i => (4 * depth + 5) + 4 * depth * length (inbox (workers w i))) size).
    { apply total_le. intros i _. unfold worker_cost. apply Nat.add_le_mono.
      - unfold phase_cost, cost. destruct (thread (workers w i)); try destruct (attached (workers w i)); lia.
      - apply Nat.mul_le_mono_r. unfold cost. lia. }
    rewrite (total_plus (fun _ => 4 * depth + 5)), total_const, total_scale in B. lia.
  Qed.
End Work.
