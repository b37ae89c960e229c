(** Rust's [BTreeMap]/[BTreeSet] as association lists kept sorted by key.
    [bt_insert] replaces or inserts at the sorted position, [bt_get] is a search,
    iteration order is list order.  The order of keys is Rust's ([Ord] of the key). *)
From Coq Require Import List Bool Sorted Lia.
From Verif Require Import Base.Ord.
Import ListNotations.

Section BTree.
  Context {K V : Type} {OK : Ord K}.

  Definition bt := list (K * V).
  Definition bt_empty : bt := [].

  Fixpoint bt_get (k : K) (m : bt) : option V :=
    match m with
    | [] => None
    | (k', v) :: r => if keqb k k' then Some v else bt_get k r
    end.

  Fixpoint bt_insert (k : K) (v : V) (m : bt) : bt :=
    match m with
    | [] => [(k, v)]
    | (k', v') :: r =>
        match cmp k k' with
        | Lt => (k, v) :: (k', v') :: r
        | Eq => (k, v) :: r
        | Gt => (k', v') :: bt_insert k v r
        end
    end.

  Definition bt_remove (k : K) (m : bt) : bt :=
    filter (fun p => negb (keqb k (fst p))) m.

  Definition bt_retain (f : K -> V -> bool) (m : bt) : bt :=
    filter (fun p => f (fst p) (snd p)) m.

  Definition bt_keys (m : bt) : list K := map fst m.

  Definition bt_has (k : K) (m : bt) : bool :=
    match bt_get k m with Some _ => true | None => false end.

  Definition bt_of_list (l : list (K * V)) : bt :=
    fold_left (fun m p => bt_insert (fst p) (snd p) m) l bt_empty.

  Definition key_lt (p q : K * V) : Prop := cmp (fst p) (fst q) = Lt.
  Definition bt_wf (m : bt) : Prop := StronglySorted key_lt m.

  (** ** Laws *)
  Lemma bt_get_insert_eq k v m : bt_get k (bt_insert k v m) = Some v.
  Proof.
    induction m as [|[k' v'] r IH]; simpl.
    - rewrite keqb_refl; reflexivity.
    - destruct (cmp k k') eqn:E; simpl; rewrite ?keqb_refl; auto.
      unfold keqb at 1. rewrite E. exact IH.
  Qed.

  Lemma bt_get_insert_ne k k' v m : k <> k' -> bt_get k (bt_insert k' v m) = bt_get k m.
  Proof.
    intros Hn. induction m as [|[k2 v2] r IH]; simpl.
    - destruct (keqb_spec k k'); congruence.
    - destruct (cmp k' k2) eqn:E; simpl.
      + apply cmp_eq in E; subst. destruct (keqb_spec k k2); congruence.
      + destruct (keqb_spec k k'); congruence.
      + destruct (keqb k k2); auto.
  Qed.

  Lemma bt_get_insert k k' v m :
    bt_get k (bt_insert k' v m) = if keqb k k' then Some v else bt_get k m.
  Proof.
    destruct (keqb_spec k k') as [->|Hn].
    - apply bt_get_insert_eq.
    - apply bt_get_insert_ne; exact Hn.
  Qed.

  Lemma bt_get_filter_key (f : K -> bool) k m :
    bt_get k (filter (fun p => f (fst p)) m) = if f k then bt_get k m else None.
  Proof.
    induction m as [|[k' v'] r IH]; simpl.
    - destruct (f k); reflexivity.
    - destruct (f k') eqn:E; simpl; destruct (keqb_spec k k') as [->|Hn]; rewrite ?IH.
      + rewrite E; reflexivity.
      + reflexivity.
      + rewrite E; reflexivity.
      + reflexivity.
  Qed.

  Lemma bt_get_remove k k' m :
    bt_get k (bt_remove k' m) = if keqb k k' then None else bt_get k m.
  Proof.
    unfold bt_remove. rewrite (bt_get_filter_key (fun x => negb (keqb k' x))).
    destruct (keqb_spec k' k), (keqb_spec k k'); simpl; congruence.
  Qed.

  Lemma bt_has_insert k k' v m : bt_has k (bt_insert k' v m) = keqb k k' || bt_has k m.
  Proof. unfold bt_has. rewrite bt_get_insert. destruct (keqb k k'); reflexivity. Qed.

  Lemma bt_get_In k v m : bt_get k m = Some v -> In (k, v) m.
  Proof.
    induction m as [|[k' v'] r IH]; simpl; [discriminate|].
    destruct (keqb_spec k k') as [->|Hn]; intros H.
    - left; congruence.
    - right; auto.
  Qed.

  Lemma bt_get_None k m : bt_get k m = None <-> ~ In k (bt_keys m).
  Proof.
    induction m as [|[k' v'] r IH]; simpl; [tauto|].
    destruct (keqb_spec k k') as [->|Hn].
    - split; [discriminate|tauto].
    - rewrite IH. split; intros H; [intros [H'|H']; [congruence|tauto]|tauto].
  Qed.

  Lemma bt_has_keys k m : bt_has k m = true <-> In k (bt_keys m).
  Proof.
    unfold bt_has. destruct (bt_get k m) eqn:E.
    - split; [|reflexivity]. intros _. apply bt_get_In in E. apply (in_map fst) in E. exact E.
    - split; [discriminate|]. intros H. apply bt_get_None in E. contradiction.
  Qed.

  Lemma wf_empty : bt_wf bt_empty.
  Proof. constructor. Qed.

  Lemma Forall_insert (P : K * V -> Prop) k v m :
    P (k, v) -> Forall P m -> Forall P (bt_insert k v m).
  Proof.
    intros Hk Hm; induction Hm as [|[k' v'] r Hp Hr IH]; simpl; [auto|].
    destruct (cmp k k'); auto.
  Qed.

  Lemma wf_insert k v m : bt_wf m -> bt_wf (bt_insert k v m).
  Proof.
    induction m as [|[k' v'] r IH]; simpl; intros H.
    - repeat constructor.
    - inversion H as [|? ? Hs Hf]; subst.
      destruct (cmp k k') eqn:E.
      + apply cmp_eq in E; subst. constructor; auto.
      + constructor; [constructor; auto|]. constructor; [exact E|].
        eapply Forall_impl; [|exact Hf]. intros [k2 v2] H2. unfold key_lt in *; simpl in *.
        eapply cmp_lt_trans; eauto.
      + constructor; [apply IH; auto|]. apply Forall_insert; [|exact Hf].
        unfold key_lt; simpl. apply cmp_gt_lt; exact E.
  Qed.

  Lemma wf_filter (f : K * V -> bool) m : bt_wf m -> bt_wf (filter f m).
  Proof.
    induction 1 as [|p r Hr IH Hf]; simpl; [constructor|].
    destruct (f p); [|exact IH]. constructor; [exact IH|].
    apply Forall_forall. intros x Hx. apply filter_In in Hx. rewrite Forall_forall in Hf.
    apply Hf; tauto.
  Qed.

  Lemma wf_remove k m : bt_wf m -> bt_wf (bt_remove k m).
  Proof. apply wf_filter. Qed.

  Lemma wf_In_get k v m : bt_wf m -> In (k, v) m -> bt_get k m = Some v.
  Proof.
    induction 1 as [|[k' v'] r Hr IH Hf]; simpl; [tauto|].
    intros [H|H].
    - inversion H; subst. rewrite keqb_refl; reflexivity.
    - rewrite Forall_forall in Hf. specialize (Hf _ H). unfold key_lt in Hf; simpl in Hf.
      destruct (keqb_spec k k') as [->|Hn]; [|auto].
      exfalso; revert Hf; apply cmp_lt_irrefl.
  Qed.

  Lemma bt_get_retain f k m : bt_wf m ->
    bt_get k (bt_retain f m) =
      match bt_get k m with Some v => if f k v then Some v else None | None => None end.
  Proof.
    induction 1 as [|[k' v'] r Hr IH Hf]; simpl; [reflexivity|].
    destruct (keqb_spec k k') as [->|Hn].
    - destruct (f k' v') eqn:E; simpl; [rewrite keqb_refl; reflexivity|].
      fold (bt_retain f r). rewrite IH.
      destruct (bt_get k' r) eqn:E2; [|reflexivity].
      apply bt_get_In in E2. rewrite Forall_forall in Hf. specialize (Hf _ E2).
      exfalso; revert Hf; apply cmp_lt_irrefl.
    - fold (bt_retain f r). destruct (f k' v'); simpl; [destruct (keqb_spec k k'); [congruence|]|]; exact IH.
  Qed.

  (** Two maps with the same lookups are the same map. *)
  Lemma bt_ext m1 m2 : bt_wf m1 -> bt_wf m2 ->
    (forall k, bt_get k m1 = bt_get k m2) -> m1 = m2.
  Proof.
    intros H1; revert m2; induction H1 as [|[k1 v1] r1 Hr1 IH Hf1]; intros m2 H2 He.
    - destruct m2 as [|[k2 v2] r2]; [reflexivity|].
      specialize (He k2); simpl in He. rewrite keqb_refl in He; discriminate.
    - destruct H2 as [|[k2 v2] r2 Hr2 Hf2].
      + specialize (He k1); simpl in He. rewrite keqb_refl in He; discriminate.
      + assert (Hlt : forall k v r k', Forall (key_lt (k', v)) r -> bt_get k r <> None -> cmp k' k = Lt).
        { intros k v r k' Hf Hg. destruct (bt_get k r) eqn:E; [|congruence].
          apply bt_get_In in E. rewrite Forall_forall in Hf. exact (Hf _ E). }
        assert (Hk : k1 = k2).
        { destruct (ord_eq_dec k1 k2) as [|Hn]; [assumption|exfalso].
          assert (A : cmp k2 k1 = Lt).
          { apply (Hlt k1 v2 r2 k2 Hf2). specialize (He k1); simpl in He.
            rewrite keqb_refl in He. destruct (keqb_spec k1 k2); [contradiction|].
            rewrite <- He; discriminate. }
          assert (B : cmp k1 k2 = Lt).
          { apply (Hlt k2 v1 r1 k1 Hf1). specialize (He k2); simpl in He.
            rewrite keqb_refl in He. destruct (keqb_spec k2 k1); [congruence|].
            rewrite He; discriminate. }
          pose proof (cmp_lt_trans _ _ _ A B) as C. revert C; apply cmp_lt_irrefl. }
        subst k2.
        assert (Hv : v1 = v2).
        { specialize (He k1); simpl in He. rewrite keqb_refl in He; congruence. }
        subst v2. f_equal. apply IH; [exact Hr2|].
        intros k. specialize (He k); simpl in He.
        destruct (keqb_spec k k1) as [Hkk|Hn]; [|exact He]. rewrite Hkk. clear He.
        transitivity (@None V).
        * destruct (bt_get k1 r1) eqn:E; [|reflexivity]. exfalso.
          apply (cmp_lt_irrefl k1). apply (Hlt k1 v1 r1 k1 Hf1); congruence.
        * symmetry. destruct (bt_get k1 r2) eqn:E; [|reflexivity]. exfalso.
          apply (cmp_lt_irrefl k1). apply (Hlt k1 v1 r2 k1 Hf2); congruence.
  Qed.

  Lemma bt_keys_sorted m : bt_wf m -> StronglySorted (fun a b => cmp a b = Lt) (bt_keys m).
  Proof.
    induction 1 as [|p r Hr IH Hf]; simpl; constructor; auto.
    apply Forall_map. eapply Forall_impl; [|exact Hf]. auto.
  Qed.

  Lemma bt_keys_nodup m : bt_wf m -> NoDup (bt_keys m).
  Proof.
    intros H; apply bt_keys_sorted in H. induction H as [|k r Hr IH Hf]; constructor; auto.
    intros Hin. rewrite Forall_forall in Hf. exact (cmp_lt_irrefl _ (Hf _ Hin)).
  Qed.

  Lemma wf_fold_insert {A} (f : A -> K) (g : A -> V) (l : list A) m :
    bt_wf m -> bt_wf (fold_left (fun m a => bt_insert (f a) (g a) m) l m).
  Proof. revert m; induction l as [|a l IH]; simpl; auto. intros m H; apply IH, wf_insert, H. Qed.

  Lemma wf_of_list l : bt_wf (bt_of_list l).
  Proof. apply wf_fold_insert, wf_empty. Qed.

  (** Value of the last pair of [l] with key [k]: "last writer wins". *)
  Fixpoint last_assoc (k : K) (l : list (K * V)) : option V :=
    match l with
    | [] => None
    | (k', v) :: r =>
        match last_assoc k r with
        | Some w => Some w
        | None => if keqb k k' then Some v else None
        end
    end.

  Lemma bt_get_fold_insert l k m :
    bt_get k (fold_left (fun m p => bt_insert (fst p) (snd p) m) l m) =
      match last_assoc k l with Some v => Some v | None => bt_get k m end.
  Proof.
    revert m; induction l as [|[k' v] l IH]; simpl; intros m; [reflexivity|].
    rewrite IH. destruct (last_assoc k l); [reflexivity|].
    rewrite bt_get_insert. destruct (keqb k k'); reflexivity.
  Qed.

  Lemma bt_get_of_list l k : bt_get k (bt_of_list l) = last_assoc k l.
  Proof. unfold bt_of_list. rewrite bt_get_fold_insert. destruct (last_assoc k l); reflexivity. Qed.
End BTree.
Arguments bt K V : clear implicits.

(** Sets are maps to [unit]. *)
Definition bset (K : Type) := bt K unit.
Definition bset_add {K} `{Ord K} (k : K) (s : bset K) : bset K := bt_insert k tt s.
Definition bset_mem {K} `{Ord K} (k : K) (s : bset K) : bool := bt_has k s.
Definition bset_elems {K} (s : bset K) : list K := bt_keys s.
