(** The testing storage refines a shared key/value store. *)
From Coq Require Import String Ascii NArith List Bool Arith Lia.
From Verif Require Import Base.Ord Base.BTree Base.Outcome Base.Arith Model.Err Model.Storage Spec.StorageSpec Proofs.KernelP.
Import ListNotations.
Local Open Scope nat_scope.

Definition refines (files_too : bool) (h : heap) (s : shared) : Prop :=
  length (handles h) = made s /\ length (stores h) = nroots s
  /\ (forall i, i < made s -> nth_error (handles h) i = Some (root s i) /\ root s i < nroots s)
  /\ (forall r, r < nroots s -> exists st, nth_error (stores h) r = Some st
        /\ (forall k, bt_get k (values st) = val s r k)
        /\ (files_too = true -> forall p, bt_get p (files st) = fil s r p))
  /\ (forall r k, nroots s <= r -> val s r k = None)
  /\ (forall r k, nroots s <= r -> fil s r k = None).

Lemma on_store_refines b h s i f (g : nat -> shared) :
  refines b h s -> i < made s ->
  (forall st, (forall k, bt_get k (values st) = val s (root s i) k) ->
     (b = true -> forall p, bt_get p (files st) = fil s (root s i) p) ->
     (forall k, bt_get k (values (f st)) = val (g (root s i)) (root s i) k)
     /\ (b = true -> forall p, bt_get p (files (f st)) = fil (g (root s i)) (root s i) p)) ->
  (forall r, made (g r) = made s /\ nroots (g r) = nroots s /\ (forall j, root (g r) j = root s j)
     /\ (forall r' k, r' <> r -> val (g r) r' k = val s r' k) /\ (forall r' k, r' <> r -> fil (g r) r' k = fil s r' k)) ->
  refines b (on_store h i f) (g (root s i)).
Proof.
  intros (L1 & L2 & H & S & V & F) Hi Hf Hg. destruct (H i Hi) as [E R]. destruct (S _ R) as (st & Es & Sv & Sf).
  destruct (Hg (root s i)) as (G1 & G2 & G3 & G4 & G5). destruct (Hf st Sv Sf) as [Fv Ff].
  unfold on_store. rewrite E, Es. unfold refines. cbn [handles stores]. rewrite G1, G2. splits; auto.
  - rewrite length_set; auto. lia.
  - intros j Hj. rewrite G3. auto.
  - intros r Hr. rewrite nth_set by lia. destruct (Nat.eqb_spec r (root s i)) as [->|Hn].
    + exists (f st). auto.
    + destruct (S r Hr) as (st' & Es' & Sv' & Sf'). exists st'. splits; auto.
      * intro k. rewrite G4; auto.
      * intros Hb p. rewrite G5; auto.
  - intros r k Hr. rewrite G4 by lia. auto.
  - intros r k Hr. rewrite G5 by lia. auto.
Qed.

Lemma set_at2_same {A} (f : nat -> string -> A) i k x k' : set_at2 f i k x i k' = if String.eqb k' k then x else f i k'.
Proof. unfold set_at2. rewrite Nat.eqb_refl. reflexivity. Qed.
Lemma set_at2_other {A} (f : nat -> string -> A) i k x j k' : j <> i -> set_at2 f i k x j k' = f j k'.
Proof. unfold set_at2. intro H. destruct (Nat.eqb_spec j i); [contradiction|reflexivity]. Qed.

Lemma keqb_string (a b : string) : keqb a b = String.eqb a b.
Proof. destruct (String.eqb_spec a b) as [->|N]; [apply keqb_refl|]. destruct (keqb_spec a b); congruence. Qed.

Lemma get_insert_string {V} k k' (v : V) m : bt_get k (bt_insert k' v m) = if String.eqb k k' then Some v else bt_get k m.
Proof. rewrite bt_get_insert, keqb_string. reflexivity. Qed.

Lemma refines_step b h s o : refines b h s ->
  (b = true -> match o with SSetFileRange _ _ _ _ _ => False | _ => True end) -> refines b (sstep h o) (shared_step s o).
Proof.
  intros R W. pose proof R as (L1 & L2 & H & S & V & F).
  destruct o as [|i|i k v rep|i p c|i p c a z]; cbn [sstep shared_step].
  - unfold refines. cbn [handles stores made nroots root val fil]. rewrite !app_length. cbn [length]. splits; try lia.
    + intros j Hj. unfold set_at. destruct (Nat.eqb_spec j (made s)) as [->|N].
      * rewrite nth_error_app2, L1, Nat.sub_diag by lia. rewrite L2. split; [reflexivity|lia].
      * rewrite nth_error_app1 by lia. destruct (H j) as [E K]; [lia|]. split; [exact E|lia].
    + intros r Hr. destruct (Nat.eq_dec r (nroots s)) as [->|N].
      * exists store_new. rewrite nth_error_app2, L2, Nat.sub_diag by lia. splits; [reflexivity| |]; intros; simpl; [rewrite V|rewrite F]; auto.
      * rewrite nth_error_app1 by lia. apply S. lia.
    + intros r k Hr. apply V. lia.
    + intros r k Hr. apply F. lia.
  - destruct (Nat.ltb_spec i (made s)) as [Hi|Hi].
    + destruct (H i Hi) as [E K]. rewrite E. unfold refines. cbn [handles stores made nroots root val fil]. rewrite app_length. cbn [length].
      splits; auto; try lia. intros j Hj. unfold set_at. destruct (Nat.eqb_spec j (made s)) as [->|N].
      * rewrite nth_error_app2, L1, Nat.sub_diag by lia. auto.
      * rewrite nth_error_app1 by lia. apply H. lia.
    + rewrite (proj2 (nth_error_None _ _)) by lia. exact R.
  - destruct (Nat.ltb_spec i (made s)) as [Hi|Hi].
    2: { unfold on_store. rewrite (proj2 (nth_error_None _ _)) by lia. exact R. }
    destruct (val s (root s i) k) as [old|] eqn:Ev; [destruct rep|].
    + apply (on_store_refines b h s i _ (fun r => Shared (made s) (nroots s) (root s) (set_at2 (val s) r k (Some v)) (fil s))); [exact R|exact Hi| |].
      * intros st Hv Hfl. cbn [val fil]. unfold set_value. cbn [negb andb fst values files]. split; auto.
        intro k'. rewrite get_insert_string, set_at2_same, Hv. reflexivity.
      * intros r. cbn. splits; auto. intros r' k' N. apply set_at2_other, N.
    + apply (on_store_refines b h s i _ (fun r => s)); [exact R|exact Hi| |].
      * intros st Hv Hfl. unfold set_value, bt_has. cbn [negb andb]. rewrite (Hv k), Ev. auto.
      * intros r. splits; auto.
    + apply (on_store_refines b h s i _ (fun r => Shared (made s) (nroots s) (root s) (set_at2 (val s) r k (Some v)) (fil s))); [exact R|exact Hi| |].
      * intros st Hv Hfl. cbn [val fil]. unfold set_value, bt_has. rewrite (Hv k), Ev, andb_false_r. cbn [fst values files]. split; auto.
        intro k'. rewrite get_insert_string, set_at2_same, Hv. reflexivity.
      * intros r. cbn. splits; auto. intros r' k' N. apply set_at2_other, N.
  - destruct (Nat.ltb_spec i (made s)) as [Hi|Hi].
    2: { unfold on_store. rewrite (proj2 (nth_error_None _ _)) by lia. exact R. }
    apply (on_store_refines b h s i _ (fun r => Shared (made s) (nroots s) (root s) (val s) (set_at2 (fil s) r p (Some c)))); [exact R|exact Hi| |].
    + intros st Hv Hfl. cbn [val fil set_file fst values files]. split; auto.
      intros Hb p'. rewrite get_insert_string, set_at2_same, Hfl by exact Hb. reflexivity.
    + intros r. cbn. splits; auto. intros r' k' N. apply set_at2_other, N.
  - destruct (Nat.ltb_spec i (made s)) as [Hi|Hi].
    2: { unfold on_store. rewrite (proj2 (nth_error_None _ _)) by lia. exact R. }
    destruct b; [exfalso; apply W; reflexivity|].
    destruct (fil s (root s i) p) as [f|] eqn:Ef.
    + apply (on_store_refines false h s i _ (fun r => Shared (made s) (nroots s) (root s) (val s) (set_at2 (fil s) r p (Some (splice f c a z))))); [exact R|exact Hi| |].
      * intros st Hv Hfl. cbn [val fil set_file_range fst values files]. split; [auto|discriminate].
      * intros r. cbn. splits; auto. intros r' k' N. apply set_at2_other, N.
    + apply (on_store_refines false h s i _ (fun r => s)); [exact R|exact Hi| |].
      * intros st Hv Hfl. cbn [set_file_range fst values files]. split; [auto|discriminate].
      * intros r. splits; auto.
Qed.

Lemma refines_run b ops : (b = true -> whole_files ops) -> refines b (srun ops) (shared_after ops).
Proof.
  induction ops as [|o ops IH] using rev_ind; intro W.
  - unfold refines. simpl. splits; auto; intros i H; lia.
  - unfold srun, shared_after. rewrite !fold_left_app. apply refines_step.
    + apply IH. intro Hb. specialize (W Hb). unfold whole_files in *. apply Forall_app in W. tauto.
    + intro Hb. specialize (W Hb). unfold whole_files in *. apply Forall_app in W. destruct W as [_ W]. inversion W; auto.
Qed.

Lemma read_refines b ops i : (b = true -> whole_files ops) -> i < made (shared_after ops) ->
  exists st, read (srun ops) i = Some st
    /\ (forall k, bt_get k (values st) = val (shared_after ops) (root (shared_after ops) i) k)
    /\ (b = true -> forall p, bt_get p (files st) = fil (shared_after ops) (root (shared_after ops) i) p).
Proof.
  intros W Hi. destruct (refines_run b ops W) as (L1 & L2 & H & S & V & F). destruct (H i Hi) as [E R].
  destruct (S _ R) as (st & Es & Sv & Sf). exists st. unfold read. rewrite E. auto.
Qed.

Lemma nth_firstn {A} (l : list A) n j : j < n -> nth_error (firstn n l) j = nth_error l j.
Proof. revert n j. induction l as [|x l IH]; intros [|n] [|j] H; simpl; auto; try lia. apply IH. lia. Qed.
Lemma nth_skipn {A} (l : list A) n j : nth_error (skipn n l) j = nth_error l (n + j).
Proof. revert n. induction l as [|x l IH]; intros [|n]; simpl; auto. destruct j; reflexivity. Qed.
