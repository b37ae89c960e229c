(** Notifications to the kernel. *)
From Coq Require Import String NArith ZArith List Bool Arith Lia.
From Verif Require Import Base.Outcome Base.Arith Model.Log Model.Command Model.Err Model.Datasets Model.Component
  Model.KernelMessage Spec.KernelSpec.
Import ListNotations.
Local Open Scope nat_scope.

Lemma at_most_spec a b : at_most a b <-> level_leb a b = true.
Proof.
  split.
  - intro H. destruct a, b; try reflexivity; exfalso; inversion H; intuition congruence.
  - destruct a, b; simpl; intro H; try discriminate H; constructor; intuition congruence.
Qed.
Lemma level_ltb_leb a b : level_ltb a b = negb (level_leb b a).
Proof. destruct a, b; reflexivity. Qed.

Section KernelP.
  Context {P : payloads}.
  Implicit Types (ops : list (kop P)) (w : kernel P) (v : view).

  (** The state of the messagers is what the history says *)
  Definition agree w v : Prop :=
    length (ks w) = made v
    /\ (forall i, i < made v -> nth_error (ks w) i = Some (Messager (fst (ident v i)) (snd (ident v i)) (lvl v i)))
    /\ max_level (kmax w) = Some (mx v).

  Lemma nth_set {A} (l : list A) (i j : nat) x : i < length l ->
    nth_error (firstn i l ++ x :: skipn (S i) l) j = if Nat.eqb j i then Some x else nth_error l j.
  Proof.
    revert i j. induction l as [|y l IH]; intros i j H; simpl in *; [lia|].
    destruct i as [|i].
    - destruct j; reflexivity.
    - destruct j; [reflexivity|]. simpl. apply IH. lia.
  Qed.
  Lemma length_set {A} (l : list A) i x : i < length l -> length (firstn i l ++ x :: skipn (S i) l) = length l.
  Proof. intro H. rewrite app_length, firstn_length. cbn [length]. rewrite skipn_length. lia. Qed.

  Lemma agree_step w v o : agree w v -> agree (kstep w o) (see v o).
  Proof.
    intros (L & K & M). destruct o as [id name|i|i l|l|i t s l|i t s l|i m| |]; cbn [kstep see].
    - split; [|split]; cbn [ks kmax made ident lvl mx]; auto.
      + rewrite app_length. simpl. lia.
      + intros j Hj. unfold upd. destruct (Nat.eqb_spec j (made v)) as [->|Hn].
        * rewrite nth_error_app2, L, Nat.sub_diag by lia. reflexivity.
        * rewrite nth_error_app1 by lia. apply K. lia.
    - destruct (Nat.ltb_spec i (made v)) as [Hi|Hi].
      + rewrite (K i Hi). split; [|split]; cbn [ks kmax made ident lvl mx]; auto.
        * rewrite app_length. simpl. lia.
        * intros j Hj. unfold upd. destruct (Nat.eqb_spec j (made v)) as [->|Hn].
          -- rewrite nth_error_app2, L, Nat.sub_diag by lia. reflexivity.
          -- rewrite nth_error_app1 by lia. apply K. lia.
      + rewrite (proj2 (nth_error_None _ _)) by lia. split; [|split]; auto.
    - destruct (Nat.ltb_spec i (made v)) as [Hi|Hi].
      + rewrite (K i Hi). split; [|split]; cbn [ks kmax made ident lvl mx]; auto.
        * rewrite length_set; lia.
        * intros j Hj. rewrite nth_set by lia. unfold upd. destruct (Nat.eqb_spec j i) as [->|Hn]; [reflexivity|apply K; lia].
      + rewrite (proj2 (nth_error_None _ _)) by lia. split; [|split]; auto.
    - split; [|split]; cbn [ks kmax made ident lvl mx]; auto. destruct l; reflexivity.
    - destruct (nth_error (ks w) i); split; [|split| |split]; auto.
    - destruct (nth_error (ks w) i); split; [|split| |split]; auto.
    - destruct (nth_error (ks w) i); split; [|split| |split]; auto.
    - destruct (recv (kchan w)) as [c [m|]]; split; [|split| |split]; auto.
    - split; [|split]; auto.
  Qed.

  Lemma krun_snoc capa ops o : krun capa (ops ++ [o]) = kstep (krun capa ops) o.
  Proof. unfold krun. rewrite fold_left_app. reflexivity. Qed.
  Lemma view_snoc ops o : view_after (ops ++ [o]) = see (view_after ops) o.
  Proof. unfold view_after. rewrite fold_left_app. reflexivity. Qed.

  Lemma agree_run capa ops : agree (krun capa ops) (view_after ops).
  Proof.
    induction ops as [|o ops IH] using rev_ind.
    - split; [reflexivity|split; [intros i H; inversion H|reflexivity]].
    - rewrite krun_snoc, view_snoc. apply agree_step, IH.
  Qed.

  (** The channel: capacity, and open until the kernel hangs up *)
  Definition room w : Prop := alive (kchan w) = true /\ length (queue (kchan w)) < cap (kchan w).

  Lemma try_send_room (c : chan (message P)) m : alive c = true -> length (queue c) < cap c ->
    fst (try_send c m) = Chan (cap c) (queue c ++ [m]) true.
  Proof. intros A R. unfold try_send. rewrite A. destruct (Nat.ltb_spec (length (queue c)) (cap c)); [reflexivity|lia]. Qed.
  Lemma try_send_noroom (c : chan (message P)) m : ~ (alive c = true /\ length (queue c) < cap c) -> fst (try_send c m) = c.
  Proof.
    intros N. unfold try_send. destruct (alive c) eqn:A; [|reflexivity].
    destruct (Nat.ltb_spec (length (queue c)) (cap c)) as [H|H]; [|reflexivity]. exfalso. apply N. auto.
  Qed.

  Lemma k_try_send_fst (c : chan (message P)) m : fst (k_try_send c m) = fst (try_send c m).
  Proof. unfold k_try_send. destruct (try_send c m) as [c' [u|e]]; reflexivity. Qed.

  (** What a call does to the channel: nothing, or one [try_send] of the message it asks for *)
  Lemma kstep_asks w v o : agree w v ->
    match o with KRecv | KHangUp => True | _ =>
      got (kstep w o) = got w /\
      ((exists m, asks v o m /\ kchan (kstep w o) = fst (try_send (kchan w) m))
       \/ ((forall m, ~ asks v o m) /\ kchan (kstep w o) = kchan w)) end.
  Proof.
    intros (L & K & M). destruct o as [id name|i|i l|l|i t s l|i t s l|i m| |]; cbn [kstep]; try exact I.
    - split; [reflexivity|]. right. split; [intros m H; exact H|reflexivity].
    - split; [destruct (nth_error (ks w) i); reflexivity|]. right. split; [intros m H; exact H|].
      destruct (nth_error (ks w) i); reflexivity.
    - split; [destruct (nth_error (ks w) i); reflexivity|]. right. split; [intros m H; exact H|].
      destruct (nth_error (ks w) i); reflexivity.
    - split; [reflexivity|]. right. split; [intros m H; exact H|reflexivity].
    - split; [destruct (nth_error (ks w) i); reflexivity|].
      destruct (Nat.lt_ge_cases i (made v)) as [Hi|Hi].
      + rewrite (K i Hi). cbn [kchan]. unfold k_log, k_send. cbn [k_level k_id k_name]. rewrite level_ltb_leb.
        destruct (level_leb l (lvl v i)) eqn:E; simpl.
        * left. eexists. split; [|reflexivity]. cbn [asks]. rewrite at_most_spec. auto.
        * right. split; [|reflexivity]. cbn [asks]. intros m (_ & A & _). apply at_most_spec in A. congruence.
      + rewrite (proj2 (nth_error_None _ _)) by lia. right. split; [|reflexivity]. cbn [asks]. intros m (A & _). lia.
    - split; [destruct (nth_error (ks w) i); reflexivity|].
      destruct (Nat.lt_ge_cases i (made v)) as [Hi|Hi].
      + rewrite (K i Hi). cbn [kchan]. unfold log_macro. rewrite M.
        replace (level_leb l L_Trace) with true by (destruct l; reflexivity). cbn [andb].
        destruct (level_leb l (mx v)) eqn:E2.
        * unfold k_log, k_send. cbn [k_level k_id k_name]. rewrite level_ltb_leb.
          destruct (level_leb l (lvl v i)) eqn:E; simpl.
          -- left. eexists. split; [|reflexivity]. cbn [asks]. rewrite !at_most_spec. auto.
          -- right. split; [|reflexivity]. cbn [asks]. intros m (_ & A & _). apply at_most_spec in A. congruence.
        * right. split; [|reflexivity]. cbn [asks]. intros m (_ & _ & A & _). apply at_most_spec in A. congruence.
      + rewrite (proj2 (nth_error_None _ _)) by lia. right. split; [|reflexivity]. cbn [asks]. intros m (A & _). lia.
    - split; [destruct (nth_error (ks w) i); reflexivity|].
      destruct (Nat.lt_ge_cases i (made v)) as [Hi|Hi].
      + rewrite (K i Hi). cbn [kchan]. left. exists m. split; [cbn [asks]; auto|]. apply k_try_send_fst.
      + rewrite (proj2 (nth_error_None _ _)) by lia. right. split; [|reflexivity]. cbn [asks]. intros m' (A & _). lia.
  Qed.

  Lemma deliver_asked capa ops o m : asks (view_after ops) o m -> room (krun capa ops) ->
    delivered (krun capa (ops ++ [o])) = delivered (krun capa ops) ++ [m].
  Proof.
    intros A [R1 R2]. rewrite krun_snoc. pose proof (kstep_asks _ _ o (agree_run capa ops)) as K.
    destruct o; try (destruct A; fail); destruct K as [G [(m' & A' & E)|[N _]]]; try (exfalso; exact (N _ A)).
    all: assert (m' = m) by (cbn [asks] in A, A'; intuition congruence); subst m'.
    all: unfold delivered; rewrite G, E, try_send_room by assumption; cbn [queue]; rewrite app_assoc; reflexivity.
  Qed.

  Lemma deliver_not_asked capa ops o : (forall m, ~ asks (view_after ops) o m) \/ ~ room (krun capa ops) ->
    delivered (krun capa (ops ++ [o])) = delivered (krun capa ops).
  Proof.
    intros A. rewrite krun_snoc. pose proof (kstep_asks _ _ o (agree_run capa ops)) as K.
    destruct o.
    1-7: destruct K as [G [(m' & A' & E)|[N E]]]; unfold delivered; rewrite G, E; [|reflexivity];
      destruct A as [A|A]; [exfalso; exact (A _ A')|]; rewrite try_send_noroom by exact A; reflexivity.
    - unfold delivered. cbn [kstep]. unfold recv. destruct (queue (kchan (krun capa ops))) eqn:E; cbn [got kchan queue].
      + rewrite E. reflexivity.
      + rewrite <- app_assoc. reflexivity.
    - reflexivity.
  Qed.

  Lemma chan_shape capa ops : cap (kchan (krun capa ops)) = capa
    /\ (alive (kchan (krun capa ops)) = true <-> ~ In KHangUp ops).
  Proof.
    induction ops as [|o ops [C A]] using rev_ind; [simpl; tauto|].
    assert (TS : forall (c : chan (message P)) m, cap (fst (try_send c m)) = cap c /\ alive (fst (try_send c m)) = alive c).
    { intros c m. unfold try_send. destruct (alive c) eqn:E; [destruct (Nat.ltb _ _)|]; simpl; auto. }
    assert (IN : forall o, o <> KHangUp -> (In KHangUp (ops ++ [o]) <-> In KHangUp ops)).
    { intros o' H'. rewrite in_app_iff. simpl. intuition congruence. }
    rewrite krun_snoc. pose proof (kstep_asks _ _ o (agree_run capa ops)) as K.
    destruct o.
    1-7: rewrite IN by discriminate; destruct K as [_ [(m' & _ & E)|[_ E]]]; rewrite E; try (destruct (TS (kchan (krun capa ops)) m') as [-> ->]); auto.
    - rewrite IN by discriminate. cbn [kstep]. unfold recv. destruct (queue (kchan (krun capa ops))); cbn [kchan cap alive]; auto.
    - cbn. split; auto. rewrite in_app_iff. simpl. intuition discriminate.
  Qed.

  Lemma delivered_le capa ops : length (delivered (krun capa ops)) <= length ops.
  Proof.
    induction ops as [|o ops IH] using rev_ind; [simpl; lia|]. rewrite app_length. simpl.
    pose proof (kstep_asks _ _ o (agree_run capa ops)) as K.
    assert (D : (exists m, asks (view_after ops) o m /\ room (krun capa ops))
       \/ (forall m, ~ asks (view_after ops) o m) \/ ~ room (krun capa ops)).
    { assert (RD : room (krun capa ops) \/ ~ room (krun capa ops)).
      { unfold room. destruct (alive (kchan (krun capa ops))); [|right; intros [? _]; discriminate].
        destruct (Nat.lt_ge_cases (length (queue (kchan (krun capa ops)))) (cap (kchan (krun capa ops)))); [left; auto|right; intros [_ ?]; lia]. }
      destruct RD as [RD|RD]; [|right; right; exact RD].
      destruct o; try (right; left; intros m H; destruct H; fail);
        destruct K as [_ [(m' & A' & _)|[N _]]]; first [left; exists m'; split; assumption|right; left; exact N]. }
    destruct D as [(m & A & R)|D].
    - rewrite (deliver_asked _ _ _ _ A R), app_length. simpl. lia.
    - rewrite (deliver_not_asked _ _ _ D). lia.
  Qed.

  Lemma wanted_delivered capa ops ms : wanted ops ms -> length ops <= capa -> ~ In KHangUp ops -> delivered (krun capa ops) = ms.
  Proof.
    intros W. induction W as [|ops o m ms W IH A|ops o ms W IH N]; intros L H.
    - reflexivity.
    - rewrite app_length in L. simpl in L. rewrite in_app_iff in H.
      rewrite (deliver_asked _ _ _ _ A), IH; auto; [lia|].
      destruct (chan_shape capa ops) as [C AL]. split; [apply AL; tauto|]. rewrite C.
      pose proof (delivered_le capa ops) as D. unfold delivered in D. rewrite app_length in D. lia.
    - rewrite app_length in L. simpl in L. rewrite in_app_iff in H. rewrite deliver_not_asked by auto. apply IH; [lia|tauto].
  Qed.

  Lemma wanted_total ops : exists ms, wanted ops ms.
  Proof.
    induction ops as [|o ops (ms & IH)] using rev_ind; [exists []; constructor|].
    pose proof (kstep_asks _ _ o (agree_run 0 ops)) as K.
    assert (D : (exists m, asks (view_after ops) o m) \/ (forall m, ~ asks (view_after ops) o m)).
    { destruct o; try (right; intros m H; exact H); destruct K as [_ [(m' & A' & _)|[N _]]]; eauto. }
    destruct D as [(m & A)|N].
    - exists (ms ++ [m]). constructor; auto.
    - exists ms. constructor; auto.
  Qed.

  Lemma kmax_valid capa ops : exists l, max_level (kmax (krun capa ops)) = Some l.
  Proof. destruct (agree_run capa ops) as (_ & _ & M). eauto. Qed.
End KernelP.
