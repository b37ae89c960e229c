(** Rule evaluation. *)
From Coq Require Import String Ascii NArith ZArith List Bool.
From Verif Require Import Base.Ord Base.BTree Base.Str Base.Outcome Model.Ip Model.Field Model.Log Model.DatasetTypes Model.Holder
  Model.Rule Spec.RuleSpec Proofs.FieldP.
Import ListNotations.
Local Open Scope list_scope.

(** Induction over operators, through the lists *)
Section op_ind.
  Variable Q : rule_op -> Prop.
  Hypothesis HAll : forall l, Forall Q l -> Q (OAll l).
  Hypothesis HAny : forall l, Forall Q l -> Q (OAny l).
  Hypothesis HNot : forall o, Q o -> Q (ONot o).
  Hypothesis HB64 : forall o, Q o -> Q (OB64 o).
  Hypothesis HLeaf : forall o, (forall l, o <> OAll l) -> (forall l, o <> OAny l) -> (forall p, o <> ONot p) -> (forall p, o <> OB64 p) -> Q o.
  Fixpoint op_induction (o : rule_op) : Q o.
  Proof.
    destruct o; try (apply HLeaf; discriminate).
    - apply HAll. induction l as [|x r IH]; constructor; [apply op_induction|exact IH].
    - apply HAny. induction l as [|x r IH]; constructor; [apply op_induction|exact IH].
    - apply HNot, op_induction.
    - apply HB64, op_induction.
  Qed.
End op_ind.

Lemma subrules_flat rs l ds :
  subrules_match rs l ds = conds_match (flat_map sr_conditions rs) l ds.
Proof.
  induction rs as [|r t IH]; simpl; [reflexivity|]. rewrite IH. clear IH.
  generalize (flat_map sr_conditions t) as u. intros u.
  induction (sr_conditions r) as [|c cs IHc]; simpl; [reflexivity|].
  destruct (cond_matches c l ds) as [b| |]; simpl; try reflexivity. destruct b; simpl; [exact IHc|reflexivity].
Qed.

Lemma rule_matches_flat r l ds : rule_matches r l ds = conds_match (all_conditions r) l ds.
Proof.
  unfold rule_matches, all_conditions. rewrite subrules_flat. f_equal.
  induction (ru_subrules r) as [|[k s] t IH]; simpl; [reflexivity|]. rewrite IH. reflexivity.
Qed.

Lemma rule_holds_all leaf l r : rule_holds leaf l r <-> Forall (cond_holds leaf l) (all_conditions r).
Proof.
  unfold rule_holds, all_conditions, subrule_holds. rewrite Forall_forall. split.
  - intros H c I. apply in_flat_map in I as ((k, s) & I1 & I2). exact (H k s I1 c I2).
  - intros H k s I c Ic. apply H. apply in_flat_map. exists (k, s). split; assumption.
Qed.

Lemma cond_value leaf c l ds b : ~ compound (rc_op c) -> cond_matches c l ds = Val b -> (b = true <-> cond_holds leaf l c).
Proof.
  unfold cond_matches, cond_holds. intros N H. destruct (log_field (rc_field c) l) as [v|];
    destruct (rc_op c) as [| | | | | | | | | | | | | | |x|x| | | |]; simpl in *; try discriminate H; try tauto; inversion H; subst;
    try (split; [discriminate|tauto]); match goal with x : bool |- _ => destruct x end; simpl; intuition congruence.
Qed.

Lemma conds_value leaf cs l ds b : Forall (fun c => ~ compound (rc_op c)) cs -> conds_match cs l ds = Val b ->
  (b = true <-> Forall (cond_holds leaf l) cs).
Proof.
  intros N; revert b; induction N as [|c cs Nc N IH]; simpl; intros b H.
  - inversion H; subst. split; [constructor|reflexivity].
  - destruct (cond_matches c l ds) as [x| |] eqn:E; simpl in H; try discriminate H.
    pose proof (cond_value leaf _ _ _ _ Nc E) as C. destruct x; simpl in H.
    + rewrite (IH _ H). split.
      * intros F. constructor; [apply C; reflexivity|exact F].
      * intros F. inversion F; subst; assumption.
    + inversion H; subst. split; [discriminate|]. intros F. inversion F; subst. apply C. assumption.
Qed.

Lemma cond_presence c l ds : presence (rc_op c) -> exists b, cond_matches c l ds = Val b.
Proof.
  unfold cond_matches. intros H. destruct (log_field (rc_field c) l); destruct (rc_op c); simpl in H; try contradiction; eauto.
Qed.

Lemma conds_defined cs l ds : Forall (fun c => presence (rc_op c)) cs -> exists b, conds_match cs l ds = Val b.
Proof.
  intros H; induction H as [|c cs Hc H IH]; simpl; [eauto|].
  destruct (cond_presence c l ds Hc) as [b ->]. simpl. destruct b; simpl; [exact IH|eauto].
Qed.

Lemma cond_panic c l ds : cond_matches c l ds = Panic <-> log_field (rc_field c) l <> None /\ ~ presence (rc_op c).
Proof.
  unfold cond_matches. destruct (log_field (rc_field c) l) as [v|]; destruct (rc_op c); simpl; intuition congruence.
Qed.

Lemma conds_no_fuel cs l ds : conds_match cs l ds <> OutOfFuel.
Proof.
  induction cs as [|c cs IH]; simpl; [discriminate|].
  assert (cond_matches c l ds <> OutOfFuel) as N.
  { unfold cond_matches. destruct (log_field (rc_field c) l); destruct (rc_op c); discriminate. }
  destruct (cond_matches c l ds) as [b| |]; simpl; [|discriminate|congruence]. destruct b; simpl; [exact IH|discriminate].
Qed.

Lemma conds_panic cs l ds : conds_match cs l ds = Panic <->
  exists pre c post, cs = pre ++ c :: post /\ (forall d, In d pre -> cond_matches d l ds = Val true) /\
    log_field (rc_field c) l <> None /\ ~ presence (rc_op c).
Proof.
  induction cs as [|c cs IH]; simpl.
  - split; [discriminate|]. intros (pre & c & post & H & _). destruct pre; discriminate H.
  - destruct (cond_matches c l ds) as [b| |] eqn:E; simpl.
    + destruct b; simpl.
      * rewrite IH. split.
        -- intros (pre & d & post & -> & H1 & H2). exists (c :: pre), d, post. split; [reflexivity|]. split; [|exact H2].
           intros x [<-|I]; auto.
        -- intros (pre & d & post & H & H1 & H2). destruct pre as [|p pre]; simpl in H.
           ++ assert (c = d) by congruence; subst d. apply cond_panic with (ds := ds) in H2. congruence.
           ++ exists pre, d, post. split; [congruence|]. split; [|exact H2]. intros x I. apply H1. right; exact I.
      * split; [discriminate|]. intros (pre & d & post & H & H1 & H2). destruct pre as [|p pre]; simpl in H.
        -- assert (c = d) by congruence; subst d. apply cond_panic with (ds := ds) in H2. congruence.
        -- assert (c = p) by congruence; subst p. specialize (H1 c (or_introl eq_refl)). congruence.
    + split; [|reflexivity]. intros _. exists [], c, cs. split; [reflexivity|]. split; [intros d []|]. apply cond_panic with (ds := ds). exact E.
    + exfalso. unfold cond_matches in E. destruct (log_field (rc_field c) l); destruct (rc_op c); discriminate E.
Qed.

(** ** Equality of operators *)
Lemma list_eqb_refl {A} (eqb : A -> A -> bool) l : Forall (fun x => eqb x x = true) l -> list_eqb eqb l l = true.
Proof. intros H; induction H as [|x r Hx H IH]; simpl; [reflexivity|]. rewrite Hx, IH. reflexivity. Qed.

Lemma list_eqb_iff {A} (eqb : A -> A -> bool) l : Forall (fun x => forall y, eqb x y = true <-> x = y) l ->
  forall m, list_eqb eqb l m = true <-> l = m.
Proof.
  intros H; induction H as [|x r Hx H IH]; intros [|y m]; simpl; try (split; [discriminate|discriminate]); [split; reflexivity|].
  rewrite andb_true_iff, Hx, IH. split; [intros [-> ->]; reflexivity|]. intros E. split; congruence.
Qed.

Lemma state_eqb_iff a b : state_eqb a b = true <-> a = b.
Proof.
  destruct a as [[x|x]], b as [[y|y]]; unfold state_eqb; simpl; try (split; discriminate); rewrite String.eqb_eq;
    (split; [intros ->; reflexivity|intros E; inversion E; reflexivity]).
Qed.

Lemma op_eqb_refl P o : op_eqb P o o = true.
Proof.
  induction o using op_induction; simpl; try (apply list_eqb_refl; assumption); try assumption.
  destruct o; simpl; try congruence; try apply String.eqb_refl; try apply field_eqb_refl; try apply eqb_reflx; try apply keqb_refl.
  all: match goal with
    | |- context [ip_eqb ?i ?i] => rewrite (proj2 (ip_eqb_eq i i) eq_refl), N.eqb_refl; reflexivity
    | |- context [state_eqb] => apply list_eqb_refl; apply Forall_forall; intros x _; apply state_eqb_iff; reflexivity
    | H : context [_ <> _] |- _ => exfalso; eapply H; reflexivity
    end.
Qed.

Lemma field_free_list l : (fix go l := match l with [] => True | o :: r => field_free o /\ go r end) l <-> Forall field_free l.
Proof. induction l as [|o r IH]; [split; constructor|]. rewrite IH. split; [intros [A B]; constructor; auto|intros H; inversion H; auto]. Qed.

Lemma ex_eq {A} (f : A -> rule_op) x y : (forall a b, f a = f b -> a = b) -> (f x = f y <-> x = y).
Proof. intros I. split; [apply I|intros ->; reflexivity]. Qed.

Lemma op_eqb_iff P a : field_free a -> forall b, op_eqb P a b = true <-> a = b.
Proof.
  induction a using op_induction; intros FF b.
  - destruct b; simpl; try (split; discriminate). rewrite list_eqb_iff, (ex_eq OAll) by
      (first [congruence | simpl in FF; apply field_free_list in FF; rewrite Forall_forall in *; intros x I; apply H; auto]). tauto.
  - destruct b; simpl; try (split; discriminate). rewrite list_eqb_iff, (ex_eq OAny) by
      (first [congruence | simpl in FF; apply field_free_list in FF; rewrite Forall_forall in *; intros x I; apply H; auto]). tauto.
  - destruct b; simpl; try (split; discriminate). rewrite IHa by exact FF. rewrite (ex_eq ONot) by congruence. tauto.
  - destruct b; simpl; try (split; discriminate). rewrite IHa by exact FF. rewrite (ex_eq OB64) by congruence. tauto.
  - destruct a; simpl in FF; try contradiction; try congruence; destruct b; simpl; try (split; discriminate);
      try (rewrite String.eqb_eq; split; congruence); try (rewrite eqb_true_iff; split; congruence);
      try (rewrite keqb_eq; split; congruence).
    + rewrite andb_true_iff, ip_eqb_eq, N.eqb_eq. split; [intros [-> ->]; reflexivity|]. intros E. split; congruence.
    + rewrite list_eqb_iff by (apply Forall_forall; intros x _ y; apply state_eqb_iff). split; congruence.
Qed.
