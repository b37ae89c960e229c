From Coq Require Import String Ascii NArith ZArith List Bool Floats.SpecFloat Permutation Lia.
From Verif Require Import Base.Arith Base.Str Base.Sched Base.Regex Base.Outcome Model.Field Model.Metrics Spec.MetricsSpec.
Import ListNotations.
Local Open Scope string_scope.

(** * Cells *)
Lemma upd_length {A} i (f : A -> A) l : length (upd i f l) = length l.
Proof. revert i. induction l; intros [|i]; simpl; auto. Qed.
Lemma upd_nth {A} i j (f : A -> A) l d : (j < length l)%nat -> nth j (upd i f l) d = if Nat.eqb j i then f (nth j l d) else nth j l d.
Proof.
  revert i j. induction l as [|x l IH]; intros i j H; simpl in H; [lia|].
  destruct i, j; simpl; auto. apply IH. lia.
Qed.
Lemma upd_app_r {A} (p : list A) x q f : upd (length p) f (p ++ x :: q) = (p ++ f x :: q)%list.
Proof. induction p; simpl; congruence. Qed.

Lemma wrap_i64_is z : is_i64_of (wrap_i64 z) z.
Proof.
  unfold is_i64_of, wrap_i64. 
  pose proof (Z.mod_pos_bound (z + 2 ^ 63) (2 ^ 64) ltac:(lia)). split; [lia|].
  rewrite (Z.mod_eq (z + 2 ^ 63)) by lia.
  replace (z + 2 ^ 63 - 2 ^ 64 * ((z + 2 ^ 63) / 2 ^ 64) - 2 ^ 63 - z)%Z with (- ((z + 2 ^ 63) / 2 ^ 64) * 2 ^ 64)%Z by lia.
  apply Z.mod_mul. lia.
Qed.
Lemma is_i64_add v s x : is_i64_of v s -> is_i64_of (wrap_i64 (v + x)) (s + x).
Proof.
  intros [_ H]. destruct (wrap_i64_is (v + x)) as [R K]. split; [exact R|].
  apply Z.mod_divide in H; [|lia]. apply Z.mod_divide in K; [|lia]. apply Z.mod_divide; [lia|].
  destruct H as [p P], K as [q Q]. exists (p + q)%Z. lia.
Qed.
Lemma is_i64_unique v w s : is_i64_of v s -> is_i64_of w s -> v = w.
Proof.
  intros [A B] [C D]. apply Z.mod_divide in B; [|lia]. apply Z.mod_divide in D; [|lia]. 
  destruct B as [p P], D as [q Q]. assert (p = q) by nia. subst. lia.
Qed.

Definition act_len (m : list Z) tr : length (act_run m tr) = length m.
Proof.
  revert m. induction tr as [|a tr IH]; intros m; simpl; auto. unfold act_run in *. simpl. rewrite IH.
  destruct a; apply upd_length.
Qed.

(** What a trace does to cell [i]: a store starts over. *)
Fixpoint cell_sum (i : nat) (acc : Z) (tr : list act) : Z :=
  match tr with
  | [] => acc
  | AAdd j v :: r => cell_sum i (if Nat.eqb i j then acc + v else acc)%Z r
  | AStore j v :: r => cell_sum i (if Nat.eqb i j then v else acc) r
  end.
Lemma act_run_cell i m acc tr : (i < length m)%nat -> is_i64_of (nth i m 0%Z) acc ->
  (forall j v, In (AStore j v) tr -> (- 2 ^ 63 <= v < 2 ^ 63)%Z) ->
  is_i64_of (nth i (act_run m tr) 0%Z) (cell_sum i acc tr).
Proof.
  revert m acc. induction tr as [|a tr IH]; intros m acc L H S; simpl; [exact H|].
  unfold act_run. simpl. change (fold_left act_step tr (act_step m a)) with (act_run (act_step m a) tr).
  destruct a as [j v|j v]; simpl.
  - apply IH; [rewrite upd_length; exact L| |intros; eapply S; right; eassumption].
    rewrite upd_nth by exact L. destruct (Nat.eqb i j); auto using is_i64_add.
  - apply IH; [rewrite upd_length; exact L| |intros; eapply S; right; eassumption].
    rewrite upd_nth by exact L. destruct (Nat.eqb i j); auto. split; [eapply S; left; reflexivity|].
    rewrite Z.sub_diag. reflexivity.
Qed.

Definition add_of (i : nat) (a : act) : Z := match a with AAdd j v => if Nat.eqb i j then v else 0 | _ => 0 end%Z.
Definition stores (i : nat) (a : act) : bool := match a with AStore j _ => Nat.eqb i j | _ => false end.
Lemma cell_sum_adds i acc tr : (forall a, In a tr -> stores i a = false) ->
  cell_sum i acc tr = (acc + zsum (map (add_of i) tr))%Z.
Proof.
  revert acc. induction tr as [|a tr IH]; intros acc H; simpl; [lia|].
  assert (S : stores i a = false) by (apply H; left; reflexivity).
  assert (R : forall acc, cell_sum i acc tr = (acc + zsum (map (add_of i) tr))%Z) by (intros; apply IH; intros; apply H; right; assumption).
  destruct a as [j v|j v]; simpl in *; rewrite ?S, R; [destruct (Nat.eqb i j); lia|lia].
Qed.
Lemma zsum_perm l l' : Permutation l l' -> zsum l = zsum l'.
Proof. induction 1; simpl; lia. Qed.
Lemma zsum_app a b : zsum (a ++ b) = (zsum a + zsum b)%Z.
Proof. induction a; simpl; [lia|]. rewrite IHa. lia. Qed.

Lemma ccall_sum n i c : ~ resets i c -> zsum (map (add_of i) (ccall_acts n c)) = asked i c.
Proof.
  destruct c; simpl; intros; try (destruct (Nat.eqb i i0); lia); try lia.
  exfalso. apply H. right. reflexivity.
Qed.
Lemma ccall_store_zero n c j v : In (AStore j v) (ccall_acts n c) -> v = 0%Z.
Proof.
  destruct c; simpl; intros H; try (destruct H as [H|[]]; congruence).
  apply in_map_iff in H. destruct H as (k & E & _). congruence.
Qed.
Lemma ccall_stores n i c a : ~ resets i c -> In a (ccall_acts n c) -> stores i a = false.
Proof.
  destruct c; simpl; intros H K; try (destruct K as [<-|[]]; simpl; auto).
  - apply Nat.eqb_neq. intros ->. apply H. left. reflexivity.
  - exfalso. apply H. right. reflexivity.
Qed.
Definition zeros (n : nat) : list Z := repeat 0%Z n.
Lemma nth_zeros i n : nth i (zeros n) 0%Z = 0%Z.
Proof. revert i. induction n; intros [|i]; simpl; auto. Qed.
Lemma zeros_is n i : is_i64_of (nth i (zeros n) 0%Z) 0.
Proof. rewrite nth_zeros. split; [lia|reflexivity]. Qed.

Lemma flat_sum n i cs : (forall c, In c cs -> ~ resets i c) ->
  zsum (map (add_of i) (flat_map (ccall_acts n) cs)) = zsum (map (asked i) cs).
Proof.
  induction cs as [|c cs IH]; intros H; simpl; auto.
  rewrite map_app, zsum_app, IH by (intros; apply H; right; assumption). rewrite ccall_sum by (apply H; left; reflexivity). reflexivity.
Qed.
Lemma concat_flat {A B} (f : A -> list B) (ths : list (list A)) : concat (map (flat_map f) ths) = flat_map f (concat ths).
Proof. induction ths; simpl; auto. rewrite flat_map_app. congruence. Qed.

Theorem counter_no_lost n (ths : list (list ccall)) tr i :
  (i < n)%nat -> (forall th c, In th ths -> In c th -> ~ resets i c) ->
  interleaves (map (flat_map (ccall_acts n)) ths) tr ->
  is_i64_of (counter_get (act_run (zeros n) tr) i) (zsum (map (asked i) (concat ths))).
Proof.
  intros L R IL. pose proof (interleaves_perm _ _ IL) as P. rewrite concat_flat in P.
  assert (R' : forall c, In c (concat ths) -> ~ resets i c).
  { intros c Hc. apply in_concat in Hc. destruct Hc as (th & A & B). eauto. }
  assert (Z0 : length (zeros n) = n) by apply repeat_length.
  unfold counter_get.
  replace (zsum (map (asked i) (concat ths))) with (cell_sum i 0 tr).
  - apply act_run_cell; [lia|apply zeros_is|]. intros j v H. apply (Permutation_in _ P) in H.
    apply in_flat_map in H. destruct H as (c & _ & H). rewrite (ccall_store_zero _ _ _ _ H). lia.
  - rewrite cell_sum_adds.
    + rewrite Z.add_0_l, <- (flat_sum n) by exact R'. apply zsum_perm, Permutation_map, P.
    + intros a H. apply (Permutation_in _ P) in H. apply in_flat_map in H. destruct H as (c & A & B). 
      eapply ccall_stores; eauto.
Qed.

(** With resets: what counts is what comes after the last one. *)
Theorem counter_after_reset n before after i :
  (i < n)%nat -> (forall a, In a after -> stores i a = false) ->
  (forall a j v, In a before \/ In a after -> a = AStore j v -> v = 0%Z) ->
  is_i64_of (counter_get (act_run (zeros n) (before ++ AStore i 0 :: after)) i) (zsum (map (add_of i) after)).
Proof.
  intros L S Z. unfold counter_get, act_run. rewrite fold_left_app. simpl.
  change (fold_left act_step before (zeros n)) with (act_run (zeros n) before).
  assert (LB : length (act_run (zeros n) before) = n) by (rewrite act_len; apply repeat_length).
  pose proof (act_run_cell i (upd i (fun _ => 0%Z) (act_run (zeros n) before)) 0 after) as K.
  rewrite (cell_sum_adds _ _ _ S), Z.add_0_l in K. apply K.
  - rewrite upd_length. lia.
  - rewrite upd_nth by lia. rewrite Nat.eqb_refl. split; [lia|reflexivity].
  - intros j v H. rewrite (Z _ _ _ (or_intror H) eq_refl). lia.
Qed.

(** A series is only touched through its own handle. *)
Lemma act_other i m a : (match a with AAdd j _ | AStore j _ => j <> i end) -> nth i (act_step m a) 0%Z = nth i m 0%Z.
Proof.
  destruct (Nat.lt_ge_cases i (length m)) as [L|L].
  - destruct a; simpl; intros; rewrite upd_nth by exact L; destruct (Nat.eqb_spec i i0); congruence.
  - destruct a; simpl; intros; rewrite !nth_overflow; auto; rewrite upd_length; exact L.
Qed.

(** * with_labels *)
Lemma zip_same_eq a b : length a = length b -> (zip_same a b = true <-> a = b).
Proof.
  revert b. induction a as [|[n v] a IH]; intros [|[n' v'] b] L; simpl in *; try lia; [tauto|].
  destruct (String.eqb_spec n n'); destruct (String.eqb_spec v v'); simpl; subst; try (split; congruence).
  rewrite IH by lia. split; congruence.
Qed.
Lemma with_labels_from_spec i ms ls k : with_labels_from i ms ls = Some k <->
  (i <= k)%nat /\ nth_error ms (k - i) = Some ls /\ forall j, (j < k - i)%nat -> nth_error ms j <> Some ls.
Proof.
  revert i. induction ms as [|m ms IH]; intros i; simpl.
  - split; [discriminate|]. intros (_ & H & _). rewrite nth_error_nil in H || destruct (k - i)%nat; discriminate.
  - assert (REC : m <> ls -> (with_labels_from (S i) ms ls = Some k <-> (i <= k)%nat /\ nth_error (m :: ms) (k - i) = Some ls /\ (forall j, (j < k - i)%nat -> nth_error (m :: ms) j <> Some ls))).
    { intros NE. rewrite IH. destruct (Nat.eq_dec k i) as [->|NK].
      - rewrite Nat.sub_diag. simpl. split; [lia|]. intros (_ & H & _). congruence.
      - split.
        + intros (A & B & C). splits; [lia| |].
          * replace (k - i)%nat with (S (k - S i)) by lia. exact B.
          * intros [|j] Hj; simpl; [congruence|]. apply C. lia.
        + intros (A & B & C). splits; [lia| |].
          * replace (k - i)%nat with (S (k - S i)) in B by lia. exact B.
          * intros j Hj. apply (C (S j)). lia. }
    destruct (Nat.eqb_spec (length m) (length ls)) as [L|L]; simpl.
    + destruct (zip_same m ls) eqn:Z.
      * apply zip_same_eq in Z; auto. subst m. split.
        -- intros [= <-]. rewrite Nat.sub_diag. splits; auto. intros; lia.
        -- intros (A & B & C). destruct (Nat.eq_dec k i) as [->|NK]; auto. exfalso. apply (C 0%nat); [lia|reflexivity].
      * apply REC. intros ->. rewrite (proj2 (zip_same_eq ls ls eq_refl) eq_refl) in Z. discriminate.
    + apply REC. congruence.
Qed.
Theorem with_labels_spec ms ls k : with_labels ms ls = Some k <->
  nth_error ms k = Some ls /\ forall j, (j < k)%nat -> nth_error ms j <> Some ls.
Proof.
  unfold with_labels. rewrite with_labels_from_spec, Nat.sub_0_r. split; [tauto|]. intros. split; [lia|auto].
Qed.
Lemma first_index {A} (dec : forall x y : A, {x = y} + {x <> y}) (l : list A) x : In x l ->
  exists k, nth_error l k = Some x /\ forall j, (j < k)%nat -> nth_error l j <> Some x.
Proof.
  induction l as [|y l IH]; intros H; [destruct H|].
  destruct (dec y x) as [->|N]; [exists 0%nat; split; auto; intros; lia|].
  destruct H as [->|H]; [congruence|]. destruct (IH H) as (k & A1 & B1). exists (S k). split; auto.
  intros [|j] Hj; simpl; [congruence|]. apply B1. lia.
Qed.
Theorem with_labels_none ms ls : with_labels ms ls = None <-> ~ In ls ms.
Proof.
  split.
  - intros H I. assert (D : forall x y : labels, {x = y} + {x <> y}) by (repeat decide equality).
    destruct (first_index D ms ls I) as (k & K). apply with_labels_spec in K. congruence.
  - intros H. destruct (with_labels ms ls) eqn:E; auto. apply with_labels_spec in E. destruct E as [E _].
    apply nth_error_In in E. contradiction.
Qed.
Lemma with_labels_unique ms ls k : NoDup ms -> nth_error ms k = Some ls -> with_labels ms ls = Some k.
Proof.
  intros D H. apply with_labels_spec. split; auto. intros j Hj Hj'.
  assert (j = k); [|lia]. apply (proj1 (NoDup_nth_error ms) D); [|congruence]. apply nth_error_Some. congruence.
Qed.

(** * Names *)
Lemma matches_set f s : matches_re (RSet f) s <-> exists c, s = String c "" /\ f c = true.
Proof. split; [inversion 1; eauto|]. intros (c & -> & H). constructor. exact H. Qed.
Lemma matches_cat a b s : matches_re (RCat a b) s <-> exists x y, s = x ++ y /\ matches_re a x /\ matches_re b y.
Proof. split; [inversion 1; subst; eauto|]. intros (x & y & -> & H & K). constructor; assumption. Qed.
Lemma matches_star_set f s : matches_re (RStar (RSet f)) s <-> only f s.
Proof.
  split.
  - remember (RStar (RSet f)) as r eqn:E. induction 1; try discriminate; injection E as ->; simpl; auto.
    apply matches_set in H. destruct H as (c & -> & F). simpl. auto.
  - induction s as [|c s IH]; intros H; [constructor|]. destruct H as [A B].
    apply (m_star (RSet f) (String c "") s); [constructor; exact A|auto].
Qed.
Lemma matches_plus_set f s : matches_re (RPlus (RSet f)) s <-> s <> "" /\ only f s.
Proof.
  unfold RPlus. rewrite matches_cat. split.
  - intros (x & y & -> & A & B). apply matches_set in A. destruct A as (c & -> & F). apply matches_star_set in B. simpl.
    split; [discriminate|auto].
  - intros [N O]. destruct s as [|c s]; [congruence|]. destruct O as [A B]. exists (String c ""), s.
    splits; auto; [constructor; exact A|apply matches_star_set; exact B].
Qed.
Theorem valid_name_iff s : valid_name s = true <->
  exists a mid z, s = String a (mid ++ String z "") /\ cls_az a = true /\ mid <> "" /\ only cls_azn mid /\ cls_az z = true.
Proof.
  unfold valid_name. rewrite re_full_iff, matches_cat. split.
  - intros (x & y & -> & A & B). apply matches_set in A. destruct A as (a & -> & A).
    apply matches_cat in B. destruct B as (m & z & -> & B & C). apply matches_plus_set in B. apply matches_set in C.
    destruct B, C as (z' & -> & C). exists a, m, z'. simpl. auto.
  - intros (a & m & z & -> & A & B & C & D). exists (String a ""), (m ++ String z ""). splits; auto.
    + constructor. exact A.
    + constructor; [apply matches_plus_set; auto|constructor; exact D].
Qed.
Theorem valid_description_iff s : valid_description s = true <-> s <> "" /\ only (fun a => cls_w a || cls_s a) s.
Proof. unfold valid_description. rewrite re_full_iff. apply matches_plus_set. Qed.

Lemma counter_labels_id ls r : counter_labels ls = Val r -> r = ls.
Proof.
  revert r. induction ls as [|[n v] l IH]; cbn [counter_labels]; intros r; [congruence|]. destruct (_ || _); [discriminate|].
  destruct (counter_labels l) as [x| |]; try discriminate. intros [= <-]. rewrite (IH x eq_refl). reflexivity.
Qed.
Lemma counter_vec_labels_id lss r : counter_vec_labels lss = Val r -> r = lss.
Proof.
  revert r. induction lss as [|ls l IH]; cbn [counter_vec_labels]; intros r; [congruence|].
  destruct (counter_labels ls) as [x| |] eqn:E; try discriminate. destruct (counter_vec_labels l) as [y| |]; try discriminate.
  intros [= <-]. rewrite (IH y eq_refl), (counter_labels_id _ _ E). reflexivity.
Qed.
