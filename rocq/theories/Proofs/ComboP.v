From Coq Require Import String Ascii NArith ZArith List Bool Permutation Lia Arith.
From Verif Require Import Base.Arith Model.Field Model.Metrics Spec.MetricsSpec Proofs.MetricsP.
Import ListNotations.
Local Open Scope nat_scope.

Definition sizes (ls : list (string * list string)) : list nat := map (fun p => length (snd p)) ls.
Fixpoint prod (l : list nat) : nat := match l with [] => 1 | x :: r => x * prod r end.
Lemma total_prod ls a : fold_left (fun a p => a * length (snd p)) ls a = a * prod (sizes ls).
Proof. revert a. induction ls as [|p ls IH]; intros a; simpl; [lia|]. rewrite IH. lia. Qed.
Lemma prod_pos ls : 0 < prod (sizes ls) <-> Forall (fun p => snd p <> []) ls.
Proof.
  induction ls as [|p ls IH]; simpl; [split; auto|]. split.
  - intros H. constructor; [destruct (snd p); simpl in H; [lia|congruence]|]. apply IH. lia.
  - intros H. inversion H as [|? ? A B]; subst. apply IH in B. destruct (snd p); [congruence|]. simpl. lia.
Qed.

(** * Always: legal rows, in the right number *)
Lemma combo_rows_length k n ls cs : length (combo_rows k n ls cs) = k.
Proof. revert cs. induction k; intros cs; simpl; auto. destruct (combo_row 0 n ls cs). simpl. auto. Qed.
Lemma combo_row_legal i n ls cs : Forall (fun p => snd p <> []) ls -> chooses ls (fst (combo_row i n ls cs)).
Proof.
  revert i cs. induction ls as [|[t vs] ls IH]; intros i cs H; simpl; [constructor|].
  inversion H as [|? ? A B]; subst. simpl in A.
  match goal with |- context [combo_row (S i) n ls ?c] => specialize (IH (S i) c B); destruct (combo_row (S i) n ls c) end.
  constructor; auto. split; auto. simpl. apply nth_In. apply Nat.mod_upper_bound. destruct vs; simpl; congruence.
Qed.
Lemma combo_rows_legal k n ls cs : Forall (fun p => snd p <> []) ls -> Forall (chooses ls) (combo_rows k n ls cs).
Proof.
  intros H. revert cs. induction k; intros cs; simpl; [constructor|].
  pose proof (combo_row_legal 0 n ls cs H). destruct (combo_row 0 n ls cs). constructor; auto.
Qed.
Theorem combos_legal ls : length (label_combinations ls) = prod (sizes ls) /\ Forall (chooses ls) (label_combinations ls).
Proof.
  unfold label_combinations. rewrite total_prod, Nat.mul_1_l. split; [apply combo_rows_length|].
  destruct (prod (sizes ls)) eqn:E; [constructor|]. apply combo_rows_legal. apply prod_pos. lia.
Qed.

(** * The Cartesian product *)
Fixpoint cart (ls : list (string * list string)) : list (list (string * string)) :=
  match ls with
  | [] => [[]]
  | (t, vs) :: r => flat_map (fun v => map (cons (t, v)) (cart r)) vs
  end.
Lemma cart_length ls : length (cart ls) = prod (sizes ls).
Proof.
  induction ls as [|[t vs] ls IH]; [reflexivity|]. cbn [cart sizes map prod snd]. fold (sizes ls). rewrite <- IH. clear IH.
  induction vs as [|v vs IHv]; [reflexivity|]. cbn [flat_map length]. unfold labels in *. rewrite app_length, map_length, IHv. lia.
Qed.
Lemma cart_iff ls row : In row (cart ls) <-> chooses ls row.
Proof.
  unfold chooses. revert row. induction ls as [|[t vs] ls IH]; intros row; simpl.
  - split; [intros [<-|[]]; constructor|]. inversion 1; auto.
  - rewrite in_flat_map. split.
    + intros (v & V & H). apply in_map_iff in H. destruct H as (row' & <- & H). constructor; [simpl; auto|]. apply IH. exact H.
    + inversion 1 as [|? [t' v] ? row' [A B] C]; subst. simpl in *. subst. exists v. split; auto. apply in_map. apply IH. exact C.
Qed.
Lemma NoDup_app {A} (a b : list A) : NoDup a -> NoDup b -> (forall x, In x a -> ~ In x b) -> NoDup (a ++ b).
Proof.
  induction 1 as [|x a X _ IH]; intros B D; simpl; auto. constructor.
  - rewrite in_app_iff. intros [K|K]; [auto|]. apply (D x); simpl; auto.
  - apply IH; auto. intros y Y. apply D. right. exact Y.
Qed.
Lemma cart_nodup ls : Forall (fun p => NoDup (snd p)) ls -> NoDup (cart ls).
Proof.
  induction ls as [|[t vs] ls IH]; intros H; simpl; [repeat constructor; auto|].
  inversion H as [|? ? A B]; subst. simpl in A. specialize (IH B). clear H B.
  induction A as [|v vs V A IHA]; simpl; [constructor|]. apply NoDup_app; auto.
  - clear - IH. induction IH as [|x l X _ IH2]; simpl; constructor; auto. rewrite in_map_iff. intros (y & E & Y). injection E as ->. auto.
  - intros x X Y. apply in_map_iff in X. destruct X as (r & <- & _). apply in_flat_map in Y. destruct Y as (v' & V' & Y).
    apply in_map_iff in Y. destruct Y as (r' & E & _). injection E as -> ->. auto.
Qed.

(** the row selected by counters *)
Fixpoint pick (ls : list (string * list string)) (cs : list nat) : list (string * string) :=
  match ls, cs with
  | (t, vs) :: ls, c :: cs => (t, nth c vs EmptyString) :: pick ls cs
  | _, _ => []
  end.
Fixpoint val (ss cs : list nat) : nat :=
  match ss, cs with s :: ss, c :: cs => c * prod ss + val ss cs | _, _ => 0 end.
Lemma val_lt ss cs : Forall2 (fun s c => c < s) ss cs -> val ss cs < prod ss.
Proof. induction 1 as [|s c ss cs L _ IH]; simpl; [lia|]. nia. Qed.
Lemma cart_nth ls cs (d : list (string * string)) : Forall2 (fun s c => c < s) (sizes ls) cs -> nth (val (sizes ls) cs) (cart ls) d = pick ls cs.
Proof.
  revert cs. induction ls as [|[t vs] ls IH]; intros cs H; inversion H as [|s c ss cs' L R]; subst; simpl; auto.
  specialize (IH _ R). pose proof (val_lt _ _ R) as V. rewrite <- cart_length in V. rewrite <- cart_length.
  simpl in L. clear H. revert c L. induction vs as [|v vs IHv]; intros c L; simpl in L; [lia|].
  simpl. destruct c as [|c].
  - simpl. rewrite app_nth1 by (rewrite map_length; exact V).
    rewrite (nth_indep _ _ ((t, v) :: d)) by (rewrite map_length; exact V). rewrite map_nth, IH. reflexivity.
  - rewrite app_nth2; rewrite map_length; [|simpl; lia].
    replace (S c * length (cart ls) + val (sizes ls) cs' - length (cart ls)) with (c * length (cart ls) + val (sizes ls) cs') by (simpl; lia).
    apply IHv. lia.
Qed.

(** * The odometer, all labels but the first of size [s] *)
Definition horner (s : nat) (cs : list nat) : nat := fold_left (fun a c => a * s + c) cs 0.
Lemma horner_from s cs a : fold_left (fun a c => a * s + c) cs a = a * s ^ length cs + horner s cs.
Proof.
  unfold horner. revert a. induction cs as [|c cs IH]; intros a; simpl; [lia|].
  rewrite IH, (IH c). nia.
Qed.
Lemma horner_app s p x y q : horner s (p ++ x :: y + s :: q) = horner s (p ++ S x :: y :: q).
Proof.
  unfold horner. rewrite !fold_left_app. simpl. f_equal. lia.
Qed.
(** [ok s k cs]: the counters from number 1 on are below [s], number [k] may have reached it. *)
Definition ok (s k : nat) (cs : list nat) : Prop :=
  forall i, 0 < i < length cs -> nth i cs 0 < s \/ i = k /\ nth i cs 0 <= s.
Lemma carry_correct s k cs : 0 < s -> k < length cs -> ok s k cs ->
  let cs' := carry k s cs in length cs' = length cs /\ horner s cs' = horner s cs /\ forall i, 0 < i < length cs -> nth i cs' 0 < s.
Proof.
  intros S0. revert cs. induction k as [|k IH]; intros cs L O; simpl.
  - splits; auto. intros i H. destruct (O i H) as [|[-> _]]; [assumption|lia].
  - destruct (Nat.leb_spec s (nth (S k) cs 0)) as [G|G].
    + set (cs1 := upd (S k) (fun _ => 0) (upd k S cs)).
      assert (L1 : length cs1 = length cs) by (unfold cs1; rewrite !upd_length; reflexivity).
      assert (E1 : nth (S k) cs 0 = s) by (destruct (O (S k) ltac:(lia)) as [|[_ ?]]; lia).
      assert (H1 : horner s cs1 = horner s cs).
      { destruct (nth_split cs 0 (n := k)) as (p & q & E & LP); [lia|].
        destruct q as [|y q]; [rewrite E, app_length in L; simpl in L; lia|].
        remember (nth k cs 0) as x. rewrite E in E1. rewrite app_nth2 in E1 by lia. replace (S k - length p) with 1 in E1 by lia. simpl in E1.
        unfold cs1. rewrite E, <- LP, upd_app_r. 
        replace (S (length p)) with (length (p ++ [S x])) by (rewrite app_length; simpl; lia).
        change (p ++ S x :: y :: q)%list with (p ++ [S x] ++ y :: q)%list. rewrite app_assoc, upd_app_r, <- app_assoc. simpl.
        rewrite E1. symmetry. apply (horner_app s p x 0 q). }
      destruct (IH cs1) as (A & B & C); [lia| |].
      * intros i Hi. rewrite L1 in Hi. unfold cs1. rewrite upd_nth by (rewrite upd_length; lia).
        destruct (Nat.eqb_spec i (S k)); [left; lia|]. rewrite upd_nth by lia.
        destruct (O i ltac:(lia)) as [K|[K _]]; [|lia]. destruct (Nat.eqb_spec i k); [|auto]. right. split; lia.
      * rewrite L1 in A, C. splits; [exact A|exact (eq_trans B H1)|exact C].
    + apply IH; [lia|]. intros i Hi. destruct (O i Hi) as [K|[-> K]]; [auto|]. left. lia.
Qed.
Lemma carry_id s k cs : k < length cs -> (forall i, 0 < i < length cs -> nth i cs 0 < s) -> carry k s cs = cs.
Proof.
  revert cs. induction k as [|k IH]; intros cs L O; simpl; auto.
  destruct (Nat.leb_spec s (nth (S k) cs 0)) as [G|G]; [specialize (O (S k) ltac:(lia)); lia|]. apply IH; auto. lia.
Qed.
Lemma horner_last s cs : cs <> [] -> horner s (upd (length cs - 1) S cs) = S (horner s cs).
Proof.
  intros H. destruct (exists_last H) as (p & x & ->). rewrite app_length. simpl. replace (length p + 1 - 1) with (length p) by lia.
  rewrite upd_app_r. unfold horner. rewrite !fold_left_app. simpl. lia.
Qed.

Definition uniform (s : nat) (ls : list (string * list string)) : Prop := Forall (fun p => length (snd p) = s) ls.
Definition low (s : nat) (cs : list nat) : Prop := forall i, 0 < i < length cs -> nth i cs 0 < s.

(** The rest of a pass, from label [i >= 1] on. *)
Lemma row_tail s n i ls cs : 0 < s -> 0 < i -> length cs = n -> i + length ls = n -> uniform s ls -> low s cs ->
  let '(row, cs') := combo_row i n ls cs in
  row = pick ls (skipn i cs) /\ length cs' = n /\ low s cs' /\
  horner s cs' = match ls with [] => horner s cs | _ => S (horner s cs) end.
Proof.
  intros S0. revert i cs. induction ls as [|[t vs] ls IH]; intros i cs I L E U O; simpl; [auto|].
  pose proof (Forall_inv U) as SZ. pose proof (Forall_inv_tail U) as U'. subst n. simpl in SZ. rewrite SZ.
  assert (V : nth i cs 0 < s) by (apply O; simpl in E; lia).
  assert (SK : skipn i cs = nth i cs 0 :: skipn (S i) cs).
  { clear - E. revert i E. induction cs as [|c cs IHc]; intros [|i] E; simpl in *; try lia; auto. }
  rewrite SK, Nat.mod_small by exact V. simpl in E. cbn [pick]. destruct (Nat.eqb_spec i 0) as [|_]; [lia|].
  destruct (Nat.leb_spec (length cs - 1) i) as [G|G].
  - assert (ls = []) by (destruct ls; simpl in E; [auto|lia]). subst ls. simpl.
    assert (i = length cs - 1) by lia. 
    destruct (carry_correct s i (upd i S cs)) as (A & B & C); auto.
    + rewrite upd_length. lia.
    + intros j Hj. rewrite upd_length in Hj. rewrite upd_nth by lia. specialize (O j Hj).
      destruct (Nat.eqb_spec j i); [right|left]; lia.
    + rewrite upd_length in A, C. splits; auto.
      * intros j Hj. rewrite A in Hj. auto.
      * rewrite B. subst i. apply horner_last. destruct cs; simpl in *; [lia|congruence].
  - rewrite carry_id by (auto; lia). specialize (IH (S i) cs ltac:(lia) eq_refl ltac:(lia) U' O).
    destruct (combo_row (S i) (length cs) ls cs) as [row cs']. destruct IH as (A & B & C & D). splits; auto; [congruence|].
    destruct ls; [simpl in E; lia|exact D].
Qed.

Lemma horner_val s ss cs : Forall (eq s) (tl ss) -> length ss = length cs -> horner s cs = val ss cs.
Proof.
  destruct ss as [|s0 ss], cs as [|c cs]; simpl; intros U L; try discriminate; auto.
  unfold horner. simpl. rewrite horner_from.
  assert (P : prod ss = s ^ length cs).
  { injection L as L. clear - U L. revert cs L. induction U as [|x ss <- U IH]; intros [|c cs] L; simpl in *; try lia. rewrite (IH cs) by lia. reflexivity. }
  rewrite P. f_equal. injection L as L. clear c P.
  revert cs L. induction U as [|x ss <- U IH]; intros [|c cs] L; simpl in *; try lia; auto.
  unfold horner. simpl. rewrite horner_from. injection L as L. rewrite (IH _ L). f_equal. f_equal.
  clear - U L. revert cs L. induction U as [|x ss <- U IH]; intros [|c cs] L; simpl in *; try lia. rewrite (IH cs) by lia. reflexivity.
Qed.

Lemma combo_row_first s ls cs : 0 < s -> ls <> [] -> length cs = length ls -> uniform s (tl ls) -> low s cs ->
  nth 0 cs 0 < length (snd (hd (EmptyString, []) ls)) ->
  let '(row, cs') := combo_row 0 (length ls) ls cs in
  row = pick ls cs /\ length cs' = length ls /\ low s cs' /\ horner s cs' = S (horner s cs).
Proof.
  intros S0 NE L U O F. destruct ls as [|[t vs] ls]; [congruence|]. destruct cs as [|c cs]; [discriminate|]. simpl in L, U, F.
  cbn [combo_row]. cbn [nth]. rewrite Nat.mod_small by exact F.
  destruct ls as [|p ls].
  - destruct cs; [|discriminate]. simpl. splits; auto. intros i Hi. simpl in Hi. lia.
  - destruct (Nat.leb_spec (length ((t, vs) :: p :: ls) - 1) 0) as [G|G]; [simpl in G; lia|]. rewrite Nat.eqb_refl.
    pose proof (row_tail s (length ((t, vs) :: p :: ls)) 1 (p :: ls) (c :: cs) S0 ltac:(lia) ltac:(simpl in *; lia) ltac:(simpl; lia) U O) as K.
    destruct (combo_row 1 (length ((t, vs) :: p :: ls)) (p :: ls) (c :: cs)) as [row cs'].
    destruct K as (A & B & C & D). splits; auto. rewrite A. reflexivity.
Qed.

Lemma uniform_sizes s ls : uniform s (tl ls) -> Forall (eq s) (tl (sizes ls)).
Proof.
  destruct ls as [|p ls]; simpl; [constructor|]. intros U. induction U as [|q ls <- U IH]; simpl; constructor; auto.
Qed.
Lemma low_forall2 s ss cs : length ss = length cs -> Forall (eq s) (tl ss) -> low s cs -> 
  (nth 0 cs 0 < nth 0 ss 0 \/ cs = []) -> Forall2 (fun s c => c < s) ss cs.
Proof.
  destruct ss as [|s0 ss], cs as [|c cs]; simpl; intros L U O F; try discriminate; constructor.
  - destruct F as [F|F]; [lia|discriminate].
  - injection L as L. assert (O' : forall i, i < length cs -> nth i cs 0 < s) by (intros i Hi; apply (O (S i)); simpl; lia).
    clear O F. revert cs L O'. induction U as [|x ss <- U IH]; intros [|d cs] L O; simpl in *; try lia; constructor.
    + apply (O 0). lia.
    + apply IH; [lia|]. intros i Hi. apply (O (S i)). lia.
Qed.
Lemma val_first ss cs : length ss = length cs -> val ss cs < prod ss -> nth 0 cs 0 < nth 0 ss 0 \/ cs = [].
Proof.
  destruct ss as [|s ss], cs as [|c cs]; simpl; intros L H; try discriminate; auto. left. nia.
Qed.

Lemma rows_cart s ls : 0 < s -> ls <> [] -> uniform s (tl ls) -> forall k cs, length cs = length ls -> low s cs ->
  val (sizes ls) cs + k = prod (sizes ls) ->
  combo_rows k (length ls) ls cs = skipn (val (sizes ls) cs) (cart ls).
Proof.
  intros S0 NE U. induction k as [|k IH]; intros cs L O V; simpl.
  - symmetry. apply skipn_all2. rewrite cart_length. lia.
  - pose proof (uniform_sizes s ls U) as US. assert (LS : length (sizes ls) = length cs) by (unfold sizes; rewrite map_length; auto).
    assert (F : nth 0 cs 0 < nth 0 (sizes ls) 0).
    { destruct (val_first _ _ LS) as [F|F]; [lia|exact F|]. subst. destruct ls; [congruence|discriminate]. }
    pose proof (combo_row_first s ls cs S0 NE L U O) as K.
    assert (F2 : nth 0 cs 0 < length (snd (hd (EmptyString, []) ls))) by (destruct ls; [congruence|exact F]).
    specialize (K F2). destruct (combo_row 0 (length ls) ls cs) as [row cs']. destruct K as (A & B & C & D).
    assert (LS' : length (sizes ls) = length cs') by (unfold sizes; rewrite map_length; auto).
    rewrite (horner_val s (sizes ls) cs' US LS'), (horner_val s (sizes ls) cs US LS) in D.
    rewrite IH by (auto; lia). rewrite D.
    rewrite <- (cart_nth ls cs []) in A by (apply (low_forall2 s); auto).
    assert (VL : val (sizes ls) cs < length (cart ls)) by (rewrite cart_length; lia).
    clear - A VL. revert A VL. generalize (val (sizes ls) cs) as v. generalize (cart ls) as l.
    induction l as [|x l IHl]; intros v A VL; simpl in *; [lia|]. destruct v; simpl in *; [subst; reflexivity|]. apply IHl; auto. lia.
Qed.

Theorem combos_cart s ls : uniform s (tl ls) -> label_combinations ls = cart ls.
Proof.
  intros U. unfold label_combinations. rewrite total_prod, Nat.mul_1_l.
  destruct (prod (sizes ls)) as [|k] eqn:E.
  - pose proof (cart_length ls) as C. rewrite E in C. destruct (cart ls); [reflexivity|discriminate].
  - destruct ls as [|p ls]; [simpl in E; injection E as <-; reflexivity|].
    assert (S0 : 0 < s \/ ls = []).
    { destruct ls as [|q ls]; auto. left. inversion U as [|? ? SZ _]; subst. simpl in E.
      destruct (length (snd q)); simpl in E; [rewrite Nat.mul_0_r in E; discriminate|lia]. }
    set (s1 := match ls with [] => 1 | _ => s end).
    assert (S1 : 0 < s1) by (unfold s1; destruct S0 as [?|E0]; [destruct ls; lia|rewrite E0; lia]).
    assert (U1 : uniform s1 (tl (p :: ls))) by (unfold s1; destruct ls; [constructor|exact U]).
    assert (VZ : forall ls, val (sizes ls) (map (fun _ => 0) ls) = 0) by (induction ls0; simpl; auto).
    rewrite <- E. rewrite (rows_cart s1); auto; try congruence; rewrite ?map_length, ?VZ; auto.
    intros i Hi. clear - S1. assert (Z0 : nth i (map (fun _ : string * list string => 0) (p :: ls)) 0 = 0).
    { generalize (p :: ls) as l. revert i. induction i; intros [|]; simpl; auto. }
    lia.
Qed.
(** An empty label also leaves no row, whatever the other sizes. *)
Theorem combos_empty ls p : In p ls -> snd p = [] -> label_combinations ls = [] /\ cart ls = [].
Proof.
  intros H E. assert (P : prod (sizes ls) = 0).
  { induction ls as [|q ls IH]; [destruct H|]. destruct H as [->|H]; simpl; [rewrite E; reflexivity|]. rewrite (IH H). lia. }
  destruct (combos_legal ls) as [A _]. pose proof (cart_length ls) as B. rewrite P in A, B.
  destruct (label_combinations ls), (cart ls); try discriminate. auto.
Qed.
