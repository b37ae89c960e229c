(** Label combinations: exactly which lists of labels get every choice (for C26). *)
From Coq Require Import String List Arith Bool Lia.
From Verif Require Import Base.Arith Model.Field Model.Metrics Spec.MetricsSpec Proofs.MetricsP Proofs.ComboP.
Import ListNotations.
Local Open Scope nat_scope.
Local Open Scope list_scope.

Notation label := (string * list string)%type.
Notation size p := (length (snd p)).

(** ** Carrying *)
Lemma carry_length k s : forall cs, length (carry k s cs) = length cs.
Proof. induction k as [|k IH]; intros cs; cbn [carry]; auto. rewrite IH. destruct (Nat.leb s (nth (S k) cs 0)); rewrite ?upd_length; auto. Qed.
Lemma carry_above k s : forall cs j, k < length cs -> k < j -> nth j (carry k s cs) 0 = nth j cs 0.
Proof.
  induction k as [|k IH]; intros cs j L J; cbn [carry]; auto. rewrite IH; try lia.
  - destruct (Nat.leb s (nth (S k) cs 0)); auto. destruct (Nat.lt_ge_cases j (length cs)) as [B|B].
    + rewrite upd_nth by (rewrite upd_length; lia). destruct (Nat.eqb_spec j (S k)); [lia|]. rewrite upd_nth by lia. destruct (Nat.eqb_spec j k); [lia|auto].
    + rewrite !nth_overflow; rewrite ?upd_length; auto.
  - destruct (Nat.leb s (nth (S k) cs 0)); rewrite ?upd_length; lia.
Qed.
Lemma carry_low k s : 0 < s -> forall cs j, k < length cs -> 0 < j <= k -> nth j (carry k s cs) 0 < s.
Proof.
  intros S0. induction k as [|k IH]; intros cs j L J; [lia|]. cbn [carry].
  set (cs' := if Nat.leb s (nth (S k) cs 0) then upd (S k) (fun _ => 0) (upd k S cs) else cs).
  assert (L' : length cs' = length cs) by (unfold cs'; destruct (Nat.leb s (nth (S k) cs 0)); rewrite ?upd_length; auto).
  destruct (Nat.eq_dec j (S k)) as [->|NE]; [|apply IH; lia].
  rewrite carry_above by lia. unfold cs'. destruct (Nat.leb_spec s (nth (S k) cs 0)) as [G|G]; [|exact G].
  rewrite upd_nth by (rewrite upd_length; lia). rewrite Nat.eqb_refl. exact S0.
Qed.

(** ** One pass *)
Definition filled (ls : list label) : Prop := Forall (fun p => snd p <> []) ls.
Lemma combo_row_length n : forall ls i cs, length (snd (combo_row i n ls cs)) = length cs.
Proof.
  induction ls as [|[t vs] ls IH]; intros i cs; [reflexivity|]. cbn [combo_row].
  match goal with |- context [combo_row (S i) n ls ?c] => specialize (IH (S i) c); destruct (combo_row (S i) n ls c) as [row cs'] end.
  cbn [snd] in *. rewrite IH. destruct (Nat.eqb i 0); rewrite ?carry_length; destruct (Nat.leb (n - 1) i); rewrite ?upd_length; auto.
Qed.
(** afterwards no counter but the first reaches the size of the last label *)
Lemma combo_row_low n t vs : forall ls i cs, length cs = n -> i + S (length ls) = n -> vs <> [] ->
  low (length vs) (snd (combo_row i n (ls ++ [(t, vs)]) cs)).
Proof.
  induction ls as [|[t' vs'] ls IH]; intros i cs L E NE.
  - cbn [app combo_row snd length] in *. intros j J. destruct (Nat.leb_spec (n - 1) i) as [_|G]; [|lia].
    assert (S0 : 0 < length vs) by (destruct vs; [congruence|simpl; lia]).
    destruct (Nat.eqb_spec i 0) as [->|NI]; [rewrite upd_length in J; lia|]. rewrite carry_length, upd_length in J.
    apply carry_low; rewrite ?upd_length; lia.
  - cbn [app combo_row]. cbn [length] in E.
    match goal with |- context [combo_row (S i) n (ls ++ [(t, vs)]) ?c] =>
      assert (LC : length c = n) by (destruct (Nat.eqb i 0); rewrite ?carry_length; destruct (Nat.leb (n - 1) i); rewrite ?upd_length; auto);
      specialize (IH (S i) c LC ltac:(lia) NE); destruct (combo_row (S i) n (ls ++ [(t, vs)]) c) as [row cs'] end.
    exact IH.
Qed.
(** what a pass picks for the label after [p] *)
Lemma combo_row_pick n t vs rest d : forall p i cs, length cs = n -> i + length p + S (length rest) = n ->
  nth (length p) (fst (combo_row i n (p ++ (t, vs) :: rest) cs)) d = (t, nth (Nat.modulo (nth (i + length p) cs 0) (length vs)) vs EmptyString).
Proof.
  induction p as [|[t' vs'] p IH]; intros i cs L E.
  - cbn [app combo_row length] in *. rewrite Nat.add_0_r.
    match goal with |- context [combo_row (S i) n rest ?c] => destruct (combo_row (S i) n rest c) as [row cs'] end. reflexivity.
  - cbn [app combo_row length] in *. destruct (Nat.leb_spec (n - 1) i) as [G|G]; [lia|].
    match goal with |- context [combo_row (S i) n (p ++ (t, vs) :: rest) ?c] =>
      assert (LC : length c = n) by (destruct (Nat.eqb i 0); rewrite ?carry_length; auto);
      specialize (IH (S i) c LC ltac:(lia)); destruct (combo_row (S i) n (p ++ (t, vs) :: rest) c) as [row cs'] eqn:R end.
    cbn [fst nth] in *. rewrite IH. replace (i + S (length p)) with (S i + length p) by lia.
    destruct (Nat.eqb i 0); auto. rewrite carry_above by lia. reflexivity.
Qed.

(** ** A label larger than the last one *)
Lemma zeros_nth (ls : list label) i : nth i (map (fun _ => 0) ls) 0 = 0.
Proof. revert i. induction ls; intros [|i]; simpl; auto. Qed.
Lemma combos_low pre t vs rest t' vs' d : length vs' < length vs -> vs' <> [] ->
  forall k cs, length cs = length (pre ++ (t, vs) :: rest ++ [(t', vs')]) -> low (length vs') cs -> pre <> [] ->
  Forall (fun row => exists c, c < length vs' /\ nth (length pre) row d = (t, nth c vs EmptyString))
    (combo_rows k (length (pre ++ (t, vs) :: rest ++ [(t', vs')])) (pre ++ (t, vs) :: rest ++ [(t', vs')]) cs).
Proof.
  intros LT NE. set (ls := pre ++ (t, vs) :: rest ++ [(t', vs')]).
  assert (LN : length ls = length pre + S (S (length rest))) by (unfold ls; rewrite app_length; cbn [length]; rewrite app_length; cbn [length]; lia).
  induction k as [|k IH]; intros cs L O P; [constructor|]. cbn [combo_rows].
  pose proof (combo_row_pick (length ls) t vs (rest ++ [(t', vs')]) d pre 0 cs L) as A.
  pose proof (combo_row_low (length ls) t' vs' (pre ++ (t, vs) :: rest) 0 cs L) as B.
  pose proof (combo_row_length (length ls) ls 0 cs) as C.
  rewrite <- app_assoc, <- app_comm_cons in B. fold ls in A, B.
  destruct (combo_row 0 (length ls) ls cs) as [row cs']. cbn [fst snd] in *.
  specialize (A ltac:(rewrite app_length; cbn [length]; lia)). specialize (B ltac:(rewrite app_length; cbn [length]; lia) NE).
  constructor; [|apply IH; auto; congruence].
  assert (K : nth (length pre) cs 0 < length vs') by (apply O; destruct pre; [congruence|cbn [length] in *; lia]).
  exists (nth (length pre) cs 0). split; [exact K|]. rewrite A. cbn [Nat.add]. rewrite Nat.mod_small by lia. reflexivity.
Qed.
Lemma pick_chooses : forall ls cs, Forall2 (fun p c => c < size p) ls cs -> chooses ls (pick ls cs).
Proof.
  induction 1 as [|[t vs] c ls cs H _ IH]; [constructor|]. cbn [pick]. constructor; [|exact IH]. split; [reflexivity|]. cbn [snd] in *. apply nth_In. exact H.
Qed.
Lemma filled_zeros ls : filled ls -> Forall2 (fun p c => c < size p) ls (map (fun _ => 0) ls).
Proof. induction 1 as [|[t vs] ls H _ IH]; cbn [map]; constructor; auto. cbn [snd] in *. destruct vs; [congruence|simpl; lia]. Qed.
Lemma pick_at d : forall pre t vs rest a c b, length a = length pre -> nth (length pre) (pick (pre ++ (t, vs) :: rest) (a ++ c :: b)) d = (t, nth c vs EmptyString).
Proof. induction pre as [|[t' vs'] pre IH]; intros t vs rest [|x a] c b L; try discriminate; [reflexivity|]. cbn. apply IH. simpl in L. lia. Qed.
Theorem larger_incomplete pre t vs rest t' vs' : let ls := pre ++ (t, vs) :: rest ++ [(t', vs')] in
  filled ls -> NoDup vs -> pre <> [] -> length vs' < length vs ->
  exists row, chooses ls row /\ ~ In row (label_combinations ls).
Proof.
  intros ls F ND P LT. assert (NE : vs' <> []).
  { unfold filled, ls in F. rewrite !Forall_app in F. destruct F as (_ & F). inversion F as [|? ? _ F']; subst. rewrite Forall_app in F'. destruct F' as (_ & F').
    inversion F'; subst. assumption. }
  exists (pick ls (map (fun _ => 0) pre ++ length vs' :: map (fun _ => 0) (rest ++ [(t', vs')]))). split.
  - apply pick_chooses. unfold ls, filled in *. rewrite !Forall_app in F. destruct F as (F1 & F2). inversion F2 as [|? ? _ F3]; subst.
    apply Forall2_app; [apply filled_zeros; exact F1|]. constructor; [exact LT|]. apply filled_zeros. exact F3.
  - intros H. unfold label_combinations in H.
    set (d := (EmptyString, EmptyString) : string * string).
    pose proof (combos_low pre t vs rest t' vs' d LT NE (fold_left (fun a p => a * size p) ls 1) (map (fun _ => 0) ls)) as C. fold ls in C.
    rewrite map_length in C. specialize (C eq_refl).
    assert (O : low (length vs') (map (fun _ : label => 0) ls)) by (intros i _; rewrite zeros_nth; destruct vs'; [congruence|simpl; lia]).
    specialize (C O P). rewrite Forall_forall in C. destruct (C _ H) as (c & CL & E).
    unfold ls in E. rewrite (pick_at d pre t vs _ (map (fun _ => 0) pre)) in E by apply map_length. injection E as E.
    apply (proj1 (NoDup_nth vs EmptyString) ND) in E; lia.
Qed.

Lemma forall2_length {A B} (P : A -> B -> Prop) l m : Forall2 P l m -> length l = length m.
Proof. induction 1; simpl; congruence. Qed.

(** ** Labels [pre], one label of at most [s] values, then labels of [s] values *)
Lemma horner_cat s a b : horner s (a ++ b) = horner s a * s ^ length b + horner s b.
Proof. unfold horner at 1. rewrite fold_left_app. fold (horner s a). apply horner_from. Qed.
Lemma horner_zeros s a : horner s a = 0 -> 0 < s -> Forall (eq 0) a.
Proof.
  intros H S0. induction a as [|c a IH]; [constructor|]. change (c :: a) with ([c] ++ a) in H. rewrite horner_cat in H.
  assert (P : 0 < s ^ length a) by (apply Nat.neq_0_lt_0, Nat.pow_nonzero; lia). change (horner s [c]) with c in H.
  constructor; [nia|]. apply IH. nia.
Qed.
Lemma horner_of_zeros s a : Forall (eq 0) a -> horner s a = 0.
Proof.
  induction 1 as [|c a <- _ IH]; [reflexivity|]. change (0 :: a) with ([0] ++ a). rewrite horner_cat, IH. reflexivity.
Qed.
Lemma digits s : forall a b, length a = length b -> low s a -> low s b -> horner s a = horner s b -> a = b.
Proof.
  assert (B : forall a, (forall i, i < length a -> nth i a 0 < s) -> horner s a < s ^ length a).
  { induction a as [|c a IH]; intros O; [unfold horner; simpl; lia|]. change (c :: a) with ([c] ++ a). rewrite horner_cat. change (horner s [c]) with c.
    pose proof (O 0 ltac:(simpl; lia)) as C. cbn [nth] in C. assert (horner s a < s ^ length a) by (apply IH; intros i I; apply (O (S i)); simpl; lia).
    rewrite app_length. cbn [length]. change (s ^ (1 + length a)) with (s * s ^ length a). nia. }
  assert (G : forall a b x y, length a = length b -> (forall i, i < length a -> nth i a 0 < s) -> (forall i, i < length b -> nth i b 0 < s) ->
    horner s (x :: a) = horner s (y :: b) -> x :: a = y :: b).
  { intros a. induction a as [|c a IH]; intros [|d b] x y L O1 O2 E; try discriminate.
    - unfold horner in E. simpl in E. congruence.
    - change (x :: c :: a) with ([x] ++ c :: a) in E. change (y :: d :: b) with ([y] ++ d :: b) in E. rewrite !horner_cat in E.
      pose proof (B (c :: a) O1) as B1. pose proof (B (d :: b) O2) as B2. rewrite <- L in B2, E.
      change (horner s [x]) with x in E. change (horner s [y]) with y in E.
      revert B1 B2 E. generalize (s ^ length (c :: a)) as P. remember (horner s (c :: a)) as h1 eqn:E1. remember (horner s (d :: b)) as h2 eqn:E2. intros P B1 B2 E.
      assert (XY : x = y).
      { destruct (Nat.lt_trichotomy x y) as [X|[X|X]]; auto; exfalso; [assert (S x * P <= y * P) by (apply Nat.mul_le_mono_r; lia)|assert (S y * P <= x * P) by (apply Nat.mul_le_mono_r; lia)]; lia. }
      subst y. f_equal. apply (IH b c d); [simpl in L; lia| | |].
      + intros i I. apply (O1 (S i)). simpl. lia.
      + intros i I. apply (O2 (S i)). simpl. lia.
      + lia. }
  intros [|x a] [|y b] L O1 O2 E; try discriminate; [reflexivity|]. apply G; auto.
  - intros i I. apply (O1 (S i)). simpl. lia.
  - intros i I. apply (O2 (S i)). simpl. lia.
Qed.

Lemma pre_row n rest : forall p i cs, filled p -> rest <> [] -> length cs = n -> i + length p + length rest = n ->
  (forall j, j < i + length p -> nth j cs 0 = 0) ->
  fst (combo_row i n (p ++ rest) cs) = pick p (map (fun _ => 0) p) ++ fst (combo_row (i + length p) n rest cs) /\
  snd (combo_row i n (p ++ rest) cs) = snd (combo_row (i + length p) n rest cs).
Proof.
  induction p as [|[t vs] p IH]; intros i cs F NE L E Z.
  - cbn [app length map pick]. rewrite Nat.add_0_r. auto.
  - inversion F as [|? ? F1 F2]; subst. cbn [snd] in F1. cbn [length] in E, Z |- *.
    assert (NR : 0 < length rest) by (destruct rest; [congruence|simpl; lia]).
    cbn [app combo_row]. destruct (Nat.leb_spec (length cs - 1) i) as [G|G]; [lia|].
    assert (CI : (if Nat.eqb i 0 then cs else carry i (length vs) cs) = cs).
    { destruct (Nat.eqb i 0); auto. assert (V : 0 < length vs) by (destruct vs; [congruence|simpl; lia]). clear - Z V E. 
      assert (K : forall m, m <= i -> carry m (length vs) cs = cs).
      { induction m as [|m IHm]; intros M; [reflexivity|]. cbn [carry]. rewrite (Z (S m)) by lia. destruct (Nat.leb_spec (length vs) 0); [lia|]. apply IHm. lia. }
      apply K. lia. }
    rewrite CI. destruct (IH (S i) cs F2 NE eq_refl) as (A & B); [lia|intros j J; apply Z; lia|].
    replace (i + S (length p)) with (S i + length p) by lia.
    destruct (combo_row (S i) (length cs) (p ++ rest) cs) as [row cs']. cbn [fst snd] in *. subst row cs'.
    rewrite (Z i) by lia. cbn [map pick app]. rewrite Nat.mod_0_l by (destruct vs; [congruence|discriminate]). auto.
Qed.

Section Shape.
  Variables (pre : list label) (t : string) (vs : list string) (rest : list label) (s : nat).
  Let ls := pre ++ (t, vs) :: rest.
  Let n := length ls.
  Hypothesis PF : filled pre. Hypothesis PN : pre <> []. Hypothesis VN : vs <> []. Hypothesis RN : rest <> [].
  Hypothesis U : uniform s rest. Hypothesis VS : length vs <= s.
  Let R := length vs * s ^ length rest.
  Fact n_is : n = length pre + S (length rest). Proof. unfold n, ls. rewrite app_length. reflexivity. Qed.
  Fact s_pos : 0 < s. Proof. assert (0 < length vs) by (destruct vs; [congruence|simpl; lia]). lia. Qed.
  Fact pow_pos' m : 0 < s ^ m. Proof. pose proof s_pos. apply Nat.neq_0_lt_0, Nat.pow_nonzero. lia. Qed.

  (** the counters of an early row *)
  Lemma early cs : length cs = n -> horner s cs < R -> exists c b, cs = map (fun _ => 0) pre ++ c :: b /\ length b = length rest /\ c < length vs.
  Proof.
    intros L H. pose proof n_is as NI. set (a := firstn (length pre) cs). set (d := skipn (length pre) cs).
    assert (E : cs = a ++ d) by (symmetry; apply firstn_skipn).
    assert (LA : length a = length pre) by (unfold a; rewrite firstn_length; lia).
    assert (LD : length d = S (length rest)) by (unfold d; rewrite skipn_length; lia).
    destruct d as [|c b]; [discriminate|]. injection LD as LD. rewrite E, horner_cat in H. change (c :: b) with ([c] ++ b) in H at 2. rewrite horner_cat in H.
    change (horner s [c]) with c in H. cbn [length] in H. rewrite LD in H. unfold R in H. cbn [Nat.pow] in H. pose proof (pow_pos' (length rest)) as P.
    assert (VP : length vs * s ^ length rest <= s * s ^ length rest) by (apply Nat.mul_le_mono_r; exact VS).
    assert (Z : horner s a = 0).
    { destruct (horner s a) as [|h]; [reflexivity|]. exfalso. cbn [Nat.mul] in H. lia. }
    assert (CV : c < length vs).
    { destruct (Nat.lt_ge_cases c (length vs)) as [X|X]; auto. exfalso. assert (length vs * s ^ length rest <= c * s ^ length rest) by (apply Nat.mul_le_mono_r; exact X). lia. }
    exists c, b. splits; auto.
    rewrite E. f_equal. apply horner_zeros in Z; [|apply s_pos]. clear - Z LA. revert LA. generalize pre. induction Z as [|x a <- _ IH]; intros [|q l] LA; try discriminate; [reflexivity|].
    cbn [map]. f_equal. apply IH. simpl in LA. lia.
  Qed.
  Lemma low_cat c b : low s (map (fun _ => 0) pre ++ c :: b) -> forall i, i < length b -> nth i b 0 < s.
  Proof.
    intros O i I. specialize (O (length pre + S i)). rewrite app_nth2, map_length in O by (rewrite map_length; lia).
    replace (length pre + S i - length pre) with (S i) in O by lia. apply O. rewrite app_length, map_length. cbn [length]. lia.
  Qed.
  Lemma early_row cs : length cs = n -> low s cs -> horner s cs < R ->
    fst (combo_row 0 n ls cs) = pick ls cs /\ low s (snd (combo_row 0 n ls cs)) /\ horner s (snd (combo_row 0 n ls cs)) = S (horner s cs).
  Proof.
    intros L O H. destruct (early cs L H) as (c & b & E & LB & C). pose proof n_is as NI. pose proof s_pos as S0.
    destruct (pre_row n ((t, vs) :: rest) pre 0 cs PF ltac:(congruence) L ltac:(cbn [length]; lia)) as (A1 & A2).
    { intros j J. rewrite E, app_nth1 by (rewrite map_length; exact J). apply zeros_nth. }
    fold ls in A1, A2. rewrite A1, A2. clear A1 A2. cbn [Nat.add combo_row].
    assert (PL : 0 < length pre) by (destruct pre; [congruence|simpl; lia]).
    assert (RL : 0 < length rest) by (destruct rest; [congruence|simpl; lia]).
    destruct (Nat.leb_spec (n - 1) (length pre)) as [G|G]; [lia|]. destruct (Nat.eqb_spec (length pre) 0) as [G2|_]; [lia|].
    assert (NC : nth (length pre) cs 0 = c) by (rewrite E, app_nth2, map_length, Nat.sub_diag by (rewrite map_length; lia); reflexivity).
    assert (CI : carry (length pre) (length vs) cs = cs).
    { assert (K : forall m, m <= length pre -> carry m (length vs) cs = cs); [|apply K; lia].
      induction m as [|m IHm]; intros M; [reflexivity|]. cbn [carry].
      assert (X : nth (S m) cs 0 < length vs).
      { destruct (Nat.eq_dec (S m) (length pre)) as [->|NE]; [lia|]. rewrite E, app_nth1, zeros_nth by (rewrite map_length; lia). lia. }
      destruct (Nat.leb_spec (length vs) (nth (S m) cs 0)); [lia|]. apply IHm. lia. }
    rewrite CI, NC, Nat.mod_small by exact C.
    pose proof (row_tail s n (S (length pre)) rest cs S0 ltac:(lia) L ltac:(lia) U O) as T.
    destruct (combo_row (S (length pre)) n rest cs) as [row cs']. destruct T as (T1 & T2 & T3 & T4). cbn [fst snd].
    split; [|split; [exact T3|rewrite T4; destruct rest; [congruence|reflexivity]]].
    rewrite T1, E. unfold ls. 
    assert (SK : skipn (S (length pre)) (map (fun _ : label => 0) pre ++ c :: b) = b).
    { clear. induction pre as [|q l IH]; [reflexivity|]. cbn [length map app skipn]. exact IH. }
    rewrite SK. clear. induction pre as [|[q w] l IH]; [reflexivity|]. cbn [map app pick]. f_equal. exact IH.
  Qed.
  (** the first [k] rows, and the counters afterwards *)
  Lemma early_rows : forall k m cs, length cs = n -> low s cs -> horner s cs + k <= R ->
    exists rows cs', length rows = k /\ length cs' = n /\ low s cs' /\ horner s cs' = horner s cs + k /\
      combo_rows (k + m) n ls cs = rows ++ combo_rows m n ls cs' /\
      forall j, j < k -> exists c, length c = n /\ low s c /\ horner s c = horner s cs + j /\ nth j rows [] = pick ls c.
  Proof.
    induction k as [|k IH]; intros m cs L O H.
    - exists [], cs. split; [reflexivity|]. split; [exact L|]. split; [exact O|]. split; [lia|]. split; [reflexivity|]. intros j J. lia.
    - cbn [Nat.add combo_rows]. destruct (early_row cs L O ltac:(lia)) as (A & B & C). pose proof (combo_row_length n ls 0 cs) as D.
      destruct (combo_row 0 n ls cs) as [row c1]. cbn [fst snd] in *.
      destruct (IH m c1 ltac:(congruence) B ltac:(lia)) as (rows & cs' & X1 & X2 & X3 & X4 & X5 & X6).
      exists (row :: rows), cs'. split; [simpl; lia|]. split; [exact X2|]. split; [exact X3|]. split; [lia|]. split; [rewrite X5; reflexivity|].
      intros [|j] J; [exists cs; splits; auto; lia|]. destruct (X6 j ltac:(lia)) as (c & Y1 & Y2 & Y3 & Y4). exists c. splits; auto. lia.
  Qed.
  Lemma zeros_low : low s (map (fun _ => 0) ls).
  Proof. intros i _. rewrite zeros_nth. apply s_pos. Qed.
  Lemma zeros_horner (l : list label) : horner s (map (fun _ => 0) l) = 0.
  Proof. apply horner_of_zeros. induction l; constructor; auto. Qed.
  Lemma total_is : fold_left (fun a p => a * size p) ls 1 = prod (sizes pre) * R.
  Proof.
    rewrite total_prod, Nat.mul_1_l. unfold ls, sizes. rewrite map_app. unfold R.
    assert (E : forall a b, prod (a ++ b) = prod a * prod b) by (induction a as [|x a IHa]; intros b; simpl; [lia|rewrite IHa; lia]).
    rewrite E. cbn [map snd].
    assert (Q : prod (map (fun p : label => size p) rest) = s ^ length rest).
    { clear - U. revert U. generalize rest. intros l. induction l as [|x l IH]; intros U; [reflexivity|]. inversion U as [|? ? X U']; subst.
      specialize (IH U'). cbn [map length Nat.pow]. rewrite <- IH. reflexivity. }
    rewrite <- Q. reflexivity.
  Qed.

  (** the row after the early ones is the first row again *)
  Lemma next_row cs : length vs < s -> length cs = n -> low s cs -> horner s cs = R -> fst (combo_row 0 n ls cs) = pick ls (map (fun _ => 0) ls).
  Proof.
    intros LT L O H. pose proof n_is as NI. pose proof s_pos as S0.
    assert (E : cs = map (fun _ => 0) pre ++ length vs :: map (fun _ => 0) rest).
    { apply (digits s); auto.
      - rewrite L, app_length. cbn [length]. rewrite !map_length. exact NI.
      - intros i I. destruct (Nat.lt_ge_cases i (length pre)) as [X|X]; [rewrite app_nth1, zeros_nth by (rewrite map_length; exact X); exact S0|].
        rewrite app_nth2 by (rewrite map_length; exact X). rewrite map_length. destruct (i - length pre) as [|j]; cbn [nth]; [exact LT|rewrite zeros_nth; exact S0].
      - rewrite H, horner_cat, zeros_horner. change (length vs :: map (fun _ => 0) rest) with ([length vs] ++ map (fun _ : label => 0) rest). rewrite horner_cat, zeros_horner, map_length.
        unfold R. change (horner s [length vs]) with (length vs). lia. }
    destruct (pre_row n ((t, vs) :: rest) pre 0 cs PF ltac:(congruence) L ltac:(cbn [length]; lia)) as (A1 & _).
    { intros j J. rewrite E, app_nth1 by (rewrite map_length; exact J). apply zeros_nth. }
    fold ls in A1. rewrite A1. clear A1. cbn [Nat.add combo_row].
    assert (PL : 0 < length pre) by (destruct pre; [congruence|simpl; lia]).
    assert (RL : 0 < length rest) by (destruct rest; [congruence|simpl; lia]).
    destruct (Nat.leb_spec (n - 1) (length pre)) as [G|G]; [lia|]. destruct (Nat.eqb_spec (length pre) 0) as [G2|_]; [lia|].
    assert (NC : nth (length pre) cs 0 = length vs) by (rewrite E, app_nth2, map_length, Nat.sub_diag by (rewrite map_length; lia); reflexivity).
    assert (V : 0 < length vs) by (destruct vs; [congruence|simpl; lia]).
    rewrite NC, Nat.mod_same by lia. set (cs2 := carry (length pre) (length vs) cs).
    assert (L2 : length cs2 = n) by (unfold cs2; rewrite carry_length; exact L).
    assert (AB : forall j, length pre < j -> nth j cs2 0 = 0).
    { intros j J. unfold cs2. rewrite carry_above by lia. rewrite E, app_nth2 by (rewrite map_length; lia). rewrite map_length.
      destruct (j - length pre) as [|i] eqn:X; [lia|]. cbn [nth]. apply zeros_nth. }
    assert (O2 : low s cs2).
    { intros j J. destruct (Nat.le_gt_cases j (length pre)) as [X|X]; [|rewrite AB by exact X; exact S0].
      eapply Nat.lt_trans; [|exact LT]. apply carry_low; lia. }
    pose proof (row_tail s n (S (length pre)) rest cs2 S0 ltac:(lia) L2 ltac:(lia) U O2) as T.
    destruct (combo_row (S (length pre)) n rest cs2) as [row cs']. destruct T as (T1 & _). cbn [fst].
    rewrite T1. assert (SK : skipn (S (length pre)) cs2 = map (fun _ => 0) rest).
    { apply (nth_ext _ _ 0 0); [rewrite skipn_length, map_length; lia|]. intros j J. rewrite zeros_nth.
      rewrite <- (firstn_skipn (S (length pre)) cs2) in AB. specialize (AB (S (length pre) + j) ltac:(lia)).
      rewrite app_nth2 in AB by (rewrite firstn_length; lia). rewrite firstn_length in AB.
      replace (S (length pre) + j - Nat.min (S (length pre)) (length cs2)) with j in AB by lia. exact AB. }
    rewrite SK. unfold ls. clear. induction pre as [|[q w] l IH]; [reflexivity|]. cbn [map app pick]. f_equal. exact IH.
  Qed.
  Theorem smaller_repeats : length vs < s -> 1 < prod (sizes pre) -> ~ NoDup (label_combinations ls).
  Proof.
    intros LT P ND. unfold label_combinations in ND. fold n in ND. rewrite total_is in ND.
    assert (RP : 0 < R) by (unfold R; pose proof (pow_pos' (length rest)); assert (0 < length vs) by (destruct vs; [congruence|simpl; lia]); nia).
    destruct (early_rows R (prod (sizes pre) * R - R) (map (fun _ => 0) ls)) as (rows & cs' & A & B & C & D & E & F).
    { unfold n. apply map_length. } { apply zeros_low. } { rewrite zeros_horner. lia. }
    replace (prod (sizes pre) * R) with (R + (prod (sizes pre) * R - R)) in ND by nia. rewrite E in ND.
    destruct (prod (sizes pre) * R - R) as [|m] eqn:M; [nia|]. cbn [combo_rows] in ND.
    rewrite zeros_horner in D. pose proof (next_row cs' LT B C D) as NR. destruct (combo_row 0 n ls cs') as [row c2]. cbn [fst] in NR. subst row.
    destruct (F 0 RP) as (c & C1 & C2 & C3 & C4). rewrite zeros_horner in C3.
    assert (c = map (fun _ => 0) ls) by (apply (digits s); auto; [rewrite C1; unfold n; symmetry; apply map_length|apply zeros_low|rewrite zeros_horner; lia]).
    subst c. apply NoDup_remove_2 in ND. apply ND. apply in_or_app. left. rewrite <- C4. apply nth_In. lia.
  Qed.
  Theorem ones_complete : prod (sizes pre) = 1 -> forall row, chooses ls row -> In row (label_combinations ls).
  Proof.
    intros P row CH. unfold label_combinations. fold n. rewrite total_is, P, Nat.mul_1_l.
    destruct (early_rows R 0 (map (fun _ => 0) ls)) as (rows & cs' & A & B & C & D & E & F).
    { unfold n. apply map_length. } { apply zeros_low. } { rewrite zeros_horner. lia. }
    rewrite Nat.add_0_r in E. rewrite E. cbn [combo_rows]. rewrite app_nil_r.
    assert (W : exists cs, Forall2 (fun p c => c < size p) ls cs /\ row = pick ls cs).
    { clear - CH. induction CH as [|[q w] [q' v] l r [X1 X2] _ (cs & IH1 & IH2)]; [exists []; split; constructor|].
      cbn [fst snd] in *. subst q'. destruct (In_nth w v EmptyString X2) as (i & I & <-). exists (i :: cs). split; [constructor; auto|]. cbn [pick]. rewrite IH2. reflexivity. }
    destruct W as (cs & W1 & ->).
    assert (Z : exists c b, cs = map (fun _ => 0) pre ++ c :: b /\ c < length vs /\ Forall2 (fun p c => c < size p) rest b).
    { unfold ls in W1. apply Forall2_app_inv_l in W1. destruct W1 as (a & d & W1 & W2 & ->). inversion W2 as [|? c ? b W3 W4]; subst. exists c, b. splits; auto. f_equal.
      clear - W1 P. revert P. induction W1 as [|p x l a X _ IH]; intros P; [reflexivity|]. cbn [sizes map prod] in P. apply Nat.eq_mul_1 in P. destruct P as [P1 P2]. cbn [map]. rewrite (IH P2). f_equal. lia. }
    destruct Z as (c & b & -> & CV & RB). pose proof (forall2_length _ _ _ RB) as LB.
    assert (BB : forall i, i < length b -> nth i b 0 < s).
    { clear - RB U. revert U. induction RB as [|p x l b X _ IH]; intros U i I; [simpl in I; lia|]. inversion U as [|? ? Y U']; subst. destruct i as [|i]; [exact X|]. apply IH; auto. simpl in I. lia. }
    set (cs := map (fun _ => 0) pre ++ c :: b) in *.
    assert (LC : length cs = n) by (unfold cs; rewrite app_length, map_length, n_is; cbn [length]; lia).
    assert (O : low s cs).
    { intros i I. unfold cs in *. destruct (Nat.lt_ge_cases i (length pre)) as [X|X]; [rewrite app_nth1, zeros_nth by (rewrite map_length; exact X); apply s_pos|].
      rewrite app_nth2, map_length by (rewrite map_length; exact X). rewrite LC, n_is in I. destruct (i - length pre) as [|j] eqn:J; cbn [nth]; [lia|apply BB; lia]. }
    assert (H : horner s cs < R).
    { unfold cs. rewrite horner_cat, zeros_horner. change (c :: b) with ([c] ++ b). rewrite horner_cat. change (horner s [c]) with c. unfold R.
      assert (HB : horner s b < s ^ length b).
      { clear - BB. induction b as [|x b IH]; [unfold horner; simpl; lia|]. change (x :: b) with ([x] ++ b). rewrite horner_cat. change (horner s [x]) with x.
        pose proof (BB 0 ltac:(simpl; lia)) as X. cbn [nth] in X. assert (horner s b < s ^ length b) by (apply IH; intros i I; apply (BB (S i)); simpl; lia).
        cbn [app length Nat.pow]. assert (S x * s ^ length b <= s * s ^ length b) by (apply Nat.mul_le_mono_r; exact X). lia. }
      rewrite <- LB in *. assert (S c * s ^ length rest <= length vs * s ^ length rest) by (apply Nat.mul_le_mono_r; exact CV). lia. }
    destruct (F (horner s cs) H) as (c' & X1 & X2 & X3 & X4). rewrite zeros_horner in X3.
    assert (c' = cs) by (apply (digits s); auto; congruence). subst c'. rewrite <- X4. apply nth_In. lia.
  Qed.
End Shape.

(** ** Every list of labels *)
Lemma decompose : forall ls : list label, ls <> [] -> exists s, uniform s (tl ls) \/
  exists pre t vs rest, pre <> [] /\ rest <> [] /\ ls = pre ++ (t, vs) :: rest /\ uniform s rest /\ length vs <> s.
Proof.
  induction ls as [|p l IH]; intros NE; [congruence|]. destruct l as [|[t vs] l]; [exists 0; left; constructor|].
  destruct IH as (s & [U|(pre & t' & vs' & rest & A & B & C & D & E)]); [congruence| |].
  - cbn [tl] in *. destruct l as [|q l].
    + exists (length vs). left. constructor; [reflexivity|constructor].
    + destruct (Nat.eq_dec (length vs) s) as [X|X]; exists s.
      * left. constructor; auto.
      * right. exists [p], t, vs, (q :: l). splits; auto; congruence.
  - exists s. right. exists (p :: pre), t', vs', rest. splits; auto; [congruence|]. rewrite C. reflexivity.
Qed.
Lemma prod_one (l : list label) : filled l -> prod (sizes l) = 1 \/ 1 < prod (sizes l).
Proof. intros F. apply prod_pos in F. lia. Qed.
Lemma prod_ones (l : list label) : prod (sizes l) = 1 <-> Forall (fun p => size p = 1) l.
Proof.
  induction l as [|p l IH]; [split; [constructor|reflexivity]|]. change (prod (sizes (p :: l))) with (size p * prod (sizes l)). rewrite Nat.eq_mul_1, IH.
  split; [intros [A B]; constructor; auto|intros H; inversion H; auto].
Qed.
Theorem complete_iff ls : Forall (fun p => NoDup (snd p)) ls -> filled ls ->
  ((forall row, chooses ls row -> In row (label_combinations ls)) <-> odometer ls).
Proof.
  intros ND F. split.
  - intros ALL. destruct ls as [|p0 l0] eqn:EL; [left; reflexivity|]. rewrite <- EL in *.
    destruct (decompose ls ltac:(congruence)) as (s & [Un|(pre & t & vs & rest & A & B & C & D & E)]).
    + right. exists [], p0, l0, s. rewrite EL in *. splits; auto.
    + right. rewrite C in ND, F, ALL |- *. clear C EL. unfold filled in F. rewrite Forall_app in ND, F. destruct ND as [ND1 ND2], F as [F1 F2].
      inversion ND2 as [|? ? NV NR]; subst. inversion F2 as [|? ? FV FR]; subst. cbn [snd] in *.
      destruct (Nat.lt_ge_cases s (length vs)) as [X|X].
      * exfalso. destruct (exists_last B) as (r & [t' vs'] & RE). subst rest. unfold uniform in D. rewrite Forall_app in D. destruct D as [_ D].
        inversion D as [|? ? SZ _]; subst. cbn [snd] in *.
        assert (FA : filled (pre ++ (t, vs) :: r ++ [(t', vs')])) by (unfold filled; rewrite Forall_app; split; auto).
        destruct (larger_incomplete pre t vs r t' vs' FA NV A X) as (row & R1 & R2). exact (R2 (ALL row R1)).
      * destruct (prod_one pre F1) as [P|P].
        -- exists pre, (t, vs), rest, s. splits; auto. apply prod_ones. exact P.
        -- exfalso. apply (smaller_repeats pre t vs rest s); auto; [lia|].
           eapply NoDup_incl_NoDup; [apply (cart_nodup (pre ++ (t, vs) :: rest))| |].
           ++ rewrite Forall_app. split; auto.
           ++ rewrite (proj1 (combos_legal _)), cart_length. auto.
           ++ intros row R. apply cart_iff in R. apply ALL. exact R.
  - intros [->|(ones & x & rest & s & -> & A & B & C)].
    + intros row CH. inversion CH; subst. left. reflexivity.
    + destruct (list_eq_dec (fun a b : label => ltac:(decide equality; [apply (list_eq_dec string_dec)|apply string_dec])) ones []) as [->|NE].
      { intros row CH. cbn [app] in *. rewrite (combos_cart s) by exact B. apply cart_iff. exact CH. }
      destruct C as [C|C]; [congruence|].
      unfold filled in F. rewrite Forall_app in F. destruct F as [F1 F2]. inversion F2 as [|? ? FV FR]; subst.
      destruct rest as [|q rest].
      * destruct (exists_last NE) as (o & [t1 v1] & ->). rewrite Forall_app in A, F1. destruct A as [A1 A2], F1 as [F3 F4]. inversion A2 as [|? ? A3 _]; subst. inversion F4; subst. cbn [snd] in *.
        rewrite <- app_assoc. cbn [app].
        destruct o as [|o1 o].
        { intros row CH. cbn [app] in *. rewrite (combos_cart (size x)) by (constructor; [reflexivity|constructor]). apply cart_iff. exact CH. }
        apply (ones_complete (o1 :: o) t1 v1 [x] (size x)); auto; try congruence.
        -- constructor; [reflexivity|constructor].
        -- rewrite A3. destruct (snd x); [congruence|simpl; lia].
        -- apply prod_ones. exact A1.
      * destruct x as [t vs]. apply (ones_complete ones t vs (q :: rest) s); auto; try congruence. apply prod_ones. exact A.
Qed.
