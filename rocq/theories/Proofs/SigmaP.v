(** Sigma conditions. *)
From Coq Require Import String Ascii NArith ZArith List Bool Arith Lia.
From Verif Require Import Base.Ord Base.BTree Base.Str Base.Outcome Model.Field Model.DatasetTypes Model.Mitre Model.Rule Model.Sigma
  Spec.RuleSpec Spec.SigmaSpec Proofs.FieldP.
Import ListNotations.
Local Open Scope string_scope.

(** ** Text *)
Lemma las_app a b : list_ascii_of_string (a ++ b) = (list_ascii_of_string a ++ list_ascii_of_string b)%list.
Proof. induction a as [|c a IH]; simpl; [reflexivity|]. rewrite IH; reflexivity. Qed.
Lemma slen_app a b : String.length (a ++ b) = (String.length a + String.length b)%nat.
Proof. induction a as [|c a IH]; simpl; [reflexivity|]. rewrite IH; reflexivity. Qed.
Lemma lits_app a b : lits (a ++ b) = (lits a ++ lits b)%list.
Proof. unfold lits. rewrite las_app, map_app. reflexivity. Qed.

Lemma ends_with_iff p s : ends_with p s = true <-> exists a, s = a ++ p.
Proof.
  induction s as [|c s IH]; cbn [ends_with].
  - rewrite orb_false_r, String.eqb_eq. split; [intros ->; exists ""; reflexivity|].
    intros [a H]. destruct a; [exact (eq_sym H)|discriminate H].
  - rewrite orb_true_iff, IH, String.eqb_eq. split.
    + intros [->|[a ->]]; [exists ""; reflexivity|exists (String c a); reflexivity].
    + intros [[|x a] H]; [left; exact (eq_sym H)|]. right. exists a. cbn in H. congruence.
Qed.

Lemma substring_all n s : String.length s <= n -> String.substring 0 n s = s.
Proof. revert n; induction s as [|c s IH]; intros [|n] H; simpl in *; try reflexivity; try lia. rewrite IH by lia. reflexivity. Qed.
Lemma substring_prefix a b : String.substring 0 (String.length a) (a ++ b) = a.
Proof. induction a as [|c a IH]; simpl; [destruct b; reflexivity|]. rewrite IH; reflexivity. Qed.

Lemma snoc_cases s : s = "" \/ exists a c, s = a ++ str1 c.
Proof.
  induction s as [|c s IH]; [left; reflexivity|right].
  destruct IH as [->|(a & d & ->)]; [exists "", c; reflexivity|exists (String c a), d; reflexivity].
Qed.
Lemma snoc_inj a b c d : a ++ str1 c = b ++ str1 d -> a = b /\ c = d.
Proof.
  revert b; induction a as [|x a IH]; intros [|y b] H; cbn in H.
  - inversion H; auto.
  - inversion H; subst. destruct b; discriminate.
  - inversion H; subst. destruct a; discriminate.
  - inversion H; subst. destruct (IH _ H2) as [-> ->]. auto.
Qed.

Lemma byte_at_end s t c : byte_at (String.length s) (s ++ String c t) = Some c.
Proof. induction s as [|x s IH]; simpl; [reflexivity|exact IH]. Qed.

Lemma boundary_len s : is_boundary (String.length s) s = true.
Proof. unfold is_boundary. rewrite Nat.eqb_refl, orb_true_r. reflexivity. Qed.

Lemma slice_from_1 c s : is_cont (match s with String d _ => d | _ => "000" end) = false -> slice_from 1 (String c s) = Val s.
Proof.
  intros H. unfold slice_from, slice. rewrite boundary_len.
  assert (is_boundary 1 (String c s) = true) as ->.
  { unfold is_boundary. destruct s as [|d s]; simpl; [reflexivity|]. rewrite H. rewrite ?orb_true_r. reflexivity. }
  simpl. rewrite Nat.sub_0_r, substring_all by lia. reflexivity.
Qed.

Lemma boundary_before s c : is_cont c = false -> is_boundary (String.length s) (s ++ str1 c) = true.
Proof. intros H. unfold is_boundary, str1. rewrite byte_at_end, H, !orb_true_r. reflexivity. Qed.

(** ** Patterns *)
Lemma gmatch_lits x s : gmatch (lits x) s <-> s = x.
Proof.
  unfold lits. revert s; induction x as [|c x IH]; intros s; simpl.
  - split; [intros H; inversion H; reflexivity|intros ->; constructor].
  - split; [intros H; inversion H; subst; f_equal; apply IH; assumption|intros ->; constructor; apply IH; reflexivity].
Qed.

Lemma gmatch_app p q s : gmatch (p ++ q) s <-> exists a b, s = a ++ b /\ gmatch p a /\ gmatch q b.
Proof.
  revert s; induction p as [|t p IH]; intros s; simpl.
  - split; [intros H; exists "", s; repeat split; [constructor|exact H]|]. intros (a & b & -> & H1 & H2). inversion H1; subst. exact H2.
  - split.
    + intros H. inversion H as [|c ps u G|c ps u G|ps pre u G]; subst; apply IH in G as (a & b & -> & G1 & G2).
      * exists (String c a), b. repeat split; [constructor; exact G1|exact G2].
      * exists (String c a), b. repeat split; [constructor; exact G1|exact G2].
      * exists (pre ++ a), b. split; [apply eq_sym, str_app_assoc|]. split; [constructor; exact G1|exact G2].
    + intros (a & b & -> & H1 & H2). inversion H1 as [|c ps u G|c ps u G|ps pre u G]; subst.
      * constructor. apply IH. eauto.
      * constructor. apply IH. eauto.
      * rewrite str_app_assoc. constructor. apply IH. eauto.
Qed.

Lemma gmatch_star s : gmatch [Star] s.
Proof. rewrite <- (str_app_nil_r s). constructor. constructor. Qed.

Lemma means_prefix x s : gmatch (lits x ++ [Star]) s <-> exists b, s = x ++ b.
Proof.
  rewrite gmatch_app. split.
  - intros (a & b & -> & H & _). apply gmatch_lits in H as ->. eauto.
  - intros [b ->]. exists x, b. split; [reflexivity|]. split; [apply gmatch_lits; reflexivity|apply gmatch_star].
Qed.
Lemma star_inv p s : gmatch (Star :: p) s <-> exists a b, s = a ++ b /\ gmatch p b.
Proof.
  split; [intros H; inversion H as [| | |ps a u G]; subst; eauto|intros (a & b & -> & G); constructor; exact G].
Qed.
Lemma means_suffix x s : gmatch (Star :: lits x) s <-> exists a, s = a ++ x.
Proof.
  rewrite star_inv. split.
  - intros (a & b & -> & H). apply gmatch_lits in H as ->. eauto.
  - intros [a ->]. exists a, x. split; [reflexivity|apply gmatch_lits; reflexivity].
Qed.
Lemma means_substring x s : gmatch (Star :: lits x ++ [Star]) s <-> exists a b, s = a ++ x ++ b.
Proof.
  rewrite star_inv. split.
  - intros (a & b & -> & H). apply means_prefix in H as [c ->]. eauto.
  - intros (a & b & ->). exists a, (x ++ b). split; [reflexivity|]. apply means_prefix. eauto.
Qed.

(** The meaning of a literal text under each modifier *)
Definition tests (h : how) (x s : string) : Prop :=
  match h with
  | Whole => s = x | Substring => exists a b, s = a ++ x ++ b | Prefixed => exists b, s = x ++ b | Suffixed => exists a, s = a ++ x
  end.
Lemma wrap_lits h x s : gmatch (wrap h (lits x)) s <-> tests h x s.
Proof. destruct h; [apply gmatch_lits|apply means_substring|apply means_prefix|apply means_suffix]. Qed.

Definition scalar_text (P : printers) (v : sigma_value) : string :=
  match v with SText s => s | SInt z => dec_z z | SFloat x => f64_str P x | _ => "" end.
Lemma scalar_tests P h v s : literal_scalar v -> (scalar_means P h v s <-> tests h (scalar_text P v) s).
Proof.
  intros L. unfold scalar_means. rewrite <- wrap_lits. destruct v; simpl in *; try contradiction; unfold literal in *; try rewrite L;
  (split; [intros (p & H & G); inversion H; subst; exact G|intros G; eexists; split; [reflexivity|exact G]]).
Qed.

(** *** Where wildcards are *)
Lemma sigma_pattern_cons c s : sigma_pattern (String c s) =
  (if Ascii.eqb c "\" then
     match s with
     | String d r => if Ascii.eqb d "*" || Ascii.eqb d "?" || Ascii.eqb d "\" then Lit d :: sigma_pattern r
                     else Lit c :: sigma_pattern s
     | EmptyString => Lit c :: sigma_pattern s
     end
   else if Ascii.eqb c "*" then Star :: sigma_pattern s else if Ascii.eqb c "?" then Quest :: sigma_pattern s
   else Lit c :: sigma_pattern s).
Proof.
  destruct c as [[] [] [] [] [] [] [] []]; try reflexivity.
  destruct s as [|d r]; [reflexivity|]. destruct d as [[] [] [] [] [] [] [] []]; reflexivity.
Qed.

Lemma pattern_len r : length (sigma_pattern r) <= String.length r.
Proof.
  assert (forall n r, String.length r <= n -> length (sigma_pattern r) <= String.length r) as X; [|exact (X _ r (le_n _))].
  clear r. induction n as [|n IH]; intros [|c r] H; simpl in H; try lia; [simpl; lia|simpl; lia|]. rewrite sigma_pattern_cons.
  destruct (Ascii.eqb c "\"); [destruct r as [|d r]; [simpl; lia|]; destruct (_ || _)|destruct (Ascii.eqb c "*"); [|destruct (Ascii.eqb c "?")]];
  cbn [length String.length] in *;
  match goal with |- context [sigma_pattern ?t] => pose proof (IH t); cbn [String.length] in *; lia end.
Qed.

Lemma literal_cons c s : literal (String c s) -> literal s /\ Ascii.eqb c "*" = false /\ Ascii.eqb c "?" = false /\
  (Ascii.eqb c "\" = true -> match s with String d _ => Ascii.eqb d "*" || Ascii.eqb d "?" || Ascii.eqb d "\" = false | _ => True end).
Proof.
  unfold literal. rewrite sigma_pattern_cons. change (lits (String c s)) with (Lit c :: lits s).
  destruct (Ascii.eqb_spec c "\") as [->|N].
  - destruct s as [|d r].
    + intros _. repeat split; reflexivity.
    + destruct (Ascii.eqb d "*" || Ascii.eqb d "?" || Ascii.eqb d "\") eqn:E.
      * intros H. exfalso. assert (d = "\"%char) by congruence; subst d. clear E.
        change (lits (String "\" r)) with (Lit "\" :: lits r) in H.
        assert (L : length (sigma_pattern r) = length (Lit "\" :: lits r)) by congruence.
        assert (LE : length (sigma_pattern r) <= String.length r).
        { apply pattern_len. }
        unfold lits in L. cbn [length] in L. rewrite map_length in L.
        assert (length (list_ascii_of_string r) = String.length r) by (clear; induction r; simpl; congruence). lia.
      * intros H. repeat split; try reflexivity. congruence.
  - destruct (Ascii.eqb c "*"); [discriminate|]. destruct (Ascii.eqb c "?"); [discriminate|]. intros H.
    repeat split; [congruence|discriminate].
Qed.

Lemma literal_app_l a b : literal (a ++ b) -> literal a.
Proof.
  induction a as [|c a IH]; intros H; [reflexivity|]. cbn in H. apply literal_cons in H as (H & S1 & Q1 & B).
  specialize (IH H). unfold literal. rewrite sigma_pattern_cons, S1, Q1. change (lits (String c a)) with (Lit c :: lits a).
  destruct (Ascii.eqb c "\") eqn:E; [|rewrite IH; reflexivity].
  destruct a as [|d a]; [reflexivity|]. cbn in B. rewrite (B eq_refl), IH. reflexivity.
Qed.

Lemma literal_snoc a c : literal a -> ends_with "\" a = false ->
  sigma_pattern (a ++ str1 c) = (lits a ++ sigma_pattern (str1 c))%list.
Proof.
  induction a as [|x a IH]; intros L E; [reflexivity|]. cbn [append]. apply literal_cons in L as (L & S1 & Q1 & B).
  rewrite sigma_pattern_cons, S1, Q1. change (lits (String x a)) with (Lit x :: lits a).
  cbn [ends_with] in E. apply orb_false_iff in E as [E1 E2]. rewrite (IH L E2).
  destruct (Ascii.eqb_spec x "\") as [->|N]; [|reflexivity].
  destruct a as [|d a]; [rewrite String.eqb_refl in E1; discriminate E1|].
  cbn [append]. rewrite (B eq_refl). reflexivity.
Qed.

Lemma literal_ends a : literal a -> ends_with "*" a = false.
Proof.
  induction a as [|x a IH]; intros L; [reflexivity|]. apply literal_cons in L as (L & S1 & _). cbn [ends_with].
  rewrite (IH L), orb_false_r. apply String.eqb_neq. intros H. inversion H; subst. discriminate S1.
Qed.
Lemma starts_char c p : starts_with "*" (String c p) = Ascii.eqb c "*".
Proof.
  unfold starts_with. cbn [prefix]. destruct (ascii_dec "*" c) as [<-|N]; [destruct p; reflexivity|].
  symmetry. apply Ascii.eqb_neq. congruence.
Qed.
Lemma literal_starts a : literal a -> starts_with "*" a = false.
Proof.
  destruct a as [|x a]; intros L; [reflexivity|]. apply literal_cons in L as (_ & S1 & _). rewrite starts_char. exact S1.
Qed.
Lemma starts_star s : starts_with "*" (String "*" s) = true.
Proof. rewrite starts_char. reflexivity. Qed.
Lemma ends_bs_snoc a : ends_with "\*" (a ++ "*") = ends_with "\" a.
Proof.
  apply eq_true_iff_eq. rewrite !ends_with_iff. split.
  - intros [b H]. exists b. change "\*" with ("\" ++ str1 "*") in H. rewrite <- str_app_assoc in H.
    apply snoc_inj in H as [H _]. exact H.
  - intros [b ->]. exists b. rewrite str_app_assoc. reflexivity.
Qed.
Lemma ends_star_snoc a : ends_with "*" (a ++ "*") = true.
Proof. apply ends_with_iff. eauto. Qed.

(** ** Translating a value without modifiers *)
Lemma content_literal P v : literal v -> translate_content_to_operator P (SText v) = Val (OEquals (Text v)).
Proof.
  intros L. unfold translate_content_to_operator. rewrite (literal_starts _ L), (literal_ends _ L). reflexivity.
Qed.
Lemma content_trailing P p : literal p -> ends_with "\" p = false ->
  translate_content_to_operator P (SText (p ++ "*")) = Val (OStartsWith p).
Proof.
  intros L B. unfold translate_content_to_operator. rewrite ends_star_snoc, ends_bs_snoc, B. cbn [negb andb].
  destruct p as [|c p]; [reflexivity|].
  assert (starts_with "*" (String c p ++ "*") = false) as ->.
  { apply literal_cons in L as (_ & S1 & _). cbn [append]. rewrite starts_char. exact S1. }
  cbn [andb]. assert (Nat.ltb 1 (String.length (String c p ++ "*")) = true) as ->.
  { apply Nat.ltb_lt. rewrite slen_app. simpl. lia. }
  rewrite slen_app. replace (String.length (String c p) + String.length "*" - 1) with (String.length (String c p)) by (simpl; lia).
  unfold slice. change (is_boundary 0 _) with true. rewrite Nat.sub_0_r.
  change "*" with (str1 "*"). rewrite boundary_before by reflexivity. cbn [andb Nat.leb obind].
  rewrite substring_prefix. reflexivity.
Qed.
Lemma content_leading P x : literal x -> x <> "" -> head_ok x ->
  translate_content_to_operator P (SText (String "*" x)) = Val (OStartsWith x).
Proof.
  intros L N H. unfold translate_content_to_operator. rewrite starts_star.
  assert (ends_with "*" (String "*" x) = false) as ->.
  { cbn [ends_with]. rewrite (literal_ends _ L), orb_false_r. apply String.eqb_neq. intros X. inversion X; congruence. }
  cbn [andb]. rewrite slice_from_1 by exact H. reflexivity.
Qed.
Lemma content_both P y c : literal (y ++ str1 c) -> Ascii.eqb c "\" = false -> head_ok (y ++ str1 c) ->
  translate_content_to_operator P (SText (String "*" (y ++ str1 c) ++ "*")) =
    (if is_cont c then Panic else Val (OContains y)).
Proof.
  intros L B H. unfold translate_content_to_operator. cbn [append]. rewrite starts_star.
  change (String "*" ((y ++ str1 c) ++ "*")) with (String "*" (y ++ str1 c) ++ "*").
  rewrite ends_star_snoc, ends_bs_snoc.
  assert (ends_with "\" (String "*" (y ++ str1 c)) = false) as ->.
  { destruct (ends_with _ _) eqn:E; [|reflexivity]. apply ends_with_iff in E as [b E].
    change (String "*" (y ++ str1 c)) with (String "*" y ++ str1 c) in E. change "\" with (str1 "\") in E.
    apply snoc_inj in E as [_ ->]. discriminate B. }
  cbn [negb andb].
  assert (LEN : String.length (String "*" (y ++ str1 c) ++ "*") = S (S (S (String.length y)))).
  { cbn [append String.length]. rewrite !slen_app. simpl. lia. }
  rewrite LEN. cbn [Nat.ltb Nat.leb].
  replace (S (S (S (String.length y))) - 2) with (S (String.length y)) by lia.
  unfold slice. cbn [Nat.leb andb].
  assert (is_boundary 1 (String "*" (y ++ str1 c) ++ "*") = true) as ->.
  { unfold is_boundary. cbn [Nat.eqb append byte_at]. unfold head_ok in H. change continuation with is_cont in H. destruct y as [|d y]; cbn in *; rewrite H; cbn; rewrite ?orb_true_r; reflexivity. }
  assert (is_boundary (S (String.length y)) (String "*" (y ++ str1 c) ++ "*") = negb (is_cont c)) as ->.
  { unfold is_boundary. rewrite LEN. cbn [Nat.eqb orb]. replace (Nat.eqb (String.length y) (S (S (String.length y)))) with false
      by (symmetry; apply Nat.eqb_neq; lia). cbn [append byte_at orb]. rewrite str_app_assoc. unfold str1. cbn [append].
    rewrite byte_at_end. reflexivity. }
  destruct (is_cont c); [reflexivity|]. cbn [negb andb obind]. do 2 f_equal.
  replace (S (String.length y) - 1) with (String.length y) by lia. cbn [append String.substring].
  rewrite str_app_assoc. apply substring_prefix.
Qed.

(** ** Modifiers *)
Lemma map_outcome_val {A B} (f : A -> outcome B) (g : A -> B) l : (forall x, In x l -> f x = Val (g x)) -> map_outcome f l = Val (map g l).
Proof.
  induction l as [|x r IH]; intros H; simpl; [reflexivity|]. rewrite (H x (or_introl eq_refl)). simpl.
  rewrite IH by (intros y I; apply H; right; exact I). reflexivity.
Qed.
Lemma map_outcome_panic {A B} (f : A -> outcome B) l x : (forall y, f y <> OutOfFuel) -> In x l -> f x = Panic -> map_outcome f l = Panic.
Proof.
  intros N. induction l as [|y r IH]; intros I H; [contradiction|]. simpl. destruct I as [->|I]; [rewrite H; reflexivity|].
  specialize (N y). destruct (f y); simpl; [rewrite (IH I H); reflexivity|reflexivity|congruence].
Qed.
Lemma map_outcome_inv {A B} (f : A -> outcome B) l ys : map_outcome f l = Val ys -> Forall2 (fun x y => f x = Val y) l ys.
Proof.
  revert ys; induction l as [|x r IH]; intros ys H; simpl in H; [inversion H; constructor|].
  destruct (f x) eqn:E; simpl in H; try discriminate H. destruct (map_outcome f r) eqn:F; simpl in H; try discriminate H.
  inversion H; subst. constructor; auto.
Qed.

Lemma display_scalar P v : literal_scalar v -> value_to_string P v = Val (scalar_text P v).
Proof. destruct v; simpl; intros H; try contradiction; reflexivity. Qed.

Lemma op_any P l s : op_text P (OAny l) s <-> Exists (fun o => op_text P o s) l.
Proof.
  simpl. induction l as [|o r IH]; simpl; [rewrite Exists_nil; tauto|]. rewrite Exists_cons. rewrite <- IH. tauto.
Qed.
Lemma op_all P l s : op_text P (OAll l) s <-> Forall (fun o => op_text P o s) l.
Proof.
  simpl. induction l as [|o r IH]; simpl; [split; constructor|]. rewrite IH. split; [intros [A B]; constructor; auto|intros H; inversion H; auto].
Qed.

Lemma split_key name m : str_has "|" name = false -> str_has "|" m = false -> split_on "|" (name ++ String "|" m) = [name; m].
Proof. intros H K. rewrite split_on_app_sep by exact H. rewrite split_on_no_sep by exact K. reflexivity. Qed.

(** the key splits into the name and the modifiers *)
Lemma key_parts P name h all v : str_has "|" name = false ->
  parse_rule_condition P (key name h all) v =
  match h, all with
  | Whole, false => let! o := translate_content_to_operator P v in Val (mkCond name o)
  | Whole, true => let! o := translate_operator P "all" None v in Val (mkCond name o)
  | Substring, _ => let! o := translate_operator P "contains" (if all then Some "all" else None) v in Val (mkCond name o)
  | Prefixed, _ => let! o := translate_operator P "startswith" (if all then Some "all" else None) v in Val (mkCond name o)
  | Suffixed, _ => let! o := translate_operator P "endswith" (if all then Some "all" else None) v in Val (mkCond name o)
  end.
Proof.
  intros H. unfold parse_rule_condition, key.
  destruct h, all; cbn [append]; rewrite ?str_app_nil_r;
    try (rewrite split_on_no_sep by exact H; reflexivity); rewrite split_on_app_sep by exact H; reflexivity.
Qed.

Lemma tests_contains P x s : op_text P (OContains x) s <-> tests Substring x s.
Proof. reflexivity. Qed.

Lemma exists_map {A B} (f : A -> B) (Q : B -> Prop) l : Exists Q (map f l) <-> Exists (fun x => Q (f x)) l.
Proof. induction l as [|x r IH]; simpl; [split; intros H; inversion H|]. rewrite !Exists_cons, IH. tauto. Qed.
Lemma exists_ext_in {A} (Q R : A -> Prop) l : Forall (fun x => Q x <-> R x) l -> (Exists Q l <-> Exists R l).
Proof. intros H; induction H as [|x r Hx H IH]; [split; intros X; inversion X|]. rewrite !Exists_cons, IH, Hx. tauto. Qed.
Lemma forall_ext_in {A} (Q R : A -> Prop) l : Forall (fun x => Q x <-> R x) l -> (Forall Q l <-> Forall R l).
Proof.
  intros H; induction H as [|x r Hx H IH]; [split; constructor|]. split; intros X; inversion X; subst; constructor; tauto.
Qed.
Lemma forall_imp {A} (Q R : A -> Prop) l : (forall x, Q x -> R x) -> Forall Q l -> Forall R l.
Proof. intros H F; induction F; constructor; auto. Qed.

Lemma modifiers_meaning P name h all v : str_has "|" name = false -> literal_value v -> supported h all v ->
  exists o, parse_rule_condition P (key name h all) v = Val (mkCond name o) /\ forall s, op_text P o s <-> sigma_means P h all v s.
Proof.
  intros H L S. rewrite key_parts by exact H.
  assert (SC : forall o h x, (op_text P o = tests h (scalar_text P x)) -> literal_scalar x ->
     forall s, op_text P o s <-> scalar_means P h x s).
  { intros o h0 x E Lx s. rewrite scalar_tests by exact Lx. rewrite E. tauto. }
  destruct h; simpl in S.
  - subst all. destruct v as [x|z|x|vs|]; simpl in L; try contradiction.
    + rewrite content_literal by exact L. eexists; split; [reflexivity|]. apply SC; [reflexivity|exact L].
    + eexists; split; [reflexivity|]. apply SC; [reflexivity|exact I].
    + eexists; split; [reflexivity|]. apply SC; [reflexivity|exact I].
    + set (g := fun x => OEquals (match x with SText t => Text t | SInt z => I64 z | SFloat f => F64 f | _ => Null end)).
      exists (OAny (map g vs)). split.
      * unfold translate_content_to_operator. rewrite (map_outcome_val _ g); [reflexivity|].
        intros x I. rewrite Forall_forall in L. specialize (L x I). destruct x; simpl in L; try contradiction; reflexivity.
      * intros s. rewrite op_any, exists_map. apply exists_ext_in. eapply forall_imp; [|exact L]. intros x Lx.
        apply (SC (g x) Whole x); [|exact Lx]. destruct x; simpl in Lx; try contradiction; reflexivity.
  - destruct v as [x|z|x|vs|]; simpl in L; try contradiction.
    + destruct all; [destruct (S eq_refl)|]. eexists; split; [reflexivity|]. apply SC; [reflexivity|exact L].
    + destruct all; [destruct (S eq_refl)|]. eexists; split; [reflexivity|]. apply SC; [reflexivity|exact I].
    + destruct all; [destruct (S eq_refl)|]. eexists; split; [reflexivity|]. apply SC; [reflexivity|exact I].
    + set (g := fun x => OContains (scalar_text P x)).
      assert (M : map_outcome (fun x => let! t := value_to_string P x in Val (OContains t)) vs = Val (map g vs)).
      { apply map_outcome_val. intros x I. rewrite Forall_forall in L. rewrite display_scalar by (apply L; exact I). reflexivity. }
      assert (E : forall s, Forall (fun x => op_text P (g x) s <-> scalar_means P Substring x s) vs).
      { intros s. eapply forall_imp; [|exact L]. intros x Lx. apply (SC (g x) Substring x); [reflexivity|exact Lx]. }
      destruct all.
      * exists (OAll (map g vs)). split; [unfold translate_operator; cbn [String.eqb Ascii.eqb Bool.eqb]; rewrite M; reflexivity|].
        intros s. rewrite op_all, Forall_map. apply forall_ext_in, E.
      * exists (OAny (map g vs)). split; [unfold translate_operator; cbn [String.eqb Ascii.eqb Bool.eqb]; rewrite M; reflexivity|].
        intros s. rewrite op_any, exists_map. apply exists_ext_in, E.
  - destruct S as [-> S]. destruct v as [x|z|x|vs|]; simpl in L, S; try contradiction; try (exfalso; apply S; exact I);
    (eexists; split; [reflexivity|]; apply SC; [reflexivity|first [exact L|exact I]]).
  - destruct S as [-> S]. destruct v as [x|z|x|vs|]; simpl in L, S; try contradiction; try (exfalso; apply S; exact I);
    (eexists; split; [reflexivity|]; apply SC; [reflexivity|first [exact L|exact I]]).
Qed.
