(** C189, C190: Sigma rules from their text to their evaluation. *)
From Coq Require Import String Ascii NArith ZArith List Bool Arith Lia.
From Verif Require Import Base.Ord Base.Arith Base.BTree Base.Str Base.Outcome Model.Field Model.Log Model.Holder Model.Rule Model.Sigma
  Spec.RuleSpec Spec.SigmaSpec Spec.SigmaEndSpec Spec.Utf8Spec Proofs.FieldP Proofs.RuleP Proofs.SigmaP Proofs.SigmaLexP Proofs.Utf8P Props.PropsRules.
Import ListNotations.
Local Open Scope string_scope.
Local Open Scope list_scope.

(** what conditions are translated to: tests of a text, alternatives of such, and conjunctions of some *)
Definition simple (o : rule_op) : Prop := match o with OEquals _ | OStartsWith _ | OEndsWith _ | OContains _ => True | _ => False end.
Definition textual (o : rule_op) : Prop :=
  match o with OAny l => Forall simple l | OAll l => l <> [] /\ Forall simple l | o => simple o end.

Lemma simple_holds P f o : simple o -> (holds (text_test P) f o <-> exists v, f = Some v /\ op_text P o (display P v)).
Proof.
  intros S. assert (E : holds (text_test P) f o = match f with Some v => text_test P o v | None => False end) by (destruct o; try contradiction; reflexivity).
  rewrite E. unfold text_test. destruct f as [v|]; split.
  - intros H. exists v. auto.
  - intros (w & [= <-] & H). exact H.
  - intros [].
  - intros (w & [=] & _).
Qed.
Lemma textual_holds P f o : textual o -> (holds (text_test P) f o <-> exists v, f = Some v /\ op_text P o (display P v)).
Proof.
  assert (A : forall l, Forall simple l -> (holds (text_test P) f (OAny l) <-> exists v, f = Some v /\ op_text P (OAny l) (display P v))).
  { intros l F. induction F as [|q l S F IH].
    - cbn. split; [intros []|intros (v & _ & [])].
    - change (holds (text_test P) f (OAny (q :: l))) with (holds (text_test P) f q \/ holds (text_test P) f (OAny l)).
      rewrite IH, (simple_holds P f q S). split.
      + intros [(v & E & H)|(v & E & H)]; exists v; (split; [exact E|]); [left|right]; exact H.
      + intros (v & E & [H|H]); [left|right]; exists v; auto. }
  assert (B : forall l, l <> [] -> Forall simple l -> (holds (text_test P) f (OAll l) <-> exists v, f = Some v /\ op_text P (OAll l) (display P v))).
  { intros l N F. induction F as [|q l S F IH]; [congruence|].
    change (holds (text_test P) f (OAll (q :: l))) with (holds (text_test P) f q /\ holds (text_test P) f (OAll l)).
    rewrite (simple_holds P f q S). destruct l as [|p l].
    - split.
      + intros ((v & E & H) & _). exists v. split; [exact E|]. split; [exact H|exact I].
      + intros (v & E & H & _). split; [exists v; auto|exact I].
    - rewrite IH by discriminate. split.
      + intros ((v & E & H) & (w & E' & H')). exists v. split; [exact E|]. assert (w = v) by congruence. subst w. split; [exact H|exact H'].
      + intros (v & E & H & H'). split; exists v; auto. }
  intros T. destruct o; try contradiction T; try (apply simple_holds; exact T); [apply B; apply T|apply A; exact T].
Qed.

Lemma map_outcome_simple {A} (f : A -> outcome rule_op) l ops : map_outcome f l = Val ops -> (forall x o, In x l -> f x = Val o -> simple o) -> Forall simple ops.
Proof.
  revert ops. induction l as [|x l IH]; intros ops H S; cbn [map_outcome] in H.
  - injection H as <-. constructor.
  - apply obind_val in H as (y & E & H). apply obind_val in H as (t & E' & H). injection H as <-. constructor.
    + apply (S x y); [left; reflexivity|exact E].
    + apply IH; [exact E'|]. intros z o I. apply S. right. exact I.
Qed.
Lemma map_outcome_nil {A B} (f : A -> outcome B) l : map_outcome f l = Val [] -> l = [].
Proof. destruct l; [reflexivity|]. cbn. intros H. apply obind_val in H as (y & E & H). apply obind_val in H as (t & E' & H). discriminate. Qed.

Lemma translated_textual P name h all v c : str_has "|" name = false -> literal_value v -> supported h all v -> v <> SArray [] ->
  parse_rule_condition P (key name h all) v = Val c -> textual (rc_op c).
Proof.
  intros N L S NE H. rewrite (key_parts P name h all v N) in H.
  destruct h.
  - cbn [supported] in S. subst all. apply obind_val in H as (o & E & H). injection H as <-. cbn [rc_op].
    destruct v as [s|z|x|l|]; cbn [literal_value literal_scalar] in L; [|injection E as <-; exact I|injection E as <-; exact I| |contradiction].
    + rewrite (content_literal P s L) in E. injection E as <-. exact I.
    + cbn [translate_content_to_operator] in E. apply obind_val in E as (ops & E & F). injection F as <-. cbn [textual].
      apply (map_outcome_simple _ _ _ E). intros x o _ G. apply obind_val in G as (f & _ & G). injection G as <-. exact I.
  - apply obind_val in H as (o & E & H). injection H as <-. cbn [rc_op].
    unfold translate_operator in E. cbn [String.eqb Ascii.eqb Bool.eqb] in E.
    destruct v as [s|z|x|l|]; try (injection E as <-; exact I).
    apply obind_val in E as (ops & E & F).
    assert (O : Forall simple ops).
    { apply (map_outcome_simple _ _ _ E). intros x o' _ G. apply obind_val in G as (f & _ & G). injection G as <-. exact I. }
    destruct all; cbn [String.eqb Ascii.eqb Bool.eqb] in F; injection F as <-; cbn [textual]; [|exact O].
    split; [|exact O]. intros ->. apply map_outcome_nil in E. subst l. apply NE. reflexivity.
  - apply obind_val in H as (o & E & H). injection H as <-. cbn [rc_op].
    unfold translate_operator in E. cbn [String.eqb Ascii.eqb Bool.eqb] in E. apply obind_val in E as (t & _ & E). injection E as <-. exact I.
  - apply obind_val in H as (o & E & H). injection H as <-. cbn [rc_op].
    unfold translate_operator in E. cbn [String.eqb Ascii.eqb Bool.eqb] in E. apply obind_val in E as (t & _ & E). injection E as <-. exact I.
Qed.

Lemma key_inj n h a n' h' a' : key n h a = key n' h' a' -> str_has "|" n = false -> str_has "|" n' = false -> n = n' /\ h = h' /\ a = a'.
Proof.
  intros E H H'. assert (X : split_on "|" (key n h a) = split_on "|" (key n' h' a')) by congruence. unfold key in X.
  destruct h, a, h', a'; cbn [append] in X; rewrite ?str_app_nil_r in X;
    repeat first [rewrite (split_on_app_sep "|" n) in X by exact H | rewrite (split_on_app_sep "|" n') in X by exact H'
      | rewrite (split_on_no_sep "|" n) in X by exact H | rewrite (split_on_no_sep "|" n') in X by exact H'];
    vm_compute in X; try discriminate X; injection X as ->; auto.
Qed.

Lemma entry_condition P l e : plain_entry e -> exists c, parse_rule_condition P (fst e) (snd e) = Val c /\ (cond_holds (text_test P) l c <-> entry_holds P l e).
Proof.
  destruct e as [k v]. intros (name & h & all & K & N & W). cbn [fst snd] in *. subst k.
  assert (U : (v = SNone /\ h = Whole /\ all = false) \/ (v <> SNone /\ literal_value v /\ supported h all v /\ v <> SArray [])).
  { destruct W as [W|(L & S & NE)]; [left; exact W|right]. splits; try assumption. intros ->. exact L. }
  destruct U as [(-> & -> & ->)|(V & L & S & NE)].
  - exists (mkCond name (OIsNull true)). split; [rewrite (key_parts P name Whole false SNone N); reflexivity|].
    unfold cond_holds, entry_holds. cbn [rc_field rc_op holds fst snd]. split.
    + intros H. exists name, Whole, false. splits; [reflexivity|exact N|]. left. split; [reflexivity|]. apply H. reflexivity.
    + intros (n' & h' & a' & K & N' & H). apply key_inj in K as (-> & _ & _); [|assumption|assumption]. destruct H as [(_ & H)|(H & _)]; [tauto|congruence].
  - destruct (C47_modifiers P name h all v N L S) as (o & E & M). exists (mkCond name o). split; [exact E|].
    pose proof (translated_textual P name h all v _ N L S NE E) as T. cbn [rc_op] in T.
    unfold cond_holds, entry_holds. cbn [rc_field rc_op fst snd]. rewrite (textual_holds P _ o T).
    split.
    + intros (f & F & G). exists name, h, all. splits; [reflexivity|exact N|]. right. split; [exact V|]. exists f. split; [exact F|]. apply M. exact G.
    + intros (n' & h' & a' & K & N' & H). apply key_inj in K as (<- & <- & <-); [|assumption|assumption].
      destruct H as [(H & _)|(_ & f & F & G)]; [congruence|]. exists f. split; [exact F|]. apply M. exact G.
Qed.

Lemma all_translate P m : Forall plain_entry m -> exists s, condition_to_subrule P (SMap m) = Val s.
Proof.
  intros F. cbn [condition_to_subrule]. unfold parse_map.
  assert (E : exists l, map_outcome (fun kv => parse_rule_condition P (fst kv) (snd kv)) m = Val l).
  { induction F as [|e m H F IH]; [exists []; reflexivity|]. destruct IH as (l & E). destruct (entry_condition P (log_new "" 0 "") e H) as (c & C & _).
    exists (c :: l). cbn [map_outcome]. rewrite C. cbn [obind]. rewrite E. reflexivity. }
  destruct E as (l & ->). eexists. reflexivity.
Qed.

Lemma subrules_wf P sg r : from_sigma P sg = Val r -> bt_wf (ru_subrules r).
Proof.
  intros R. unfold from_sigma in R. apply obind_val in R as (subs & E & R). apply obind_val in R as (ac & _ & R).
  apply obind_val in R as (ta & _ & R). apply obind_val in R as (te & _ & R). injection R as <-. cbn [ru_subrules].
  unfold parse_subrules in E. assert (B : bt_wf (@bt_empty string subrule)) by apply wf_empty. revert B E. generalize (@bt_empty string subrule).
  induction (search_identifiers (sg_detection sg)) as [|[k c] ids IH]; intros b B E; cbn [parse_subrules_loop] in E.
  - injection E as <-. exact B.
  - apply obind_val in E as (s & _ & E). apply (IH (bt_insert k s b)); [apply wf_insert; exact B|exact E].
Qed.

(** A Sigma rule whose search identifiers are maps of plain entries is converted, and the conditions of the rule hold of a
    log exactly if every entry of every identifier does. *)
Theorem C189_meaning : forall P sg, bt_wf (search_identifiers (sg_detection sg)) ->
  (forall id c, In (id, c) (search_identifiers (sg_detection sg)) -> exists m, c = SMap m /\ Forall plain_entry m) ->
  (forall tags t, sg_tags sg = Some tags -> In t tags -> is_text t) ->
  exists r, from_sigma P sg = Val r /\ forall l, rule_holds (text_test P) l r <-> sigma_asks P sg l.
Proof.
  intros P sg W M T.
  destruct (C75_texts P sg) as (r & R); [|exact T|].
  { intros name c I. destruct (M name c I) as (m & -> & F). apply all_translate, F. }
  exists r. split; [exact R|]. intros l. pose proof (C75_subrules P sg r W R) as Sub.
  pose proof (subrules_wf P sg r R) as Wr.
  unfold rule_holds, sigma_asks. split.
  - intros H id m e I J. assert (G : bt_get id (search_identifiers (sg_detection sg)) = Some (SMap m)) by (apply wf_In_get; assumption).
    destruct (M id (SMap m) I) as (m' & [= <-] & F). destruct (all_translate P m F) as (s & E).
    assert (Is : In (id, s) (ru_subrules r)) by (apply bt_get_In, Sub; exists (SMap m); auto).
    specialize (H id s Is). destruct (C74_map P m s E) as (_ & F2). rewrite Forall_forall in F. destruct (entry_condition P l e (F e J)) as (c & C & X).
    apply X, H. clear - F2 J C. induction F2 as [|e' c' m' cs Hc F2 IH]; [contradiction|]. destruct J as [<-|J]; [left; congruence|right; auto].
  - intros H id s Is c Ic. apply (wf_In_get _ _ _ Wr) in Is. apply Sub in Is as (cd & G & E). apply bt_get_In in G.
    destruct (M id cd G) as (m & -> & F). destruct (C74_map P m s E) as (_ & F2).
    assert (X : exists e, In e m /\ parse_rule_condition P (fst e) (snd e) = Val c).
    { clear - F2 Ic. induction F2 as [|e' c' m' cs Hc F2 IH]; [contradiction|]. destruct Ic as [<-|Ic]; [exists e'; split; [left; reflexivity|exact Hc]|].
      destruct (IH Ic) as (e & J & K). exists e. split; [right; exact J|exact K]. }
    destruct X as (e & J & K). rewrite Forall_forall in F. destruct (entry_condition P l e (F e J)) as (c' & C & X). assert (c' = c) by congruence. subst c'.
    apply X. exact (H id m e G J).
Qed.

(** * Evaluation *)

Lemma not_presence P k v c : parse_rule_condition P k v = Val c -> v <> SNone \/ str_has "|" k = true -> ~ presence (rc_op c).
Proof.
  intros H Q. unfold parse_rule_condition in H. destruct (nth_error (split_on "|" k) 1) as [op|] eqn:E.
  - apply obind_val in H as (o & H & [= <-]). cbn [rc_op]. unfold translate_operator in H.
    repeat match type of H with context [if ?b then _ else _] => destruct b end; try (apply obind_val in H as (x & _ & H); injection H as <-; intros []).
    + destruct v; try (injection H as <-; intros []). apply obind_val in H as (x & _ & H). destruct (nth_error (split_on "|" k) 2) as [e|].
      * destruct (String.eqb e "all"); injection H as <-; intros [].
      * injection H as <-. intros [].
    + injection H as <-. intros [].
  - assert (K : str_has "|" k = false).
    { pose proof (join_split_on "|" k) as J. pose proof (split_on_parts "|" k) as Ps. pose proof (split_on_nonempty "|" k) as Ne.
      destruct (split_on "|" k) as [|x [|y t]]; [congruence| |discriminate E]. cbn [join] in J. subst x. apply Forall_inv in Ps. exact Ps. }
    destruct Q as [Q|Q]; [|congruence]. apply obind_val in H as (o & H & [= <-]). cbn [rc_op]. unfold translate_content_to_operator in H.
    destruct v as [s|z|x|l|]; try (injection H as <-; intros []); [| |congruence].
    + repeat match type of H with context [if ?b then _ else _] => destruct b end; try (apply obind_val in H as (x & _ & H)); injection H as <-; intros [].
    + apply obind_val in H as (x & _ & H). injection H as <-. intros [].
Qed.

(** the entries of a condition *)
Definition entry_of (c : sigma_condition) (e : string * sigma_value) : Prop :=
  match c with SMap m => In e m | SList l => exists m, In m l /\ In e m | SNoCondition => False end.
Lemma entry_translated P c s e : condition_to_subrule P c = Val s -> entry_of c e -> exists d, In d (sr_conditions s) /\ parse_rule_condition P (fst e) (snd e) = Val d.
Proof.
  assert (M : forall m ds, parse_map P m = Val ds -> In e m -> exists d, In d ds /\ parse_rule_condition P (fst e) (snd e) = Val d).
  { unfold parse_map. induction m as [|e' m IH]; intros ds H [].
    - subst e'. cbn [map_outcome] in H. apply obind_val in H as (d & D & H). apply obind_val in H as (t & _ & H). injection H as <-.
      exists d. split; [left; reflexivity|exact D].
    - cbn [map_outcome] in H. apply obind_val in H as (d & D & H). apply obind_val in H as (t & T & H). injection H as <-.
      destruct (IH t T H0) as (d' & I & X). exists d'. split; [right; exact I|exact X]. }
  destruct c as [m|l|]; cbn [condition_to_subrule entry_of]; intros H.
  - apply obind_val in H as (ds & D & H). injection H as <-. cbn [sr_conditions]. apply M, D.
  - apply obind_val in H as (dss & D & H). injection H as <-. cbn [sr_conditions]. intros (m & I & J). revert dss D.
    induction l as [|m' l IH]; intros dss D; [contradiction|]. cbn [map_outcome] in D. apply obind_val in D as (ds & D1 & D). apply obind_val in D as (t & T & D). injection D as <-.
    cbn [concat]. destruct I as [->|I].
    + destruct (M m ds D1 J) as (d & X & Y). exists d. split; [apply in_or_app; left; exact X|exact Y].
    + destruct (IH I t T) as (d & X & Y). exists d. split; [apply in_or_app; right; exact X|exact Y].
  - intros [].
Qed.

(** A Sigma rule with a test on a value, anywhere in its identifiers, never matches: whatever the log, evaluating the
    converted rule answers no, or aborts. *)
Theorem C190_never_refuted : forall P sg r id c e l ds, bt_wf (search_identifiers (sg_detection sg)) -> from_sigma P sg = Val r ->
  In (id, c) (search_identifiers (sg_detection sg)) -> entry_of c e -> snd e <> SNone \/ str_has "|" (fst e) = true ->
  rule_matches r l ds <> Val true.
Proof.
  intros P sg r id c e l ds W R I J V H.
  assert (S : exists s, condition_to_subrule P c = Val s).
  { unfold from_sigma in R. apply obind_val in R as (subs & E & _). revert E I. clear. unfold parse_subrules. generalize (@bt_empty string subrule).
    induction (search_identifiers (sg_detection sg)) as [|[k c'] ids IH]; intros b E I; [contradiction|]. cbn [parse_subrules_loop] in E.
    apply obind_val in E as (s & X & E). destruct I as [[= -> ->]|I]; [exists s; exact X|exact (IH _ E I)]. }
  destruct S as (s & S). destruct (entry_translated P c s e S J) as (d & D & X). pose proof (not_presence P _ _ d X V) as N.
  assert (G : bt_get id (ru_subrules r) = Some s) by (apply (C75_subrules P sg r W R); exists c; split; [apply wf_In_get; assumption|exact S]).
  apply bt_get_In in G. rewrite rule_matches_flat in H.
  assert (A : In d (all_conditions r)) by (apply in_flat_map; exists (id, s); split; [exact G|exact D]).
  revert H A. generalize (all_conditions r). clear - N. intros cs. induction cs as [|x cs IH]; intros H A; [contradiction|].
  cbn [conds_match] in H. apply obind_val in H as (b & B & H). destruct b; [|discriminate]. cbn [negb] in H. destruct A as [->|A]; [|exact (IH H A)].
  unfold cond_matches in B. destruct (log_field (rc_field d) l); destruct (rc_op d); try discriminate B; apply N; exact I.
Qed.
(** A rule that asks for nothing but absent fields is converted, always answers, and rightly. *)
Theorem C190_nulls : forall P sg l ds, bt_wf (search_identifiers (sg_detection sg)) ->
  (forall id c, In (id, c) (search_identifiers (sg_detection sg)) -> exists m, c = SMap m /\ forall k v, In (k, v) m -> v = SNone /\ str_has "|" k = false) ->
  (forall tags t, sg_tags sg = Some tags -> In t tags -> is_text t) ->
  exists r b, from_sigma P sg = Val r /\ rule_matches r l ds = Val b /\
    (b = true <-> forall id m k v, In (id, SMap m) (search_identifiers (sg_detection sg)) -> In (k, v) m -> log_field k l = None).
Proof.
  intros P sg l ds W M T. assert (K : forall k, key k Whole false = k) by (intros k; unfold key; cbn [append]; rewrite str_app_nil_r; reflexivity).
  destruct (C189_meaning P sg W) as (r & R & Mean); [|exact T|].
  { intros id c I. destruct (M id c I) as (m & -> & F). exists m. split; [reflexivity|]. apply Forall_forall. intros (k, v) J.
    destruct (F k v J) as (-> & N). exists k, Whole, false. cbn [fst snd]. rewrite K. auto 6. }
  exists r. destruct (C46_presence_rules (text_test P) r l ds) as (b & B & C).
  { intros c I. apply in_flat_map in I as ((id, s) & I & J). cbn [snd] in J.
    assert (G : exists cd, In (id, cd) (search_identifiers (sg_detection sg)) /\ condition_to_subrule P cd = Val s).
    { apply (wf_In_get _ _ _ (subrules_wf P sg r R)) in I. apply (C75_subrules P sg r W R) in I as (cd & G & S). apply bt_get_In in G. exists cd. auto. }
    destruct G as (cd & G & S). destruct (M id cd G) as (m & -> & F). destruct (C74_map P m s S) as (_ & F2).
    clear - F2 F J. induction F2 as [|(k, v) c' m' cs Hc F2 IH]; [contradiction|]. destruct J as [<-|J].
    - destruct (F k v (or_introl eq_refl)) as (-> & N). cbn [fst snd] in Hc. rewrite (proj1 (C47_null P k (log_new "" 0 "") [] N)) in Hc. injection Hc as <-. exact I.
    - apply (IH J). intros k' v' I'. apply F. right. exact I'. }
  exists b. splits; [exact R|exact B|]. rewrite C, Mean. unfold sigma_asks. split.
  - intros H id m k v I J. destruct (M id (SMap m) I) as (m' & [= <-] & F). destruct (F k v J) as (-> & N).
    destruct (H id m (k, SNone) I J) as (n' & h' & a' & Kk & N' & Hn). cbn [fst snd] in *. rewrite <- (K k) in Kk. apply key_inj in Kk as (-> & _ & _); [|assumption|assumption].
    destruct Hn as [(_ & Hn)|(Hn & _)]; [exact Hn|congruence].
  - intros H id m (k, v) I J. destruct (M id (SMap m) I) as (m' & [= <-] & F). destruct (F k v J) as (-> & N).
    exists k, Whole, false. cbn [fst snd]. rewrite K. splits; [reflexivity|exact N|]. left. split; [reflexivity|]. exact (H id m k SNone I J).
Qed.

(** * Cases *)

Definition whoami : sigma_rule :=
  mkSigma "Whoami" None None None None None None None (mkSource None None None None)
    (mkDetection [("filter", SMap [("process.parent", SNone)]);
                  ("selection", SMap [("process.args|contains|all", SArray [SText "/c"; SText "who"]); ("process.name|endswith", SText "whoami.exe");
                                      ("user.id", SInt 0)])] "selection and filter") None None None (Some ["attack.t1033"]).
Definition a_log : log := set_text "process.args" "cmd /c whoami" (set_text "process.name" "C:\whoami.exe" (set_text "user.id" "0" (log_new "m" 0 "o"))).

(** the rule meets the hypotheses of C189; the log is one it asks for, and with the field "process.parent" no longer *)
Lemma whoami_plain : forall id c, In (id, c) (search_identifiers (sg_detection whoami)) -> exists m, c = SMap m /\ Forall plain_entry m.
Proof.
  intros id c [[= <- <-]|[[= <- <-]|[]]]; eexists; (split; [reflexivity|]); repeat constructor.
  - exists "process.parent", Whole, false. splits; [reflexivity|reflexivity|]. left. auto.
  - exists "process.args", Substring, true. splits; [reflexivity|reflexivity|]. right. splits; [repeat constructor|intros _; exact I|discriminate].
  - exists "process.name", Suffixed, false. splits; [reflexivity|reflexivity|]. right. splits; [reflexivity|split; [reflexivity|intros []]|discriminate].
  - exists "user.id", Whole, false. splits; [reflexivity|reflexivity|]. right. splits; [exact I|reflexivity|discriminate].
Qed.
Example C189_case : sigma_asks P1 whoami a_log /\ ~ sigma_asks P1 whoami (set_text "process.parent" "x" a_log) /\
  bt_wf (search_identifiers (sg_detection whoami)) /\
  exists r, from_sigma P1 whoami = Val r /\ rule_holds (text_test P1) a_log r /\ rule_matches r a_log [] <> Val true.
Proof.
  assert (W : bt_wf (search_identifiers (sg_detection whoami))) by exact (wf_of_list (search_identifiers (sg_detection whoami))).
  assert (A : sigma_asks P1 whoami a_log).
  { intros id m e [[= <- <-]|[[= <- <-]|[]]] J.
    - destruct J as [<-|[]]. exists "process.parent", Whole, false. splits; [reflexivity|reflexivity|]. left. split; reflexivity.
    - destruct J as [<-|[<-|[<-|[]]]].
      + exists "process.args", Substring, true. splits; [reflexivity|reflexivity|]. right. split; [discriminate|]. exists (Text "cmd /c whoami").
        split; [vm_compute; reflexivity|]. cbn [snd sigma_means]. constructor; [|constructor; [|constructor]]; apply scalar_tests; try reflexivity.
        * exists "cmd ", " whoami". reflexivity.
        * exists "cmd /c ", "ami". reflexivity.
      + exists "process.name", Suffixed, false. splits; [reflexivity|reflexivity|]. right. split; [discriminate|]. exists (Text "C:\whoami.exe").
        split; [vm_compute; reflexivity|]. cbn [snd sigma_means]. apply scalar_tests; [reflexivity|]. exists "C:\". reflexivity.
      + exists "user.id", Whole, false. splits; [reflexivity|reflexivity|]. right. split; [discriminate|]. exists (Text "0").
        split; [vm_compute; reflexivity|]. cbn [snd sigma_means]. apply scalar_tests; [exact I|]. reflexivity. }
  splits; [exact A| |exact W|].
  - intros H. destruct (H "filter" [("process.parent", SNone)] ("process.parent", SNone)) as (n & h & a & K & N & X); [left; reflexivity|left; reflexivity|].
    change (fst ("process.parent", SNone)) with (key "process.parent" Whole false) in K. apply key_inj in K as (<- & _ & _); [|reflexivity|exact N].
    destruct X as [(_ & X)|(X & _)]; [vm_compute in X; discriminate X|apply X; reflexivity].
  - destruct (C189_meaning P1 whoami W whoami_plain) as (r & R & M).
    { intros tags t [= <-] [<-|[]]. exists (map (fun c => N_of_ascii c) (list_ascii_of_string "attack.t1033")). split; [repeat constructor; vm_compute; auto|vm_compute; reflexivity]. }
    exists r. splits; [exact R|apply M, A|]. eapply (C190_never_refuted P1 whoami r "selection") with (e := ("user.id", SInt 0)); [exact W|exact R|right; left; reflexivity| |].
    + right. right. left. reflexivity.
    + left. intros X. discriminate X.
Qed.

Print Assumptions C189_meaning.
Print Assumptions C190_never_refuted.
Print Assumptions C190_nulls.
