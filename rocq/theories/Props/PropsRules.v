(** C46-C49, C56, C73-C79: correlation rules, Sigma rules, MITRE identifiers. *)
From Coq Require Import String Ascii NArith ZArith List Bool Arith Lia Floats.SpecFloat.
From Verif Require Import Base.Ord Base.Arith Base.BTree Base.Str Base.Outcome Model.Ip Model.Field Model.Log Model.DatasetTypes Model.Holder
  Model.Mitre Model.Rule Model.Sigma Spec.RuleSpec Spec.SigmaSpec Spec.Utf8Spec Proofs.FieldP Proofs.MitreP Proofs.RuleP Proofs.SigmaP Proofs.SigmaLexP Proofs.Utf8P.
Import ListNotations.
Local Open Scope string_scope.
Local Open Scope list_scope.

(** * C46 Rule matching *)

(** Whenever evaluation yields a value, it is the right one (for rules whose conditions do not nest operators). *)
Theorem C46_value : forall leaf r l ds b,
  (forall c, In c (all_conditions r) -> ~ compound (rc_op c)) ->
  rule_matches r l ds = Val b -> (b = true <-> rule_holds leaf l r).
Proof.
  intros leaf r l ds b N H. rewrite rule_holds_all. apply (conds_value leaf _ l ds); [|rewrite <- rule_matches_flat; exact H].
  apply Forall_forall. exact N.
Qed.
(** Rules that only ask whether fields exist are always evaluated, and rightly. *)
Theorem C46_presence_rules : forall leaf r l ds,
  (forall c, In c (all_conditions r) -> presence (rc_op c)) ->
  exists b, rule_matches r l ds = Val b /\ (b = true <-> rule_holds leaf l r).
Proof.
  intros leaf r l ds N. destruct (conds_defined (all_conditions r) l ds) as [b E]; [apply Forall_forall; exact N|].
  exists b. rewrite rule_matches_flat. split; [exact E|]. rewrite rule_holds_all. apply (conds_value leaf _ l ds); [|exact E].
  apply Forall_forall. intros c I. specialize (N c I). destruct (rc_op c); simpl in *; tauto.
Qed.
(** Exactly when evaluation aborts: some condition is reached whose field the log has and whose operator is not about presence. *)
Theorem C46_abort : forall r l ds,
  rule_matches r l ds = Panic <->
  exists pre c post, all_conditions r = pre ++ c :: post /\ (forall d, In d pre -> cond_matches d l ds = Val true) /\
    log_field (rc_field c) l <> None /\ ~ presence (rc_op c).
Proof. intros. rewrite rule_matches_flat. apply conds_panic. Qed.
(** In particular every rule whose first condition tests the value of a field aborts on every log with that field. *)
Theorem C118_value_tests_abort_refuted : forall r l ds c rest, all_conditions r = c :: rest ->
  log_field (rc_field c) l <> None -> ~ presence (rc_op c) -> rule_matches r l ds = Panic.
Proof. intros r l ds c rest E F N. apply C46_abort. exists [], c, rest. split; [exact E|]. split; [intros d []|]. auto. Qed.
(** Combined operators are wrong on absent fields: "not present" does not match a log without the field. *)
Definition one_rule (c : rule_cond) : siem_rule :=
  mkRule "r" "r" "" (mkMitre [] []) [] [("s", mkSub [c] None)] [] (mkAlert [] LOW [] None).
Theorem C118_negation_refuted : forall leaf l ds name, log_field name l = None ->
  let r := one_rule (mkCond name (ONot (OExists true))) in
  rule_holds leaf l r /\ rule_matches r l ds = Val false.
Proof.
  intros leaf l ds name H. split.
  - apply rule_holds_all. constructor; [|constructor]. unfold cond_holds. simpl. rewrite H. intros X. destruct X as [X _].
    apply (X eq_refl). reflexivity.
  - unfold rule_matches, one_rule. simpl. unfold cond_matches. simpl. rewrite H. reflexivity.
Qed.

Definition log1 : log := set_text "user.name" "root" (log_new "m" 0 "o").
Example C46_case :
  rule_matches (one_rule (mkCond "user.name" (OExists true))) log1 [] = Val true /\
  rule_matches (one_rule (mkCond "user.name" (OIsNull true))) log1 [] = Val false /\
  rule_matches (one_rule (mkCond "source.ip" (OIsNull true))) log1 [] = Val true /\
  rule_matches (one_rule (mkCond "source.ip" (OEquals (Text "x")))) log1 [] = Val false /\
  rule_matches (one_rule (mkCond "user.name" (OEquals (Text "root")))) log1 [] = Panic.
Proof. repeat split. Qed.

(** * C73 Trigger groups *)

(** The groups of subrules that should trigger a rule play no part in its evaluation. *)
Theorem C135_groups_ignored_refuted : forall r l ds groups,
  rule_matches (mkRule (ru_id r) (ru_name r) (ru_description r) (ru_mitre r) (ru_needed_datasets r) (ru_subrules r) groups (ru_alert r)) l ds
  = rule_matches r l ds.
Proof. reflexivity. Qed.
(** A rule with a group that holds does not match. *)
Definition two_subrules (groups : list (list string)) : siem_rule :=
  mkRule "r" "r" "" (mkMitre [] []) []
    [("a", mkSub [mkCond "user.name" (OExists true)] None); ("b", mkSub [mkCond "user.name" (OExists false)] None)]
    groups (mkAlert [] LOW [] None).
Theorem C135_triggered_refuted : forall leaf,
  triggered leaf log1 (two_subrules [["a"]]) /\ rule_matches (two_subrules [["a"]]) log1 [] = Val false.
Proof.
  intros leaf. split; [|reflexivity]. exists ["a"]. split; [left; reflexivity|]. intros name [<-|[]].
  eexists. split; [left; reflexivity|]. intros c [<-|[]]. unfold cond_holds. simpl. split; [discriminate|reflexivity].
Qed.
(** What holds: when one group names every subrule, triggering is matching. *)
Theorem C73_all_subrules : forall leaf r l ds b group,
  bt_wf (ru_subrules r) -> ru_conditions r = [group] -> (forall name, In name group <-> In name (map fst (ru_subrules r))) ->
  (forall c, In c (all_conditions r) -> ~ compound (rc_op c)) ->
  rule_matches r l ds = Val b -> (b = true <-> triggered leaf l r).
Proof.
  intros leaf r l ds b group W G N C H. rewrite (C46_value leaf r l ds b C H). unfold rule_holds, triggered. rewrite G. split.
  - intros R. exists group. split; [left; reflexivity|]. intros name I. apply N in I. apply in_map_iff in I as ([k s] & <- & I). exists s.
    split; [exact I|]. exact (R _ _ I).
  - intros (g & [<-|[]] & R) name s I. destruct (R name) as (s' & I' & Hs).
    + apply N. apply in_map_iff. exists (name, s). auto.
    + apply (wf_In_get _ _ _ W) in I, I'. assert (s = s') by congruence. subst. exact Hs.
Qed.
Example C73_case : rule_matches (two_subrules [["a"; "b"]]) log1 [] = Val false.
Proof. reflexivity. Qed.

(** * C47 Sigma conditions *)

(** A condition on a literal value keeps its meaning: texts and numbers with every modifier, lists without modifiers
    (alternatives) and with "contains" and "contains|all". *)
Theorem C47_modifiers : forall P name h all v,
  str_has "|" name = false -> literal_value v -> supported h all v ->
  exists o, parse_rule_condition P (key name h all) v = Val (mkCond name o) /\
    forall s, op_text P o s <-> sigma_means P h all v s.
Proof. intros. apply modifiers_meaning; assumption. Qed.
(** The modifier "equals" asks for the value itself. *)
Theorem C47_equals_modifier : forall P name v, str_has "|" name = false -> literal_scalar v ->
  exists o, parse_rule_condition P (append name "|equals") v = Val (mkCond name o) /\
    forall s, op_text P o s <-> sigma_means P Whole false v s.
Proof.
  intros P name v H L.
  assert (E : parse_rule_condition P (append name "|equals") v = parse_rule_condition P (key name Whole false) v).
  { rewrite key_parts by exact H. unfold parse_rule_condition. rewrite split_key by (exact H || reflexivity). cbn [nth nth_error].
    destruct v; try contradiction; try reflexivity. cbn in L. rewrite content_literal by exact L. reflexivity. }
  rewrite E. apply modifiers_meaning; [exact H| |reflexivity]. destruct v; try contradiction; exact L.
Qed.
(** A value ending in a wildcard, the only one *)
Theorem C47_trailing_wildcard : forall P name p,
  str_has "|" name = false -> literal p -> ends_with "\" p = false ->
  exists o, parse_rule_condition P name (SText (append p "*")) = Val (mkCond name o) /\
    forall s, op_text P o s <-> sigma_means P Whole false (SText (append p "*")) s.
Proof.
  intros P name p H L B. pose proof (key_parts P name Whole false (SText (append p "*")) H) as K. unfold key in K.
  cbn [append] in K. rewrite str_app_nil_r in K. rewrite K, content_trailing by assumption.
  eexists. split; [reflexivity|]. intros s. unfold sigma_means, scalar_means. cbn [scalar_pattern wrap op_text].
  rewrite <- means_prefix. change "*" with (str1 "*"). rewrite (literal_snoc p "*" L B). split.
  - intros G. eexists. split; [reflexivity|exact G].
  - intros (q & E & G). inversion E; subst. exact G.
Qed.
(** A null value asks for the absence of the field. *)
Theorem C47_null : forall P name l ds, str_has "|" name = false ->
  parse_rule_condition P name SNone = Val (mkCond name (OIsNull true)) /\
  (cond_matches (mkCond name (OIsNull true)) l ds = Val true <-> log_field name l = None).
Proof.
  intros P name l ds H. split.
  - unfold parse_rule_condition. rewrite split_on_no_sep by exact H. reflexivity.
  - unfold cond_matches. cbn [rc_field rc_op]. destruct (log_field name l); split; try discriminate; reflexivity.
Qed.

(** A leading wildcard ("ends with") is translated to "starts with". *)
Theorem C119_leading_wildcard_refuted : forall P name x, str_has "|" name = false -> literal x -> x <> "" -> head_ok x ->
  parse_rule_condition P name (SText (String "*" x)) = Val (mkCond name (OStartsWith x)) /\
  exists s, sigma_means P Whole false (SText (String "*" x)) s /\ ~ op_text P (OStartsWith x) s.
Proof.
  intros P name x H L N HO. split.
  - pose proof (key_parts P name Whole false (SText (String "*" x)) H) as K. unfold key in K.
    cbn [append] in K. rewrite str_app_nil_r in K. rewrite K, content_leading by assumption. reflexivity.
  - destruct x as [|c x]; [congruence|].
    exists (String (if Ascii.eqb c "a" then "b" else "a") (String c x)). split.
    + exists (Star :: lits (String c x)). cbn [scalar_pattern]. unfold literal in L. rewrite sigma_pattern_cons.
      cbn [Ascii.eqb Bool.eqb]. rewrite L. split; [reflexivity|]. cbn [wrap]. apply means_suffix.
      exists (str1 (if Ascii.eqb c "a" then "b" else "a")). reflexivity.
    + intros [b E]. cbn [append] in E. assert (X : (if Ascii.eqb c "a" then "b"%char else "a"%char) = c) by congruence.
      destruct (Ascii.eqb_spec c "a") as [->|M]; [discriminate X|]. congruence.
Qed.
(** Wildcards on both sides ("contains"): the last byte of the text is lost; when that cuts a character the conversion aborts. *)
Theorem C119_both_wildcards_refuted : forall P name y c, str_has "|" name = false ->
  literal (append y (str1 c)) -> Ascii.eqb c "\" = false -> head_ok (append y (str1 c)) -> continuation c = false ->
  parse_rule_condition P name (SText (append (String "*" (append y (str1 c))) "*")) = Val (mkCond name (OContains y)) /\
  exists s, op_text P (OContains y) s /\ ~ sigma_means P Whole false (SText (append (String "*" (append y (str1 c))) "*")) s.
Proof.
  intros P name y c H L B HO NC. change (is_cont c = false) in NC. split.
  - pose proof (key_parts P name Whole false (SText (append (String "*" (append y (str1 c))) "*")) H) as K. unfold key in K.
    rewrite str_app_nil_r in K. change (append "" "") with "" in K. rewrite str_app_nil_r in K || idtac.
    rewrite K, content_both, NC by assumption. reflexivity.
  - exists y. split; [exists "", ""; rewrite str_app_nil_r; reflexivity|].
    intros (p & E & G). cbn [scalar_pattern] in E.
    assert (EP : p = Star :: sigma_pattern (append (append y (str1 c)) (str1 "*"))) by (cbn [append] in E; rewrite sigma_pattern_cons in E; cbn [Ascii.eqb Bool.eqb] in E; unfold str1 in *; congruence).
    rewrite EP in G. clear E EP. cbn [wrap] in G. rewrite literal_snoc in G; [|exact L|].
    + apply means_substring in G as (a & b & E). assert (X : String.length y = String.length (append a (append (append y (str1 c)) b))) by congruence.
      rewrite !slen_app in X. simpl in X. lia.
    + destruct (ends_with "\" (append y (str1 c))) eqn:E; [|reflexivity]. apply ends_with_iff in E as [a E]. change "\" with (str1 "\") in E.
      apply snoc_inj in E as [_ ->]. discriminate B.
Qed.
Theorem C119_both_wildcards_abort_refuted : forall P name y c, str_has "|" name = false ->
  literal (append y (str1 c)) -> head_ok (append y (str1 c)) -> continuation c = true ->
  parse_rule_condition P name (SText (append (String "*" (append y (str1 c))) "*")) = Panic.
Proof.
  intros P name y c H L HO NC. change (is_cont c = true) in NC. pose proof (key_parts P name Whole false (SText (append (String "*" (append y (str1 c))) "*")) H) as K.
  unfold key in K. change (append "" "") with "" in K. rewrite str_app_nil_r in K.
  rewrite K, content_both, NC; try assumption; [reflexivity|]. destruct (Ascii.eqb_spec c "\") as [->|]; [discriminate NC|reflexivity].
Qed.
(** The same for texts of characters: the last character is lost if it is an ASCII one, any other aborts. *)
Theorem C119_both_wildcards_characters_refuted : forall P name cs c, str_has "|" name = false -> Forall scalar (cs ++ [c]) ->
  literal (text (cs ++ [c])) -> c <> 92%N ->
  parse_rule_condition P name (SText (append (String "*" (text (cs ++ [c]))) "*"))
  = if (c <? 128)%N then Val (mkCond name (OContains (text cs))) else Panic.
Proof.
  intros P name cs c H F L B. destruct (string_snoc (text (cs ++ [c]))) as [E|(y & b & E)].
  - exfalso. rewrite text_app in E. apply Forall_app in F as [_ F]. inversion F; subst. destruct (char_shape c) as (d & t & X & _); [assumption|].
    rewrite text_cons, X in E. destruct (text cs); discriminate E.
  - pose proof (text_head _ F) as HO. pose proof (proj2 (proj1 (Forall_app _ _ _) F)) as Fc. inversion Fc as [|? ? Sc _]; subst.
    destruct (last_byte cs c y b Sc E) as [K1 K2]. rewrite E in L, HO. rewrite E. destruct (N.ltb_spec c 128) as [A|A].
    + rewrite <- (K2 A). apply C119_both_wildcards_refuted; auto; [|apply K1, A]. destruct (Ascii.eqb_spec b "\") as [->|]; [|reflexivity]. exfalso.
      rewrite text_app, text_cons in E. change (text []) with "" in E. rewrite str_app_nil_r in E. unfold utf8, bytes in E. destruct (N.ltb_spec c 128); [|lia].
      cbn [map string_of_list_ascii] in E. apply snoc_inj in E as [_ E]. apply (f_equal N_of_ascii) in E. rewrite N_ascii_embedding in E by lia. apply B. exact E.
    + apply C119_both_wildcards_abort_refuted; auto. change (is_cont b = true). destruct (is_cont b) eqn:X; [reflexivity|]. pose proof (proj1 K1 eq_refl). lia.
Qed.
Print Assumptions C119_both_wildcards_characters_refuted.
(** Any other modifier is dropped: the condition accepts every value. *)
Theorem C119_other_modifiers_refuted : forall P name m v, str_has "|" name = false -> str_has "|" m = false ->
  m <> "equals" -> m <> "contains" -> m <> "startswith" -> m <> "endswith" ->
  parse_rule_condition P (append name (String "|" m)) v = Val (mkCond name (OAll [])) /\ forall s, op_text P (OAll []) s.
Proof.
  intros P name m v H K N1 N2 N3 N4. split; [|intros s; exact I]. unfold parse_rule_condition. rewrite split_key by assumption.
  cbn [nth nth_error]. unfold translate_operator.
  rewrite (proj2 (String.eqb_neq _ _) N1), (proj2 (String.eqb_neq _ _) N2), (proj2 (String.eqb_neq _ _) N3), (proj2 (String.eqb_neq _ _) N4).
  reflexivity.
Qed.
(** A list under "startswith"/"endswith" becomes one text with brackets. *)
Theorem C119_lists_refuted : forall P,
  parse_rule_condition P "Image|endswith" (SArray [SText "a.exe"; SText "b.exe"]) = Val (mkCond "Image" (OEndsWith "[a.exe,b.exe,]")) /\
  sigma_means P Suffixed false (SArray [SText "a.exe"; SText "b.exe"]) "a.exe" /\ ~ op_text P (OEndsWith "[a.exe,b.exe,]") "a.exe".
Proof.
  intros P. split; [reflexivity|]. split.
  - left. exists (lits "a.exe"). split; [reflexivity|]. apply means_suffix. exists "". reflexivity.
  - intros [a E]. apply (f_equal String.length) in E. rewrite slen_app in E. simpl in E. lia.
Qed.
(** A wildcard inside a text, or in a list, is taken literally. *)
Theorem C119_inner_wildcards_refuted : forall P,
  (parse_rule_condition P "f" (SText "a*b") = Val (mkCond "f" (OEquals (Text "a*b"))) /\
   sigma_means P Whole false (SText "a*b") "axb" /\ ~ op_text P (OEquals (Text "a*b")) "axb") /\
  (parse_rule_condition P "f" (SArray [SText "a*"]) = Val (mkCond "f" (OAny [OEquals (Text "a*")])) /\
   sigma_means P Whole false (SArray [SText "a*"]) "ab" /\ ~ op_text P (OAny [OEquals (Text "a*")]) "ab").
Proof.
  intros P. split.
  - split; [reflexivity|]. split; [|discriminate]. eexists. split; [reflexivity|]. cbn. constructor. apply (gm_star [Lit "b"] "x" "b").
    constructor. constructor.
  - split; [reflexivity|]. split; [|intros [X|[]]; discriminate X]. left. eexists. split; [reflexivity|]. cbn. constructor. apply gmatch_star.
Qed.
(** Two wildcards and nothing else stand for any text; the condition wants texts that start with an asterisk. *)
Theorem C119_double_wildcard_refuted : forall P name, str_has "|" name = false ->
  parse_rule_condition P name (SText "**") = Val (mkCond name (OStartsWith "*")) /\
  (forall s, sigma_means P Whole false (SText "**") s) /\ forall s, op_text P (OStartsWith "*") s <-> exists r, s = String "*" r.
Proof.
  intros P name H. pose proof (key_parts P name Whole false (SText "**") H) as K. unfold key in K. cbn [append] in K. rewrite str_app_nil_r in K.
  splits; [rewrite K; reflexivity| |].
  - intros s. eexists. split; [reflexivity|]. cbn. apply (gm_star [Star] "" s). apply gmatch_star.
  - intros s. cbn [op_text]. destruct s as [|c r]; cbn.
    + split; [intros (t & E); discriminate E|intros (r & E); discriminate E].
    + split; [intros (t & E); injection E as -> ->; eauto|intros (r' & E); injection E as -> ->; exists r'; reflexivity].
Qed.
(** A null in a list, or under a modifier, aborts the conversion. *)
Theorem C119_null_abort_refuted : forall P name h all vs, str_has "|" name = false -> In SNone vs ->
  (h <> Whole -> parse_rule_condition P (key name h all) (SArray vs) = Panic) /\
  parse_rule_condition P name (SArray vs) = Panic /\
  (h = Prefixed \/ h = Suffixed -> parse_rule_condition P (key name h all) SNone = Panic).
Proof.
  intros P name h all vs H I.
  assert (NF : forall v, value_to_string P v <> OutOfFuel) by (intros v; unfold value_to_string; destruct (value_display P v); discriminate).
  assert (MP : map_outcome (value_to_string P) vs = Panic) by (apply (map_outcome_panic _ _ SNone); auto).
  assert (D : value_display P (SArray vs) = None).
  { cbn [value_display]. generalize "[" as acc. clear MP. induction vs as [|v r IH]; intros acc; [contradiction|].
    destruct I as [->|I]; [reflexivity|]. destruct (value_display P v); [|reflexivity]. apply IH. exact I. }
  splits.
  - intros N. rewrite key_parts by exact H. unfold translate_operator. destruct h; [congruence| | |]; cbn [String.eqb Ascii.eqb Bool.eqb].
    + rewrite (map_outcome_panic _ vs SNone); [reflexivity| |exact I|reflexivity].
      intros y. specialize (NF y). destruct (value_to_string P y); simpl; congruence.
    + unfold value_to_string. rewrite D. reflexivity.
    + unfold value_to_string. rewrite D. reflexivity.
  - pose proof (key_parts P name Whole false (SArray vs) H) as K. unfold key in K. change (append "" "") with "" in K.
    rewrite str_app_nil_r in K. rewrite K. unfold translate_content_to_operator.
    rewrite (map_outcome_panic _ vs SNone); [reflexivity| |exact I|reflexivity].
    intros y. unfold value_to_field. destruct y; simpl; try congruence.
    assert (map_outcome (value_to_string P) l <> OutOfFuel).
    { induction l as [|x r IHl]; simpl; [discriminate|]. specialize (NF x). destruct (value_to_string P x); simpl; try congruence.
      destruct (map_outcome (value_to_string P) r); simpl; congruence. }
    destruct (map_outcome (value_to_string P) l); simpl; congruence.
  - intros [-> | ->]; rewrite key_parts by exact H; reflexivity.
Qed.

(** Under "contains", null stands for no value; the condition accepts every text. *)
Theorem C119_null_contains_refuted : forall P name all, str_has "|" name = false ->
  parse_rule_condition P (key name Substring all) SNone = Val (mkCond name (OContains "")) /\
  (forall s, op_text P (OContains "") s) /\ forall s, ~ sigma_means P Substring all SNone s.
Proof.
  intros P name all H. splits.
  - rewrite key_parts by exact H. reflexivity.
  - intros s. exists "", s. reflexivity.
  - intros s (p & E & _). discriminate E.
Qed.
Print Assumptions C119_null_contains_refuted.

Example C119_characters_case : literal (text [99; 237]%N) /\ Forall scalar [99; 237]%N /\ text [8364; 120]%N = String "226" (String "130" (String "172" "x")).
Proof. splits; [reflexivity| |reflexivity]. repeat constructor; unfold scalar; left; reflexivity. Qed.
Definition P1 : printers := Build_printers (fun _ => "1.5") (fun _ => "date").
Example C47_case :
  literal "C:\Windows\cmd.exe" /\ supported Substring true (SArray [SText "-enc"; SInt 5]) /\
  key "CommandLine" Substring true = "CommandLine|contains|all" /\
  parse_rule_condition P1 "CommandLine|contains|all" (SArray [SText "-enc"; SInt 5]) = Val (mkCond "CommandLine" (OAll [OContains "-enc"; OContains "5"])) /\
  parse_rule_condition P1 "Image|endswith" (SText "\cmd.exe") = Val (mkCond "Image" (OEndsWith "\cmd.exe")) /\
  parse_rule_condition P1 "Image" (SText "C:\Win*") = Val (mkCond "Image" (OStartsWith "C:\Win")) /\
  parse_rule_condition P1 "Image" (SText "*cmd*") = Val (mkCond "Image" (OContains "cm")) /\
  parse_rule_condition P1 "Image" (SText (String "*" (String "195" (String "169" "*")))) = Panic /\
  head_ok (String "195" (String "169" "")) /\ continuation "169" = true.
Proof. splits; try reflexivity. intros _. exact I. Qed.

(** * C48 Alert texts *)

(** The lexer skips exactly the blanks that come next: it stops at the first character that is no space, tab or end of line,
    or at the end. *)
Definition blank (c : ascii) : Prop := c = " "%char \/ c = "009"%char \/ c = "010"%char \/ c = "013"%char.
Theorem C48_skips_blanks : forall pre blanks rest fuel, (length blanks < fuel)%nat -> Forall blank blanks ->
  match rest with c :: _ => ~ blank c | [] => True end ->
  dl_skip_whitespace fuel (st (pre ++ blanks ++ rest) (length pre)) = Val (st (pre ++ blanks ++ rest) (length pre + length blanks)).
Proof.
  intros pre blanks. revert pre. induction blanks as [|b bs IH]; intros pre rest [|fuel] L F S; cbn in L; try lia; cbn [dl_skip_whitespace].
  - cbn [List.app]. rewrite st_ch. replace (length pre + length (@nil ascii))%nat with (length pre) by (cbn; lia).
    destruct rest as [|c rest]; [reflexivity|]. unfold blank in S.
    destruct (Ascii.eqb_spec c " "); [tauto|]. destruct (Ascii.eqb_spec c "009"); [tauto|].
    destruct (Ascii.eqb_spec c "010"); [tauto|]. destruct (Ascii.eqb_spec c "013"); [tauto|]. reflexivity.
  - inversion F as [|? ? B F']; subst. cbn [List.app]. rewrite st_ch.
    assert (E : (Ascii.eqb b " " || Ascii.eqb b "009" || Ascii.eqb b "010" || Ascii.eqb b "013")%bool = true)
      by (destruct B as [->|[->|[->| ->]]]; reflexivity).
    rewrite E. unfold st at 1. rewrite read_char_st. rewrite (len1 pre b), shift1. rewrite (IH (pre ++ [b]) rest fuel); [|lia|exact F'|exact S].
    f_equal. f_equal. rewrite app_length. cbn. lia.
Qed.
Print Assumptions C48_skips_blanks.
(** Cutting a description into parts loses nothing: writing the parts one after the other gives the description back. *)
Theorem C48_lossless : forall d, exists ps, transform_alert_content d = Val ps /\ source ps = d.
Proof.
  intros d. destruct (string_dec d "") as [->|N]; [exists [AText ""]; split; reflexivity|].
  destruct d as [|c d]; [congruence|]. destruct (ascii_dec c "000") as [->|Nc].
  - exists [AText (String "000" d)]. split; [apply transform_nul; exists d; reflexivity|]. apply str_app_nil_r.
  - destruct (transform_template (String c d)) as (ps & E & T); [discriminate|intros [r X]; congruence|].
    exists ps. split; [exact E|]. apply template_source. exact T.
Qed.
(** Texts run up to the next '$', references up to the next space, and no text is empty; this determines the parts.
    (A description that starts with NUL is kept as one text.) *)
Theorem C48_parts : forall d, d <> "" -> ~ first_is "000" d ->
  exists ps, transform_alert_content d = Val ps /\ template d ps /\ forall qs, template d qs -> qs = ps.
Proof.
  intros d N F. destruct (transform_template d N F) as (ps & E & T). exists ps. splits; [exact E|exact T|].
  intros qs Q. exact (template_fun _ _ Q _ T).
Qed.
Example C48_case :
  transform_alert_content "from $source.ip to $destination.ip" =
    Val [AText "from "; AField "source.ip"; AText " to "; AField "destination.ip"] /\
  transform_alert_content "$a $b" = Val [AField "a"; AText " "; AField "b"] /\
  transform_alert_content "" = Val [AText ""] /\ transform_alert_content "$" = Val [AField ""].
Proof. repeat split. Qed.

(** * C76 References in alert texts *)

(** A reference followed by a space, or at the end, names exactly that field. *)
Theorem C76_reference : forall name rest, str_has " " name = false -> rest = "" \/ first_is " " rest ->
  exists ps, transform_alert_content (String "$" (append name rest)) = Val (AField name :: ps).
Proof.
  intros name rest H R. destruct (C48_parts (String "$" (append name rest))) as (ps & E & T & U); [discriminate|intros [r X]; discriminate X|].
  rewrite E. destruct (string_dec rest "") as [->|N].
  - exists []. f_equal. symmetry. apply U. change (String "$" (append name "")) with (append "$" (append name "")).
    constructor; [exact H|left; reflexivity|constructor].
  - destruct R as [->|R]; [congruence|]. destruct (transform_template rest N) as (qs & _ & Q).
    { intros [r ->]. destruct R as [u X]. discriminate X. }
    exists qs. f_equal. symmetry. apply U. change (String "$" (append name rest)) with (append "$" (append name rest)).
    constructor; [exact H|right; exact R|exact Q].
Qed.
(** Followed by anything else (a line end, a comma, a bracket, another reference), it names something else. *)
Theorem C137_reference_refuted : forall name c rest, str_has " " name = false -> c <> " "%char ->
  exists f ps, transform_alert_content (String "$" (append name (String c rest))) = Val (AField f :: ps) /\
    exists more, f = append name (String c more).
Proof.
  intros name c rest H N. destruct (C48_parts (String "$" (append name (String c rest)))) as (ps & E & T & _);
    [discriminate|intros [r X]; discriminate X|]. rewrite E.
  inversion T as [|x r ps' Nx Hx Hr T' EQ|f r ps' Hf Hr T' EQ].
  - exfalso. destruct x as [|a x]; [congruence|]. cbn in EQ. inversion EQ; subst. cbn in Hx. discriminate Hx.
  - exists f, ps'. split; [reflexivity|]. cbn in EQ. assert (Q : append f r = append name (String c rest)) by congruence. clear - H N Hr Hf Q.
    revert f Hf Q. induction name as [|a name IH]; intros f Hf Q; cbn in *.
    + destruct f as [|b f]; cbn in Q.
      * exfalso. destruct Hr as [->|[u ->]]; [discriminate Q|]. inversion Q; subst. congruence.
      * inversion Q; subst. exists f. reflexivity.
    + apply orb_false_iff in H as [Ha H]. destruct f as [|b f]; cbn in Q.
      * exfalso. destruct Hr as [->|[u ->]]; [discriminate Q|]. inversion Q; subst. discriminate Ha.
      * inversion Q; subst. cbn in Hf. apply orb_false_iff in Hf as [_ Hf]. destruct (IH H f Hf H2) as [m ->]. exists m. reflexivity.
Qed.
Example C76_case : transform_alert_content "ip=$source.ip, user=$user.name" = Val [AText "ip="; AField "source.ip,"; AText " user="; AField "user.name"].
Proof. reflexivity. Qed.

(** * C49 Levels *)
Theorem C49_levels : forall s,
  (level_to_severity s = INFORMATIONAL <-> In s ["info"; "informational"; "INFORMATIONAL"]) /\
  (level_to_severity s = MEDIUM <-> In s ["medium"; "MEDIUM"]) /\
  (level_to_severity s = HIGH <-> In s ["high"; "HIGH"]) /\
  (level_to_severity s = CRITICAL <-> In s ["critical"; "CRITICAL"; "critic"; "CRITIC"]) /\
  (level_to_severity s = LOW <->
     ~ In s ["info"; "informational"; "INFORMATIONAL"; "medium"; "MEDIUM"; "high"; "HIGH"; "critical"; "CRITICAL"; "critic"; "CRITIC"]).
Proof.
  intros s. unfold level_to_severity.
  destruct (String.eqb_spec s "info") as [->|]; [cbn; intuition congruence|].
  destruct (String.eqb_spec s "informational") as [->|]; [cbn; intuition congruence|].
  destruct (String.eqb_spec s "INFORMATIONAL") as [->|]; [cbn; intuition congruence|].
  destruct (String.eqb_spec s "low") as [->|]; [cbn; intuition congruence|].
  destruct (String.eqb_spec s "LOW") as [->|]; [cbn; intuition congruence|].
  destruct (String.eqb_spec s "medium") as [->|]; [cbn; intuition congruence|].
  destruct (String.eqb_spec s "MEDIUM") as [->|]; [cbn; intuition congruence|].
  destruct (String.eqb_spec s "high") as [->|]; [cbn; intuition congruence|].
  destruct (String.eqb_spec s "HIGH") as [->|]; [cbn; intuition congruence|].
  destruct (String.eqb_spec s "critical") as [->|]; [cbn; intuition congruence|].
  destruct (String.eqb_spec s "CRITICAL") as [->|]; [cbn; intuition congruence|].
  destruct (String.eqb_spec s "critic") as [->|]; [cbn; intuition congruence|].
  destruct (String.eqb_spec s "CRITIC") as [->|]; [cbn; intuition congruence|].
  cbn; intuition congruence.
Qed.
Example C49_case : level_to_severity "high" = HIGH /\ level_to_severity "low" = LOW /\ level_to_severity "unknown" = LOW.
Proof. repeat split. Qed.

(** * C74 Search identifiers *)

(** The conditions of a map are all required, each translated on its own. *)
Theorem C74_map : forall P m s, condition_to_subrule P (SMap m) = Val s ->
  sr_state s = None /\ Forall2 (fun kv c => parse_rule_condition P (fst kv) (snd kv) = Val c) m (sr_conditions s).
Proof.
  intros P m s H. cbn in H. apply obind_val in H as (l & E & H). inversion H; subst. split; [reflexivity|].
  apply map_outcome_inv. exact E.
Qed.
(** A list of maps should be an alternative; the subrule requires all of them. *)
Theorem C136_alternatives_refuted : forall P m1 m2 s1 s2 s,
  condition_to_subrule P (SMap m1) = Val s1 -> condition_to_subrule P (SMap m2) = Val s2 ->
  condition_to_subrule P (SList [m1; m2]) = Val s ->
  forall leaf l, subrule_holds leaf l s <-> subrule_holds leaf l s1 /\ subrule_holds leaf l s2.
Proof.
  intros P m1 m2 s1 s2 s H1 H2 H leaf l. cbn in *. destruct (parse_map P m1) as [l1| |]; try discriminate H1.
  destruct (parse_map P m2) as [l2| |]; try discriminate H2. cbn in *. inversion H1; inversion H2; inversion H; subst.
  rewrite app_nil_r. unfold subrule_holds. cbn [sr_conditions]. split.
  - intros X. split; intros c I; apply X, in_or_app; auto.
  - intros [X Y] c I. apply in_app_or in I as [I|I]; auto.
Qed.
Example C74_case : exists s1 s2 s,
  condition_to_subrule P1 (SMap [("user.name", SText "root")]) = Val s1 /\
  condition_to_subrule P1 (SMap [("source.ip", SText "1.1.1.1")]) = Val s2 /\
  condition_to_subrule P1 (SList [[("user.name", SText "root")]; [("source.ip", SText "1.1.1.1")]]) = Val s /\
  s = mkSub [mkCond "user.name" (OEquals (Text "root")); mkCond "source.ip" (OEquals (Text "1.1.1.1"))] None.
Proof. do 3 eexists. splits; reflexivity. Qed.

(** * C75 Whole Sigma rules *)
Theorem C75_rule : forall P sg r, from_sigma P sg = Val r ->
  ru_name r = sg_title sg /\
  ru_id r = (match sg_id sg with Some x => x | None => "" end) /\
  ru_description r = (match sg_description sg with Some x => x | None => "" end) /\
  al_tags (ru_alert r) = (match sg_tags sg with Some x => x | None => [] end) /\
  al_severity (ru_alert r) = level_to_severity (match sg_level sg with Some x => x | None => "" end) /\
  al_aggregation (ru_alert r) = None /\ ru_needed_datasets r = [] /\
  transform_alert_content (ru_description r) = Val (al_content (ru_alert r)) /\
  tagged (fun t s => spells (technique_name t) s) (al_tags (ru_alert r)) (mi_techniques (ru_mitre r)) /\
  tagged (fun t s => spells (tactic_name t) s \/ (s = "command_and_control" /\ t = TA0011)) (al_tags (ru_alert r)) (mi_tactics (ru_mitre r)).
Proof.
  intros P sg r H. unfold from_sigma in H. apply obind_val in H as (subs & E1 & H). apply obind_val in H as (ac & E2 & H).
  apply obind_val in H as (tac & E3 & H). apply obind_val in H as (tec & E4 & H). inversion H; subst. cbn.
  splits; try reflexivity; [exact E2| |].
  - destruct (sg_tags sg) as [v|]; [|inversion E4; constructor].
    apply (recognise_ok technique_try_from); [intros s a; apply technique_ok|exact E4].
  - destruct (sg_tags sg) as [v|]; [|inversion E3; constructor].
    apply (recognise_ok tactic_try_from); [intros s a; apply tactic_ok|exact E3].
Qed.
(** One subrule per search identifier, under its name *)
Theorem C75_subrules : forall P sg r, bt_wf (search_identifiers (sg_detection sg)) -> from_sigma P sg = Val r ->
  forall name s, bt_get name (ru_subrules r) = Some s <->
    exists c, bt_get name (search_identifiers (sg_detection sg)) = Some c /\ condition_to_subrule P c = Val s.
Proof.
  intros P sg r W H name s. unfold from_sigma in H. apply obind_val in H as (subs & E1 & H). apply obind_val in H as (ac & E2 & H).
  apply obind_val in H as (tac & E3 & H). apply obind_val in H as (tec & E4 & H). inversion H; subst. cbn [ru_subrules].
  rewrite (subrules_ok P (search_identifiers (sg_detection sg)) bt_empty subs); [|reflexivity|exact (bt_keys_nodup _ W)|exact E1]. split.
  - intros [X|(c & I & X)]; [discriminate X|]. exists c. split; [apply wf_In_get; assumption|exact X].
  - intros (c & I & X). right. exists c. split; [apply bt_get_In; exact I|exact X].
Qed.
(** Converting succeeds when every condition can be translated (and no tag is cut inside a character). *)
Theorem C75_total : forall P sg,
  (forall name c, In (name, c) (search_identifiers (sg_detection sg)) -> exists s, condition_to_subrule P c = Val s) ->
  (forall tags x, sg_tags sg = Some tags -> In (append "attack." x) tags -> head_ok x) ->
  exists r, from_sigma P sg = Val r.
Proof.
  intros P sg HC HT. unfold from_sigma.
  assert (S : exists subs, parse_subrules P sg = Val subs).
  { unfold parse_subrules. generalize (@bt_empty string subrule) as ret. revert HC.
    induction (search_identifiers (sg_detection sg)) as [|[k c] r IH]; intros HC ret; cbn [parse_subrules_loop]; [eauto|].
    destruct (HC k c (or_introl eq_refl)) as [s ->]. cbn [obind]. apply IH. intros name c' I. apply (HC name c'). right; exact I. }
  destruct S as [subs ->]. cbn [obind].
  destruct (C48_lossless (unwrap_or_default "" (sg_description sg))) as (ac & -> & _). cbn [obind].
  assert (T : forall A (f : string -> result A string), exists xs,
    match sg_tags sg with Some v => recognise f v | None => Val [] end = Val xs).
  { intros A f. destruct (sg_tags sg) as [v|]; [|eauto]. assert (HT' : forall x, In (append "attack." x) v -> head_ok x) by (intros x; apply (HT v); reflexivity).
    clear HT HC. induction v as [|t v IH]; cbn [recognise]; [eauto|]. destruct IH as [xs ->]; [intros x I; apply HT'; right; exact I|]. cbn [obind].
    destruct (starts_with "attack." t) eqn:E; [|eauto]. apply prefix_split in E as [x ->].
    assert (slice_from 7 (append "attack." x) = Val x) as ->.
    { unfold slice_from, slice. rewrite boundary_len. specialize (HT' x (or_introl eq_refl)).
      assert (is_boundary 7 (append "attack." x) = true) as ->.
      { unfold is_boundary. destruct x as [|d x]; [reflexivity|]. change (is_cont d = false) in HT'. cbn [append byte_at]. rewrite HT'. rewrite ?orb_true_r. reflexivity. }
      assert (Nat.leb 7 (String.length (append "attack." x)) = true) as -> by reflexivity. cbn [andb].
      pose proof (substring_skip "attack." x) as K. change (String.length "attack.") with 7 in K. rewrite K. reflexivity. }
    cbn [obind]. destruct (f x); eauto. }
  destruct (T _ tactic_try_from) as [ta ->]. cbn [obind]. destruct (T _ technique_try_from) as [te ->]. cbn [obind]. eauto.
Qed.
(** Every rule whose tags are texts of Unicode characters, as all Rust strings are. *)
Theorem C75_texts : forall P sg,
  (forall name c, In (name, c) (search_identifiers (sg_detection sg)) -> exists s, condition_to_subrule P c = Val s) ->
  (forall tags t, sg_tags sg = Some tags -> In t tags -> is_text t) ->
  exists r, from_sigma P sg = Val r.
Proof.
  intros P sg HC HT. apply C75_total; [exact HC|]. intros tags x E I. specialize (HT tags _ E I).
  change "attack." with (text [97; 116; 116; 97; 99; 107; 46]%N) in HT. apply strip_ascii in HT as (cs & F & ->); [apply text_head; exact F|].
  repeat constructor.
Qed.
Print Assumptions C75_texts.
(** Cutting a text out of another one: it aborts unless both ends are between characters. *)
Theorem C75_slices : forall cs a b x, Forall scalar cs ->
  (slice a b (text cs) = Val x <-> exists l m r, cs = (l ++ m ++ r)%list /\ a = String.length (text l) /\ b = String.length (text (l ++ m)) /\ x = text m)
  /\ slice a b (text cs) <> OutOfFuel.
Proof.
  intros cs a b x F. split; [apply slices, F|]. unfold slice. destruct (_ && _); discriminate.
Qed.
Print Assumptions C75_slices.
(** The rule's condition expression is dropped: rules that differ only in it are converted to the same rule,
    which has no trigger groups. *)
Theorem C80_condition_dropped_refuted : forall P sg cond,
  from_sigma P (mkSigma (sg_title sg) (sg_id sg) (sg_description sg) (sg_references sg) (sg_status sg) (sg_license sg) (sg_author sg) (sg_date sg)
     (sg_logsource sg) (mkDetection (search_identifiers (sg_detection sg)) cond) (sg_fields sg) (sg_falsepositives sg) (sg_level sg) (sg_tags sg))
  = from_sigma P sg /\ forall r, from_sigma P sg = Val r -> ru_conditions r = [].
Proof.
  intros P sg cond. split; [reflexivity|]. intros r H. unfold from_sigma in H. apply obind_val in H as (subs & E1 & H). apply obind_val in H as (ac & E2 & H).
  apply obind_val in H as (tac & E3 & H). apply obind_val in H as (tec & E4 & H). inversion H. reflexivity.
Qed.
Definition sigma1 : sigma_rule :=
  mkSigma "Title" (Some "id-1") (Some "Login of $user.name") None None None None None (mkSource None None None None)
    (mkDetection [("selection", SMap [("user.name|contains", SText "adm")])] "selection") None None (Some "high") (Some ["attack.t1078"; "attack.g0001"; "attack.TA0001"; "other"]).
Example C75_case : from_sigma P1 sigma1 = Val
  (mkRule "id-1" "Title" "Login of $user.name" (mkMitre [TA0001] [T1078]) []
     [("selection", mkSub [mkCond "user.name" (OContains "adm")] None)] []
     (mkAlert [AText "Login of "; AField "user.name"] HIGH ["attack.t1078"; "attack.g0001"; "attack.TA0001"; "other"] None)) /\
  bt_wf (search_identifiers (sg_detection sigma1)).
Proof. split; [vm_compute; reflexivity|]. repeat constructor. Qed.

(** * C56 MITRE identifiers *)
Theorem C56_techniques : forall s t, technique_try_from s = Ok t <-> spells (technique_name t) s.
Proof. exact technique_ok. Qed.
Theorem C56_tactics : forall s t, tactic_try_from s = Ok t <-> spells (tactic_name t) s \/ (s = "command_and_control" /\ t = TA0011).
Proof. exact tactic_ok. Qed.
Theorem C56_nothing_else : forall s,
  ((forall t, ~ spells (technique_name t) s) -> technique_try_from s = Err "Invalid Mitre Technique") /\
  ((forall t, ~ spells (tactic_name t) s) -> s <> "command_and_control" -> tactic_try_from s = Err "Invalid Mitre Tactic").
Proof.
  intros s. split.
  - intros N. destruct (technique_try_from s) as [t|e] eqn:E; [apply technique_ok in E; exfalso; exact (N _ E)|].
    unfold technique_try_from in E. destruct (find _ _); [discriminate E|]. symmetry; exact E.
  - intros N M. destruct (tactic_try_from s) as [t|e] eqn:E; [apply tactic_ok in E as [E|[E _]]; exfalso; [exact (N _ E)|exact (M E)]|].
    unfold tactic_try_from in E. destruct (find _ _); [discriminate E|]. symmetry; exact E.
Qed.
(** Different variants have different identifiers *)
Theorem C56_distinct : forall t u, mitre_id (technique_name t) = mitre_id (technique_name u) -> t = u.
Proof. intros t u H. pose proof (technique_found1 t) as A. rewrite H, technique_found1 in A. congruence. Qed.
Example C56_case : technique_try_from "T1003.001" = Ok T1003_001 /\ technique_try_from "t1614" = Ok T1614 /\
  spells (technique_name T1003_001) "t1003.001" /\ technique_try_from "T9999" = Err "Invalid Mitre Technique" /\
  tactic_try_from "TA0043" = Ok TA0043 /\ tactic_try_from "execution" = Err "Invalid Mitre Tactic".
Proof. splits; try (vm_compute; reflexivity). right. vm_compute. reflexivity. Qed.

(** * C79 Tactic tags *)
(** The names of the tactics in Sigma tags (https://attack.mitre.org/tactics) *)
Definition tactic_tags : list (string * tactic) :=
  [("reconnaissance", TA0043); ("resource_development", TA0042); ("initial_access", TA0001); ("execution", TA0002);
   ("persistence", TA0003); ("privilege_escalation", TA0004); ("defense_evasion", TA0005); ("credential_access", TA0006);
   ("discovery", TA0007); ("lateral_movement", TA0008); ("collection", TA0009); ("command_and_control", TA0011);
   ("exfiltration", TA0010); ("impact", TA0040)].
Theorem C79_command_and_control : forall P sg r tags, sg_tags sg = Some tags -> In "attack.command_and_control" tags ->
  from_sigma P sg = Val r -> In TA0011 (mi_tactics (ru_mitre r)).
Proof.
  intros P sg r tags E I H. destruct (C75_rule P sg r H) as (_ & _ & _ & ET & _ & _ & _ & _ & _ & T). rewrite ET, E in T.
  clear - I T. induction T as [|s a tags xs N T IH|t tags xs N T IH]; [contradiction| |].
  - destruct I as [I|I]; [|right; apply IH; exact I]. left. cbn in I. assert (s = "command_and_control") by congruence. subst s.
    destruct N as [[N|N]|[_ N]]; [|vm_compute in N; destruct a; discriminate N|exact N]. vm_compute in N; destruct a; discriminate N.
  - destruct I as [->|I]; [|apply IH; exact I]. exfalso. apply (N TA0011 "command_and_control"); [reflexivity|]. right. split; reflexivity.
Qed.
(** Every other tactic named in a tag is lost. *)
Theorem C139_other_tactics_refuted : forall name t, In (name, t) tactic_tags -> name <> "command_and_control" ->
  tactic_try_from name = Err "Invalid Mitre Tactic".
Proof.
  intros name t I N. cbn [tactic_tags In] in I.
  repeat (destruct I as [I|I]; [assert (E : name = fst (name, t)) by reflexivity; rewrite <- I in E; cbn in E; subst name; try (exfalso; apply N; reflexivity); vm_compute; reflexivity|]).
  contradiction.
Qed.
Example C79_case : In ("execution", TA0002) tactic_tags /\ from_sigma P1
  (mkSigma "T" None None None None None None None (mkSource None None None None) (mkDetection [] "") None None None (Some ["attack.execution"])) =
  Val (mkRule "" "T" "" (mkMitre [] []) [] [] [] (mkAlert [AText ""] LOW ["attack.execution"] None)).
Proof. split; [cbn; tauto|]. vm_compute. reflexivity. Qed.

(** * C77 Alert dictionaries *)
Theorem C77_lookup : forall d language id text, bt_wf (language_map d) ->
  get_mappings_for_id d language id = Some text <->
  exists m, In (language, m) (language_map d) /\ bt_get id m = Some text.
Proof.
  intros d language id text W. unfold get_mappings_for_id. split.
  - destruct (bt_get language (language_map d)) as [m|] eqn:E; [|discriminate]. intros H. exists m. split; [apply bt_get_In; exact E|exact H].
  - intros (m & I & H). rewrite (wf_In_get _ _ _ W I). exact H.
Qed.
Theorem C77_consistent : forall d language id,
  get_mappings_for_id d language id = match get_mappings_for d language with Some m => bt_get id m | None => None end.
Proof. reflexivity. Qed.
Example C77_case : get_mappings_for_id (mkDict [("en", [("a", "x")]); ("es", [("a", "y")])]) "es" "a" = Some "y" /\
  bt_wf (language_map (mkDict [("en", [("a", "x")]); ("es", [("a", "y")])])).
Proof. split; [reflexivity|]. repeat constructor. Qed.

(** * C78 Comparing operators *)
Theorem C78_reflexive : forall P o, op_eqb P o o = true.
Proof. exact op_eqb_refl. Qed.
(** For operators without embedded field values, equality is identity. *)
Theorem C78_identity : forall P a b, field_free a -> (op_eqb P a b = true <-> a = b).
Proof. intros P a b H. apply op_eqb_iff. exact H. Qed.
(** With field values it is neither symmetric nor transitive, nor does it tell values apart. *)
Theorem C138_equality_refuted : forall P,
  (op_eqb P (OEquals (U64 5)) (OEquals (Text "x")) = true /\ op_eqb P (OEquals (Text "x")) (OEquals (U64 5)) = false) /\
  (op_eqb P (OGT (U64 5)) (OGT (Text "x")) = true /\ op_eqb P (OGT (Text "x")) (OGT (Domain "x")) = true /\
   op_eqb P (OGT (U64 5)) (OGT (Domain "x")) = false).
Proof. intros P. repeat split. Qed.
Example C78_case : field_free (OAll [ONot (OIsLocalIp true); OAny [OSameNet (V4 5) 24; OInDataset T_BlockIp]]) /\
  op_eqb P1 (OAll [ONot (OIsLocalIp true)]) (OAll [ONot (OIsLocalIp false)]) = false.
Proof. split; [cbn; tauto|reflexivity]. Qed.

Print Assumptions C46_value.
Print Assumptions C46_presence_rules.
Print Assumptions C46_abort.
Print Assumptions C118_value_tests_abort_refuted.
Print Assumptions C118_negation_refuted.
Print Assumptions C135_groups_ignored_refuted.
Print Assumptions C135_triggered_refuted.
Print Assumptions C73_all_subrules.
Print Assumptions C47_modifiers.
Print Assumptions C47_equals_modifier.
Print Assumptions C47_trailing_wildcard.
Print Assumptions C47_null.
Print Assumptions C119_leading_wildcard_refuted.
Print Assumptions C119_both_wildcards_refuted.
Print Assumptions C119_both_wildcards_abort_refuted.
Print Assumptions C119_other_modifiers_refuted.
Print Assumptions C119_lists_refuted.
Print Assumptions C119_inner_wildcards_refuted.
Print Assumptions C119_double_wildcard_refuted.
Print Assumptions C119_null_abort_refuted.
Print Assumptions C48_lossless.
Print Assumptions C48_parts.
Print Assumptions C76_reference.
Print Assumptions C137_reference_refuted.
Print Assumptions C49_levels.
Print Assumptions C74_map.
Print Assumptions C136_alternatives_refuted.
Print Assumptions C75_rule.
Print Assumptions C75_subrules.
Print Assumptions C75_total.
Print Assumptions C80_condition_dropped_refuted.
Print Assumptions C56_techniques.
Print Assumptions C56_tactics.
Print Assumptions C56_nothing_else.
Print Assumptions C56_distinct.
Print Assumptions C79_command_and_control.
Print Assumptions C139_other_tactics_refuted.
Print Assumptions C77_lookup.
Print Assumptions C77_consistent.
Print Assumptions C78_reflexive.
Print Assumptions C78_identity.
Print Assumptions C138_equality_refuted.
