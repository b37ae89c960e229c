(** C50-C53, C81, C82: the query lexer. *)
From Coq Require Import String Ascii NArith List Bool Arith Lia.
From Verif Require Import Base.Outcome Base.Arith Model.Query Spec.QuerySpec Proofs.QueryP Proofs.QueryLexP Proofs.QueryStarP.
Import ListNotations.
Local Open Scope list_scope.

(** * C50 The lexer is total and makes progress *)

(** In every state a user can reach, the next call returns a token: no panic, no endless loop. *)
Theorem C50_total : forall i l, reachable i l -> exists t l', next_token l = Val (t, l').
Proof.
  intros i l R. destruct (reachable_st i l R) as [->|[p ->]].
  - rewrite next_new. eauto.
  - destruct (next_st i p) as (t & p' & E & _). eauto.
Qed.
Theorem C50_skip_total : forall i l, reachable i l -> exists l', skip_whitespace l = Val l'.
Proof.
  intros i l R. destruct (reachable_st i l R) as [->|[p ->]]; [rewrite skip_new; eauto|].
  destruct (skip_st i p) as (p' & E & _). eauto.
Qed.
(** It consumes at least one character unless it answers EOF or ILLEGAL, never goes back, and never
    changes the text. *)
Theorem C50_progress : forall i l t l', reachable i l -> next_token l = Val (t, l') ->
  q_input l' = i /\ q_position l <= q_position l' /\
  (t <> T_EOF -> t <> T_ILLEGAL -> q_position l < q_position l' /\ q_position l < length i).
Proof.
  intros i l t l' R E. destruct (reachable_st i l R) as [->|[p ->]].
  - rewrite next_new in E. assert (t = T_EOF /\ l' = st i 0) as [-> ->] by (split; congruence). splits; [reflexivity|cbn; lia|congruence].
  - destruct (next_st i p) as (t' & p' & E' & Le & Pr & _ & Pa). rewrite E' in E.
    assert (t = t' /\ l' = st i p') as [-> ->] by (split; congruence). splits; [reflexivity|exact Le|].
    intros N1 N2. split; [apply Pr; exact N2|]. destruct (Nat.lt_ge_cases p (length i)) as [H|H]; [exact H|]. destruct (Pa H). congruence.
Qed.
(** Driving the lexer over any text ends: a list of tokens of which only the last is EOF or ILLEGAL. *)
Theorem C50_terminates : forall text, exists toks t,
  lex_query text = Val (toks ++ [t]) /\ (t = T_EOF \/ t = T_ILLEGAL) /\ Forall (fun x => x <> T_EOF /\ x <> T_ILLEGAL) toks /\
  length toks <= length text.
Proof.
  intros text. unfold lex_query, q_new. rewrite read_char_st.
  assert (X : forall fuel p acc, p <= S (length text) -> S (length text) - p < fuel ->
    exists toks t, drive fuel (st text p) acc = Val (acc ++ toks ++ [t]) /\ final t /\ Forall (fun x => ~ final x) toks /\ p + length toks <= Nat.max p (length text)).
  { induction fuel as [|fuel IH]; intros p acc B F; [lia|]. cbn [drive].
    destruct (next_st text p) as (t & p' & E & Le & Pr & Up & Pa). rewrite E. cbn [obind].
    assert (D : final t \/ ~ final t) by (unfold final; destruct t; (left; left; reflexivity) || (left; right; reflexivity) || (right; intros [X|X]; discriminate)).
    destruct D as [D|D].
    - exists [], t. cbn [app length]. splits; [|exact D|constructor|lia]. destruct D as [->| ->]; reflexivity.
    - assert (H1 : p < p') by (apply Pr; intros ->; apply D; right; reflexivity).
      assert (H2 : p < length text). { destruct (Nat.lt_ge_cases p (length text)) as [H|H]; [exact H|]. destruct (Pa H) as [-> _]. exfalso. apply D. left; reflexivity. }
      destruct (IH p' (acc ++ [t])) as (toks & t' & E2 & Ft & Fo & Le2); [apply Up; exact H2|lia|].
      exists (t :: toks), t'. splits; [|exact Ft|constructor; assumption|].
      + replace (acc ++ (t :: toks) ++ [t']) with ((acc ++ [t]) ++ toks ++ [t']) by (rewrite <- app_assoc; reflexivity).
        rewrite <- E2. destruct t; try reflexivity; exfalso; apply D; ((left; reflexivity) || (right; reflexivity)).
      + cbn [length]. destruct (Nat.le_gt_cases p' (length text)); [lia|].
        assert (p' = S (length text)) by (specialize (Up H2); lia). subst p'.
        assert (toks = []) as ->. { destruct toks as [|x toks]; [reflexivity|]. cbn [length] in Le2. lia. } cbn [length]. lia. }
  destruct (X (S (S (length text))) 0 []) as (toks & t & E & Ft & Fo & L); [lia|lia|]. exists toks, t. splits; [exact E|exact Ft| |lia].
  eapply Forall_impl; [|exact Fo]. intros x Nx. split; intros ->; apply Nx; [left|right]; reflexivity.
Qed.
(** An ILLEGAL answer does not move past the offending character: the same answer comes back forever. *)
Theorem C50_illegal_stays : forall i l l', reachable i l -> next_token l = Val (T_ILLEGAL, l') -> next_token l' = Val (T_ILLEGAL, l').
Proof.
  intros i l l' R E. destruct (reachable_st i l R) as [->|[p ->]]; [rewrite next_new in E; congruence|].
  destruct (Nat.lt_ge_cases p (length i)) as [H|H].
  2:{ destruct (next_st i p) as (t' & p' & E' & _ & _ & _ & Pa). destruct (Pa H) as [-> ->]. congruence. }
  destruct (st_split i p) as (pre & l0 & -> & <-); [lia|]. unfold next_token in E. change (q_input (st (pre ++ l0) (length pre))) with (pre ++ l0) in E.
  destruct (skip_ok l0 pre (S (length (pre ++ l0)))) as (bs & r & -> & Hb & Hr & E1); [rewrite app_length; lia|].
  rewrite next_core, E1 in E. cbn [obind] in E. rewrite app_assoc in E. rewrite <- app_length in E.
  assert (l' = st ((pre ++ bs) ++ r) (length (pre ++ bs)) /\ core (S (length ((pre ++ bs) ++ r))) l' = Val (T_ILLEGAL, l')) as [-> C].
  { set (l1 := st ((pre ++ bs) ++ r) (length (pre ++ bs))) in *. assert (l' = l1); [|subst l'; auto].
    clear - E. unfold core in E. destruct (single_token (q_ch l1)) as [t|] eqn:S1; [|].
    { assert (t = T_ILLEGAL) by congruence. subst t. exfalso. revert S1. unfold single_token.
      repeat match goal with |- (if ?b then _ else _) = _ -> _ => destruct b end; discriminate. }
    destruct (N.eqb (q_ch l1) (ch "0")); [congruence|].
    destruct (N.eqb (q_ch l1) (ch "'")). { destruct (literal_loop _ _ _ _) as [[? ?]| |]; cbn [obind] in E; congruence. }
    destruct (N.eqb (q_ch l1) (ch """")).
    { destruct (string_loop _ _ _ _) as [[data ?]| |]; cbn [obind] in E; try congruence. exfalso.
      assert (X : string_token data = T_ILLEGAL) by congruence. revert X. unfold string_token. cbn zeta.
      repeat match goal with |- (if ?b then _ else _) = _ -> _ => destruct b end; discriminate. }
    destruct (is_letter (q_ch l1)).
    { destruct (read_identifier _ _) as [[w ?]| |]; cbn [obind] in E; try congruence. exfalso.
      assert (X : (match get_keyword_token w with Ok t => t | Err _ => T_FIELD w end) = T_ILLEGAL) by (destruct (get_keyword_token w); congruence).
      apply keyword_ok in X. inversion X as [t I Y|I Y|I J Y]; subst. cbn [In keywords] in I. repeat (destruct I as [Z|I]; [discriminate|]). destruct I. }
    destruct (is_ascii_digit (q_ch l1)). { destruct (read_number _ _) as [[? ?]| |]; cbn [obind] in E; congruence. }
    congruence. }
  unfold next_token. change (q_input (st ((pre ++ bs) ++ r) (length (pre ++ bs)))) with ((pre ++ bs) ++ r). rewrite next_core.
  change ((pre ++ bs) ++ r) with ((pre ++ bs) ++ [] ++ r) at 2. rewrite skip_to; [|constructor|exact Hr|cbn [length]; lia].
  cbn [obind]. rewrite app_nil_r. exact C.
Qed.

Definition q1 : text := chars "filter field_name2=""*something*"" | fields os.a as b # 1".
Example C50_case :
  lex_query q1 = Val [T_FILTER; T_FIELD (chars "field_name2"); T_ASSIGN; T_Contains (chars "something"); T_PIPE; T_FIELDS;
                      T_FIELD (chars "os.a"); T_AS; T_FIELD (chars "b"); T_ILLEGAL] /\
  lex_query [] = Val [T_EOF] /\ (exists l, reachable q1 l /\ q_position l = 18).
Proof.
  splits; [reflexivity|reflexivity|].
  eexists. split; [|]. { eapply R_next; [eapply R_next; [apply R_read; apply R_new|reflexivity]|reflexivity]. } reflexivity.
Qed.

(** * C51 Numbers and words are read whole *)

Theorem C51_int : forall pre bs ds r l,
  at_text l (pre ++ bs ++ ds ++ r) (length pre) -> Forall blank bs -> ds <> [] -> Forall digit ds -> ~ starts digit r ->
  ~ starts (eq (ch "0")) ds ->
  exists l', next_token l = Val (T_INT ds, l') /\ at_text l' (pre ++ bs ++ ds ++ r) (length (pre ++ bs ++ ds)).
Proof.
  intros pre bs ds r [i p rp c] (H1 & H2 & H3 & H4) Hb N D S Z. cbn in H1, H2, H3, H4. subst.
  destruct (lexeme_next (bs ++ ds ++ r) (T_INT ds) r) as (a & E & Na & C); [|exact Z|discriminate|].
  { clear - Hb N D S. induction bs as [|b bs IH]; [cbn [app]; apply L_int; assumption|]. inversion Hb; subst. apply L_blank; [assumption|apply IH; assumption]. }
  specialize (C pre). exists (st ((pre ++ a) ++ r) (length (pre ++ a))). split; [exact C|].
  assert (a = bs ++ ds) as ->. { apply (app_inv_tail r). rewrite <- app_assoc. symmetry. exact E. }
  unfold st, at_text. splits; [cbn [q_input]; rewrite <- !app_assoc; reflexivity|reflexivity|reflexivity|]. cbn [q_ch]. rewrite <- !app_assoc. reflexivity.
Qed.
Theorem C51_word : forall pre bs w r l,
  at_text l (pre ++ bs ++ w ++ r) (length pre) -> Forall blank bs -> starts letter w -> Forall word_char w -> ~ starts word_char r ->
  exists t l', word_token w t /\ (forall t', word_token w t' -> t' = t) /\
    next_token l = Val (t, l') /\ at_text l' (pre ++ bs ++ w ++ r) (length (pre ++ bs ++ w)).
Proof.
  intros pre bs w r [i p rp c] (H1 & H2 & H3 & H4) Hb L W S. cbn in H1, H2, H3, H4. subst.
  set (t := match get_keyword_token w with Ok t => t | Err _ => T_FIELD w end).
  assert (T : word_token w t) by (apply keyword_ok; reflexivity).
  assert (U : forall t', word_token w t' -> t' = t) by (intros t' T'; apply keyword_ok in T'; symmetry; exact T').
  destruct (lexeme_next (bs ++ w ++ r) t r) as (a & E & Na & C).
  { clear - Hb L W S T. induction bs as [|b bs IH]; [cbn [app]; apply L_word; assumption|]. inversion Hb; subst. apply L_blank; [assumption|apply IH; assumption]. }
  { clearbody t. inversion T as [t0 I Y|I Y|I J Y]; subst; try exact Logic.I. cbn [In keywords] in I. repeat (destruct I as [X|I]; [injection X as _ <-; exact Logic.I|]). destruct I. }
  { intros X. rewrite X in T. inversion T as [t0 I Y|I Y|I J Y]; subst; try congruence. cbn [In keywords] in I. repeat (destruct I as [Z|I]; [discriminate|]). destruct I. }
  specialize (C pre). exists t, (st ((pre ++ a) ++ r) (length (pre ++ a))). splits; [exact T|exact U|exact C|].
  assert (a = bs ++ w) as ->. { apply (app_inv_tail r). rewrite <- app_assoc. symmetry. exact E. }
  unfold st, at_text. splits; [cbn [q_input]; rewrite <- !app_assoc; reflexivity|reflexivity|reflexivity|]. cbn [q_ch]. rewrite <- !app_assoc. reflexivity.
Qed.
(** A number that starts with 0 is never read: the lexer takes it for the end of the query. *)
Theorem C120_zero_refuted : forall pre bs r l,
  at_text l (pre ++ bs ++ ch "0" :: r) (length pre) -> Forall blank bs ->
  exists l', next_token l = Val (T_EOF, l').
Proof.
  intros pre bs r l A Hb. apply at_text_st in A as ->.
  exists (st ((pre ++ bs) ++ ch "0" :: r) (S (length (pre ++ bs)))).
  unfold next_token. change (q_input (st (pre ++ bs ++ ch "0" :: r) (length pre))) with (pre ++ bs ++ ch "0" :: r). rewrite next_core.
  rewrite (skip_to bs pre (ch "0" :: r) (S (length (pre ++ bs ++ ch "0" :: r))) Hb).
  2:{ intros (c & x & X & B). injection X as <- _. vm_compute in B. intuition congruence. }
  2:{ rewrite !app_length. lia. }
  cbn [obind]. unfold core. rewrite st_ch, read_st. reflexivity.
Qed.
(** So the rest of such a query is silently ignored. *)
Theorem C120_zero_query_refuted : forall r, lex_query (ch "0" :: r) = Val [T_EOF].
Proof. reflexivity. Qed.

Example C51_case :
  lex_query (chars "port=8080 AND to_number(x) > 9") =
    Val [T_FIELD (chars "port"); T_ASSIGN; T_INT (chars "8080"); T_AND; T_FUNCTION (chars "to_number"); T_LPAREN (ch "("); T_FIELD (chars "x");
         T_RPAREN (ch ")"); T_GT (ch ">"); T_INT (chars "9"); T_EOF] /\
  lex_query (chars "port=0 AND user=root") = Val [T_FIELD (chars "port"); T_ASSIGN; T_EOF] /\
  at_text (q_read_char (q_new (chars " 42 x"))) (chars " 42 x") 0.
Proof. unfold at_text. splits; reflexivity. Qed.

(** * C52 Wildcards *)

(** Without asterisks in the text itself, wildcards at both ends mean "contains", and no wildcard a plain string. *)
Theorem C52_contains : forall pre b v r l, pieces b (PStar :: plain v ++ [PStar]) -> ~ In (ch "*") v ->
  at_text l (pre ++ ch """" :: b ++ ch """" :: r) (length pre) ->
  exists l', next_token l = Val (T_Contains v, l') /\ at_text l' (pre ++ ch """" :: b ++ ch """" :: r) (length (pre ++ ch """" :: b ++ [ch """"])).
Proof.
  intros pre b v r l P H A. destruct (string_call pre b _ r l P A) as (l' & E & A'). exists l'. split; [|exact A']. rewrite E. do 2 f_equal.
  change (PStar :: plain v ++ [PStar]) with ([PStar] ++ plain v ++ [PStar]). rewrite !store_app, store_plain by exact H. apply token_both. exact H.
Qed.
Theorem C52_plain : forall pre b v r l, pieces b (plain v) -> ~ In (ch "*") v ->
  at_text l (pre ++ ch """" :: b ++ ch """" :: r) (length pre) ->
  exists l', next_token l = Val (T_String v, l') /\ at_text l' (pre ++ ch """" :: b ++ ch """" :: r) (length (pre ++ ch """" :: b ++ [ch """"])).
Proof.
  intros pre b v r l P H A. destruct (string_call pre b _ r l P A) as (l' & E & A'). exists l'. split; [|exact A']. rewrite E. do 2 f_equal.
  rewrite store_plain by exact H. apply token_plain. exact H.
Qed.
(** Wildcards strictly inside, or more than two of them, make a LIKE pattern that keeps its text. *)
Theorem C52_like : forall pre b ps r l, pieces b ps -> (forall c, In (PChar c) ps -> c <> ch "*" /\ c <> ch "\") ->
  (2 < stars ps \/ (0 < stars ps /\ (exists c ps', ps = PChar c :: ps') /\ (exists c ps', ps = ps' ++ [PChar c]))) ->
  at_text l (pre ++ ch """" :: b ++ ch """" :: r) (length pre) ->
  exists l', next_token l = Val (T_Like (pattern_text ps), l') /\ at_text l' (pre ++ ch """" :: b ++ ch """" :: r) (length (pre ++ ch """" :: b ++ [ch """"])).
Proof.
  intros pre b ps r l P H K A. destruct (string_call pre b _ r l P A) as (l' & E & A'). exists l'. split; [|exact A']. rewrite E. do 2 f_equal.
  apply like_token; assumption.
Qed.
(** One-sided wildcards come out the wrong way round: only a trailing wildcard (a prefix search) gives EndsWith ... *)
Theorem C121_trailing_refuted : forall pre b v r l, pieces b (plain v ++ [PStar]) -> v <> [] -> ~ In (ch "*") v ->
  at_text l (pre ++ ch """" :: b ++ ch """" :: r) (length pre) ->
  wildcard_meaning (plain v ++ [PStar]) (T_StartsWith v) /\ exists l', next_token l = Val (T_EndsWith v, l').
Proof.
  intros pre b v r l P N H A. split; [constructor; exact N|]. destruct (string_call pre b _ r l P A) as (l' & E & A'). exists l'. rewrite E. do 2 f_equal.
  rewrite store_app, store_plain by exact H. apply token_trailing; assumption.
Qed.
(** ... and only a leading wildcard (a suffix search) gives StartsWith. *)
Theorem C121_leading_refuted : forall pre b v r l, pieces b (PStar :: plain v) -> v <> [] -> ~ In (ch "*") v ->
  at_text l (pre ++ ch """" :: b ++ ch """" :: r) (length pre) ->
  wildcard_meaning (PStar :: plain v) (T_EndsWith v) /\ exists l', next_token l = Val (T_StartsWith v, l').
Proof.
  intros pre b v r l P N H A. split; [constructor; exact N|]. destruct (string_call pre b _ r l P A) as (l' & E & A'). exists l'. rewrite E. do 2 f_equal.
  change (PStar :: plain v) with ([PStar] ++ plain v). rewrite store_app, store_plain by exact H. apply token_leading; assumption.
Qed.
(** Escaped asterisks are not literal: the backslash stays in a plain string, a final escaped asterisk counts as a wildcard,
    and one inside a "contains" is dropped (its backslash stays). And an inner wildcard next to a one-sided one is lost. *)
Theorem C121_escape_refuted :
  lex_query (chars "x=""a\*b""") = Val [T_FIELD (chars "x"); T_ASSIGN; T_String (chars "a\*b"); T_EOF] /\
  lex_query (chars "x='a\*b'") = Val [T_FIELD (chars "x"); T_ASSIGN; T_String (chars "a*b"); T_EOF] /\
  lex_query (chars "x=""a\*""") = Val [T_FIELD (chars "x"); T_ASSIGN; T_EndsWith (chars "a\"); T_EOF] /\
  lex_query (chars "x=""*a\*b*""") = Val [T_FIELD (chars "x"); T_ASSIGN; T_Contains (chars "a\b"); T_EOF] /\
  lex_query (chars "x=""a*b*""") = Val [T_FIELD (chars "x"); T_ASSIGN; T_EndsWith (chars "ab"); T_EOF].
Proof. splits; reflexivity. Qed.

(** Exactly what the lexer makes of any double-quoted string: one answer, told by the text it keeps. *)
Theorem C52_every : forall pre b ps r l, pieces b ps -> at_text l (pre ++ ch """" :: b ++ ch """" :: r) (length pre) ->
  exists tok l', next_token l = Val (tok, l') /\ answer (kept ps) tok /\ (forall other, answer (kept ps) other -> other = tok) /\
    at_text l' (pre ++ ch """" :: b ++ ch """" :: r) (length (pre ++ ch """" :: b ++ [ch """"])).
Proof.
  intros pre b ps r l P A. destruct (string_call pre b _ r l P A) as (l' & E & A'). exists (string_token (kept ps)), l'.
  split; [exact E|]. split; [apply token_answer|]. split; [|exact A']. intros other O. apply (answer_unique (kept ps)); [exact O|apply token_answer].
Qed.
(** So, whatever the texts around it: *)
Lemma lexes_to pre b ps r l tok : pieces b ps -> at_text l (pre ++ ch """" :: b ++ ch """" :: r) (length pre) -> answer (kept ps) tok ->
  exists l', next_token l = Val (tok, l').
Proof. intros P A H. destruct (C52_every pre b ps r l P A) as (tok' & l' & E & _ & U & _). exists l'. rewrite (U tok H). exact E. Qed.
Lemma kept_escape v w : ~ In (ch "*") v -> ~ In (ch "*") w -> kept (plain (v ++ ch "*" :: w)) = v ++ ch "\" :: ch "*" :: w.
Proof.
  intros V W. change (kept (plain (v ++ ch "*" :: w))) with (store (plain (v ++ ch "*" :: w))). unfold plain. rewrite map_app, store_app. cbn [map].
  change (PChar (ch "*") :: map PChar w) with ([PChar (ch "*")] ++ plain w). rewrite store_app. fold (plain v). rewrite !store_plain by assumption. reflexivity.
Qed.
Theorem C121_escaped_refuted : forall pre b v w r l, ~ In (ch "*") v -> ~ In (ch "*") w ->
  at_text l (pre ++ ch """" :: b ++ ch """" :: r) (length pre) ->
  (w <> [] -> pieces b (plain (v ++ ch "*" :: w)) ->
    wildcard_meaning (plain (v ++ ch "*" :: w)) (T_String (v ++ ch "*" :: w)) /\
    exists l', next_token l = Val (T_String (v ++ ch "\" :: ch "*" :: w), l')) /\
  (pieces b (plain (v ++ [ch "*"])) ->
    wildcard_meaning (plain (v ++ [ch "*"])) (T_String (v ++ [ch "*"])) /\ exists l', next_token l = Val (T_EndsWith (v ++ [ch "\"]), l')) /\
  (pieces b (PStar :: plain (v ++ ch "*" :: w) ++ [PStar]) ->
    wildcard_meaning (PStar :: plain (v ++ ch "*" :: w) ++ [PStar]) (T_Contains (v ++ ch "*" :: w)) /\
    exists l', next_token l = Val (T_Contains (v ++ ch "\" :: w), l')) /\
  (v <> [] -> pieces b (plain v ++ PStar :: plain w ++ [PStar]) -> exists l', next_token l = Val (T_EndsWith (v ++ w), l')).
Proof.
  intros pre b v w r l V W A. splits.
  - intros N P. split; [constructor|]. apply (lexes_to _ _ _ _ _ _ P A). rewrite kept_escape by assumption. apply escaped_inside; assumption.
  - intros P. split; [constructor|]. apply (lexes_to _ _ _ _ _ _ P A). rewrite kept_escape by (assumption || intros []). apply escaped_last; assumption.
  - intros P. split; [constructor|]. apply (lexes_to _ _ _ _ _ _ P A).
    assert (K : kept (PStar :: plain (v ++ ch "*" :: w) ++ [PStar]) = ch "*" :: v ++ ch "\" :: ch "*" :: w ++ [ch "*"]).
    { change (PStar :: plain (v ++ ch "*" :: w) ++ [PStar]) with ([PStar] ++ plain (v ++ ch "*" :: w) ++ [PStar]).
      assert (KA : forall x y, kept (x ++ y) = kept x ++ kept y) by apply store_app. rewrite !KA, kept_escape by assumption. cbn [kept flat_map app]. rewrite <- app_assoc. reflexivity. }
    rewrite K. apply escaped_contained; assumption.
  - intros N P. apply (lexes_to _ _ _ _ _ _ P A).
    assert (K : kept (plain v ++ PStar :: plain w ++ [PStar]) = v ++ ch "*" :: w ++ [ch "*"]).
    { change (plain v ++ PStar :: plain w ++ [PStar]) with (plain v ++ [PStar] ++ plain w ++ [PStar]).
      assert (KA : forall x y, kept (x ++ y) = kept x ++ kept y) by apply store_app.
      assert (KP : forall x, ~ In (ch "*") x -> kept (plain x) = x) by apply store_plain. rewrite !KA, !KP by assumption. reflexivity. }
    rewrite K. apply inner_lost; assumption.
Qed.

Example C52_case :
  pieces (chars "*some\nthing*") (PStar :: plain (chars "some" ++ [10%N] ++ chars "thing") ++ [PStar]) /\
  lex_query (chars """*ab*"" ""ab*"" ""*ab"" ""a*b"" ""*a*b*"" ""ab""") =
    Val [T_Contains (chars "ab"); T_EndsWith (chars "ab"); T_StartsWith (chars "ab"); T_Like (chars "a*b"); T_Like (chars "*a*b*"); T_String (chars "ab"); T_EOF].
Proof.
  split; [|reflexivity]. apply Pc_star. do 4 (apply Pc_char; [discriminate|discriminate|discriminate|]). apply (Pc_esc (ch "n")).
  do 5 (apply Pc_char; [discriminate|discriminate|discriminate|]). repeat constructor.
Qed.

Example C52_every_case :
  pieces (chars "a\*b") (plain (chars "a*b")) /\ kept (plain (chars "a*b")) = chars "a\*b" /\ answer (chars "a\*b") (T_String (chars "a\*b")) /\
  at_text (q_read_char (q_new (chars """a\*b"" x"))) (chars """a\*b"" x") 0.
Proof.
  split; [|split; [reflexivity|split; [apply (token_answer (chars "a\*b"))|unfold at_text; splits; reflexivity]]].
  apply Pc_char; [discriminate|discriminate|discriminate|]. apply (Pc_esc (ch "*")). apply Pc_char; [discriminate|discriminate|discriminate|]. constructor.
Qed.

(** * C53 Quoted literals round trip *)

Theorem C53_round_trip : forall v pre r l,
  at_text l (pre ++ ch "'" :: escape v ++ ch "'" :: r) (length pre) ->
  exists l', next_token l = Val (T_String v, l') /\
    at_text l' (pre ++ ch "'" :: escape v ++ ch "'" :: r) (length (pre ++ ch "'" :: escape v ++ [ch "'"])).
Proof. intros v pre r l A. exact (literal_call pre (escape v) v r l (escape_literal v) A). Qed.
(** More generally, every closed literal denotes the text its escapes spell. *)
Theorem C53_literal : forall b v pre r l, literal (ch "'") b v ->
  at_text l (pre ++ ch "'" :: b ++ ch "'" :: r) (length pre) ->
  exists l', next_token l = Val (T_String v, l') /\
    at_text l' (pre ++ ch "'" :: b ++ ch "'" :: r) (length (pre ++ ch "'" :: b ++ [ch "'"])).
Proof. intros b v pre r l H A. exact (literal_call pre b v r l H A). Qed.

Example C53_case :
  escape (chars "it's \0*") = chars "it\'s \\0*" /\
  lex_query (chars "'it\'s \\0*' AND 'a\n\t\0\x'") = Val [T_String (chars "it's \0*"); T_AND; T_String (chars "a" ++ [10; 9; 0]%N ++ chars "x"); T_EOF].
Proof. split; reflexivity. Qed.

(** * C81 Whole queries *)

(** A query in the grammar lexes to exactly its tokens (outside the defects above: see [dependable]). *)
Theorem C81_query : forall t toks, lexes t toks -> Forall dependable toks -> lex_query t = Val toks.
Proof. exact lexes_query. Qed.
(** Hence such a query has one reading. *)
Theorem C81_unambiguous : forall t toks toks', lexes t toks -> lexes t toks' -> Forall dependable toks -> Forall dependable toks' ->
  toks = toks'.
Proof. intros t a b A B GA GB. pose proof (lexes_query t a A GA). pose proof (lexes_query t b B GB). congruence. Qed.
(** The token before any more input: the rest of the text does not matter to it. *)
Theorem C81_one_token : forall t tok r pre l, lexeme t tok r -> dependable tok -> tok <> T_EOF ->
  at_text l (pre ++ t) (length pre) ->
  exists l', next_token l = Val (tok, l') /\ at_text l' (pre ++ t) (length (pre ++ t) - length r).
Proof.
  intros t tok r pre l H G NE A. apply at_text_st in A as ->. destruct (lexeme_next t tok r H G NE) as (a & -> & Na & C).
  exists (st ((pre ++ a) ++ r) (length (pre ++ a))). split; [apply C|].
  replace (length (pre ++ a ++ r) - length r) with (length (pre ++ a)) by (rewrite !app_length; lia). rewrite app_assoc. apply st_at_text.
Qed.
(** The whole grammar is not recognised: numbers with a leading 0, and one-sided wildcards. *)
Theorem C140_query_refuted : exists t toks, lexes t toks /\ lex_query t <> Val toks.
Proof.
  exists (chars "a=0"), [T_FIELD (chars "a"); T_ASSIGN; T_INT (chars "0"); T_EOF]. split; [|vm_compute; discriminate].
  eapply Q_token; [|discriminate|eapply Q_token; [|discriminate|eapply Q_token; [|discriminate|eapply Q_end]]].
  - change (chars "a=0") with (chars "a" ++ chars "=0"). apply L_word.
    + exists (ch "a"), []. split; [reflexivity|]. vm_compute. intuition discriminate.
    + repeat constructor; vm_compute; intuition discriminate.
    + intros (c & r & E & [L|L]); injection E as <- _; vm_compute in L; intuition discriminate.
    + apply WT_field; vm_compute; intuition discriminate.
  - change (chars "=0") with (ch "=" :: chars "0"). apply (L_symbol (ch "=") (fun _ => T_ASSIGN)). left. reflexivity.
  - rewrite <- (app_nil_r (chars "0")) at 1. apply L_int; [discriminate|repeat constructor; vm_compute; discriminate|].
    intros (c & r & E & _); discriminate.
  - apply L_end.
Qed.

Example C81_case : lexes (chars "x = 'a' ") [T_FIELD (chars "x"); T_ASSIGN; T_String (chars "a"); T_EOF] /\
  Forall dependable [T_FIELD (chars "x"); T_ASSIGN; T_String (chars "a"); T_EOF].
Proof.
  split; [|repeat constructor; vm_compute; intuition discriminate].
  eapply Q_token; [|discriminate|eapply Q_token; [|discriminate|eapply Q_token; [|discriminate|eapply Q_end]]].
  - change (chars "x = 'a' ") with (chars "x" ++ chars " = 'a' "). apply L_word.
    + exists (ch "x"), []. split; [reflexivity|]. vm_compute. intuition discriminate.
    + repeat constructor; vm_compute; intuition discriminate.
    + intros (c & r & E & [L|L]); injection E as <- _; vm_compute in L; intuition discriminate.
    + apply WT_field; vm_compute; intuition discriminate.
  - change (chars " = 'a' ") with (ch " " :: ch "=" :: chars " 'a' "). apply L_blank; [left; reflexivity|].
    apply (L_symbol (ch "=") (fun _ => T_ASSIGN)). left. reflexivity.
  - change (chars " 'a' ") with (ch " " :: ch "'" :: chars "a" ++ ch "'" :: chars " "). apply L_blank; [left; reflexivity|].
    apply L_literal. repeat constructor; discriminate.
  - apply L_blank; [left; reflexivity|]. apply L_end.
Qed.

(** * C82 Unterminated strings *)

(** A query that ends inside a string is accepted: the string token is returned and then EOF, never ILLEGAL. *)
Theorem C82_literal_refuted : forall b v, literal (ch "'") b v -> lex_query (ch "'" :: b) = Val [T_String v; T_EOF].
Proof.
  intros b v H. unfold lex_query, q_new. rewrite read_char_st. cbn [drive].
  pose proof (open_literal b v [] H) as E. cbn [app length] in E. rewrite E; clear E. cbn [obind app]. unfold next_token.
  change (q_input (st (ch "'" :: b) (S (S (length b))))) with (ch "'" :: b). rewrite past_next by (cbn [length]; lia). reflexivity.
Qed.
Theorem C82_string_refuted : forall b v, pieces b (plain v) -> ~ In (ch "*") v -> lex_query (ch """" :: b) = Val [T_String v; T_EOF].
Proof.
  intros b v H N. unfold lex_query, q_new. rewrite read_char_st. cbn [drive].
  pose proof (open_string b (plain v) [] H) as E. cbn [app length] in E. rewrite E; clear E. rewrite store_plain, token_plain by exact N. cbn [obind app]. unfold next_token.
  change (q_input (st (ch """" :: b) (S (S (length b))))) with (ch """" :: b). rewrite past_next by (cbn [length]; lia). reflexivity.
Qed.
Example C82_case : literal (ch "'") (chars "a b") (chars "a b") /\ lex_query (chars "'a b") = Val [T_String (chars "a b"); T_EOF].
Proof. split; [repeat constructor; discriminate|reflexivity]. Qed.

Print Assumptions C50_total.
Print Assumptions C50_skip_total.
Print Assumptions C50_progress.
Print Assumptions C50_terminates.
Print Assumptions C50_illegal_stays.
Print Assumptions C51_int.
Print Assumptions C51_word.
Print Assumptions C120_zero_refuted.
Print Assumptions C120_zero_query_refuted.
Print Assumptions C52_contains.
Print Assumptions C52_plain.
Print Assumptions C52_like.
Print Assumptions C121_trailing_refuted.
Print Assumptions C121_leading_refuted.
Print Assumptions C121_escape_refuted.
Print Assumptions C52_every.
Print Assumptions C121_escaped_refuted.
Print Assumptions C53_round_trip.
Print Assumptions C53_literal.
Print Assumptions C81_query.
Print Assumptions C81_unambiguous.
Print Assumptions C81_one_token.
Print Assumptions C140_query_refuted.
Print Assumptions C82_literal_refuted.
Print Assumptions C82_string_refuted.
