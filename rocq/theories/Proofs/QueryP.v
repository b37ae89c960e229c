(** Facts about the query lexer. *)
From Coq Require Import String Ascii NArith List Bool Arith Lia.
From Verif Require Import Base.Outcome Base.Arith Model.Query Spec.QuerySpec.
Import ListNotations.
Local Open Scope list_scope.

Definition st (i : list N) (p : nat) : qlexer := mkQL i p (S p) (nth p i (ch "0")).

Lemma read_char_st i p q c : q_read_char (mkQL i q p c) = st i p.
Proof.
  unfold q_read_char, st. cbn [q_input q_read_position]. f_equal. destruct (Nat.leb_spec (length i) p) as [H|H]; [|reflexivity].
  symmetry. apply nth_overflow. exact H.
Qed.
Lemma read_st i p : q_read_char (st i p) = st i (S p).
Proof. unfold st at 1. apply read_char_st. Qed.
Lemma st_ch pre l : q_ch (st (pre ++ l) (length pre)) = match l with c :: _ => c | [] => ch "0" end.
Proof. unfold st. cbn [q_ch]. rewrite app_nth2 by lia. rewrite Nat.sub_diag. destruct l; reflexivity. Qed.
Lemma st_in pre l : in_input (st (pre ++ l) (length pre)) = match l with [] => false | _ => true end.
Proof.
  unfold st, in_input. cbn [q_position q_input]. rewrite app_length. destruct l; cbn [length]; [apply Nat.ltb_ge|apply Nat.ltb_lt]; lia.
Qed.
Lemma shift1 {A} (pre : list A) c l : pre ++ c :: l = (pre ++ [c]) ++ l.
Proof. rewrite <- app_assoc. reflexivity. Qed.
Lemma len1 {A} (pre : list A) c : S (length pre) = length (pre ++ [c]).
Proof. rewrite app_length. cbn [length]. lia. Qed.

(** a text splits at any position *)
Lemma st_split (i : list N) p : p <= length i -> exists pre l : list N, i = pre ++ l /\ length pre = p.
Proof. intros H. exists (firstn p i), (skipn p i). rewrite firstn_skipn, firstn_length. split; [reflexivity|lia]. Qed.

(** ** Booleans against the specification *)
Lemma is_blank_iff c : is_blank c = true <-> blank c.
Proof.
  unfold is_blank, blank. rewrite !orb_true_iff, !N.eqb_eq. change (ch " ") with 32%N. cbn [In].
  firstorder congruence.
Qed.
Lemma is_digit_iff c : is_ascii_digit c = true <-> digit c.
Proof. unfold is_ascii_digit, digit. rewrite andb_true_iff, !N.leb_le. lia. Qed.
Lemma is_letter_iff c : is_letter c = true <-> letter c.
Proof.
  unfold is_letter, is_ascii_alphabetic, letter. rewrite !orb_true_iff, !andb_true_iff, !N.leb_le, !N.eqb_eq.
  change (ch "_") with 95%N. change (ch ".") with 46%N. lia.
Qed.
Lemma is_word_iff c : is_letter c || is_ascii_digit c = true <-> word_char c.
Proof. rewrite orb_true_iff, is_letter_iff, is_digit_iff. reflexivity. Qed.
Lemma chars_eqb_iff a : forall b, chars_eqb a b = true <-> a = b.
Proof.
  induction a as [|x a IH]; intros [|y b]; cbn [chars_eqb]; try (split; [discriminate|congruence]); [tauto|].
  rewrite andb_true_iff, N.eqb_eq, IH. split; [intros [-> ->]; reflexivity|intros E; injection E; auto].
Qed.
Lemma chars_eqb_spec a b : reflect (a = b) (chars_eqb a b).
Proof. apply iff_reflect. symmetry. apply chars_eqb_iff. Qed.

(** ** Skipping *)
Lemma skip_ok l : forall pre fuel, length l < fuel ->
  exists bs r, l = bs ++ r /\ Forall blank bs /\ ~ starts blank r /\
    q_skip_whitespace fuel (st (pre ++ l) (length pre)) = Val (st (pre ++ l) (length pre + length bs)).
Proof.
  induction l as [|c l IH]; intros pre [|fuel] H; cbn [length] in H; try lia; cbn [q_skip_whitespace]; rewrite st_ch.
  - exists [], []. splits; [reflexivity|constructor|intros (? & ? & X & _); discriminate|].
    change (is_blank (ch "0")) with false. cbn [length]. rewrite Nat.add_0_r. reflexivity.
  - destruct (is_blank c) eqn:B.
    + rewrite read_st, (len1 pre c), (shift1 pre c l).
      destruct (IH (pre ++ [c]) fuel ltac:(lia)) as (bs & r & E & Hb & Hr & E2).
      exists (c :: bs), r. splits; [cbn; congruence|constructor; [apply is_blank_iff; exact B|exact Hb]|exact Hr|].
      rewrite E2. do 2 f_equal. rewrite app_length. cbn [length]. lia.
    + exists [], (c :: l). splits; [reflexivity|constructor| |cbn [length]; rewrite Nat.add_0_r; reflexivity].
      intros (c' & r & E & X). injection E as -> ->. apply is_blank_iff in X. congruence.
Qed.
(** past the end *)
Lemma st_past i p : length i <= p -> q_ch (st i p) = ch "0".
Proof. intros H. apply nth_overflow. exact H. Qed.
Lemma past_next i p f : length i <= p -> q_next_token (S f) (st i p) = Val (T_EOF, st i (S p)).
Proof.
  intros H. unfold q_next_token. cbn [q_skip_whitespace]. rewrite (st_past i p H). change (is_blank (ch "0")) with false. cbn [obind].
  rewrite (st_past i p H). cbn. rewrite read_st. reflexivity.
Qed.

(** ** Runs *)
Definition maximal (P : N -> Prop) (l a b : list N) : Prop := l = a ++ b /\ Forall P a /\ ~ starts P b.

Lemma ident_loop_ok l : forall pre fuel, length l < fuel -> exists a b, maximal word_char l a b /\
  ident_loop fuel (st (pre ++ l) (length pre)) = Val (st (pre ++ l) (length pre + length a)).
Proof.
  induction l as [|c l IH]; intros pre [|fuel] H; cbn [length] in H; try lia; cbn [ident_loop]; rewrite st_in, st_ch.
  - exists [], []. split; [unfold maximal; splits; [reflexivity|constructor|intros (? & ? & X & _); discriminate]|]. cbn [length]. rewrite Nat.add_0_r. reflexivity.
  - cbn [andb]. destruct (is_letter c || is_ascii_digit c) eqn:B.
    + rewrite read_st, (len1 pre c), (shift1 pre c l).
      destruct (IH (pre ++ [c]) fuel ltac:(lia)) as (a & b & (E & Ha & Hb) & E2).
      exists (c :: a), b. split; [unfold maximal; splits; [cbn; congruence|constructor; [apply is_word_iff; exact B|exact Ha]|exact Hb]|].
      rewrite E2. do 2 f_equal. rewrite app_length. cbn [length]. lia.
    + exists [], (c :: l). split; [unfold maximal; splits; [reflexivity|constructor|]|cbn [length]; rewrite Nat.add_0_r; reflexivity].
      intros (c' & r & E & X). injection E as -> ->. apply is_word_iff in X. congruence.
Qed.
Lemma number_loop_ok l : forall pre fuel, length l < fuel -> exists a b, maximal digit l a b /\
  number_loop fuel (st (pre ++ l) (length pre)) = Val (st (pre ++ l) (length pre + length a)).
Proof.
  induction l as [|c l IH]; intros pre [|fuel] H; cbn [length] in H; try lia; cbn [number_loop]; rewrite st_in, st_ch.
  - exists [], []. split; [unfold maximal; splits; [reflexivity|constructor|intros (? & ? & X & _); discriminate]|]. cbn [length]. rewrite Nat.add_0_r. reflexivity.
  - cbn [andb]. destruct (is_ascii_digit c) eqn:B.
    + rewrite read_st, (len1 pre c), (shift1 pre c l).
      destruct (IH (pre ++ [c]) fuel ltac:(lia)) as (a & b & (E & Ha & Hb) & E2).
      exists (c :: a), b. split; [unfold maximal; splits; [cbn; congruence|constructor; [apply is_digit_iff; exact B|exact Ha]|exact Hb]|].
      rewrite E2. do 2 f_equal. rewrite app_length. cbn [length]. lia.
    + exists [], (c :: l). split; [unfold maximal; splits; [reflexivity|constructor|]|cbn [length]; rewrite Nat.add_0_r; reflexivity].
      intros (c' & r & E & X). injection E as -> ->. apply is_digit_iff in X. congruence.
Qed.
Lemma maximal_unique P l a b a' b' : maximal P l a b -> maximal P l a' b' -> a = a' /\ b = b'.
Proof.
  intros (E & Ha & Hb) (E' & Ha' & Hb'). rewrite E in E'. clear E. revert a' E' Ha'.
  induction a as [|x a IH]; intros [|y a'] E Ha'; cbn [app] in E.
  - auto.
  - exfalso. apply Hb. exists y, (a' ++ b'). inversion Ha'; auto.
  - exfalso. apply Hb'. exists x, (a ++ b). inversion Ha; auto.
  - injection E as -> E. inversion Ha as [|? ? ? A2]; inversion Ha' as [|? ? ? A3]; subst.
    destruct (IH A2 a' E A3) as [-> ->]. auto.
Qed.
Lemma slice_mid pre a b : slice (pre ++ a ++ b) (length pre) (length pre + length a) = Val a.
Proof.
  unfold slice. assert (Nat.leb (length pre) (length pre + length a) && Nat.leb (length pre + length a) (length (pre ++ a ++ b)) = true) as ->.
  { rewrite !app_length. apply andb_true_iff; split; apply Nat.leb_le; lia. }
  f_equal. replace (length pre + length a - length pre) with (length a) by lia.
  rewrite skipn_app, skipn_all, Nat.sub_diag. cbn [skipn app]. rewrite firstn_app, firstn_all, Nat.sub_diag. cbn [firstn].
  apply app_nil_r.
Qed.
Lemma read_identifier_ok l pre fuel : length l < fuel -> exists a b, maximal word_char l a b /\
  read_identifier fuel (st (pre ++ l) (length pre)) = Val (a, st (pre ++ l) (length pre + length a)).
Proof.
  intros H. destruct (ident_loop_ok l pre fuel H) as (a & b & M & E). exists a, b. split; [exact M|].
  unfold read_identifier. rewrite E. cbn [obind]. destruct M as (-> & _ & _).
  unfold st at 1 2 3. cbn [q_input q_position]. rewrite slice_mid. reflexivity.
Qed.
Lemma read_number_ok l pre fuel : length l < fuel -> exists a b, maximal digit l a b /\
  read_number fuel (st (pre ++ l) (length pre)) = Val (a, st (pre ++ l) (length pre + length a)).
Proof.
  intros H. destruct (number_loop_ok l pre fuel H) as (a & b & M & E). exists a, b. split; [exact M|].
  unfold read_number. rewrite E. cbn [obind]. destruct M as (-> & _ & _).
  unfold st at 1 2 3. cbn [q_input q_position]. rewrite slice_mid. reflexivity.
Qed.

(** ** Quoted loops: what is left when they stop *)
Lemma literal_loop_stops l : forall pre fuel e acc, length l < fuel -> exists a b v, l = a ++ b /\
  literal_loop fuel e acc (st (pre ++ l) (length pre)) = Val (v, st (pre ++ l) (length pre + length a)).
Proof.
  induction l as [|c l IH]; intros pre [|fuel] e acc H; cbn [length] in H; try lia; cbn [literal_loop]; rewrite st_in, st_ch.
  - exists [], [], acc. rewrite andb_false_r. cbn [length]. rewrite Nat.add_0_r. auto.
  - rewrite andb_true_r. destruct (e || negb (N.eqb c (ch "'"))).
    + rewrite read_st, (len1 pre c), (shift1 pre c l).
      destruct (N.eqb c (ch "\"));
      (edestruct (IH (pre ++ [c]) fuel) as (a & b & v & E & E2); [lia|]; exists (c :: a), b, v; split; [cbn; congruence|]; rewrite E2;
       do 3 f_equal; rewrite app_length; cbn [length]; lia).
    + exists [], (c :: l), acc. cbn [length]. rewrite Nat.add_0_r. auto.
Qed.
Lemma string_loop_stops l : forall pre fuel e acc, length l < fuel -> exists a b v, l = a ++ b /\
  string_loop fuel e acc (st (pre ++ l) (length pre)) = Val (v, st (pre ++ l) (length pre + length a)).
Proof.
  induction l as [|c l IH]; intros pre [|fuel] e acc H; cbn [length] in H; try lia; cbn [string_loop]; rewrite st_in, st_ch.
  - exists [], [], acc. rewrite andb_false_r. cbn [length]. rewrite Nat.add_0_r. auto.
  - rewrite andb_true_r. destruct (e || negb (N.eqb c (ch """"))).
    + rewrite read_st, (len1 pre c), (shift1 pre c l).
      destruct (N.eqb c (ch "\"));
      (edestruct (IH (pre ++ [c]) fuel) as (a & b & v & E & E2); [lia|]; exists (c :: a), b, v; split; [cbn; congruence|]; rewrite E2;
       do 3 f_equal; rewrite app_length; cbn [length]; lia).
    + exists [], (c :: l), acc. cbn [length]. rewrite Nat.add_0_r. auto.
Qed.

(** ** One call, from any position *)
Definition final (t : token) : Prop := t = T_EOF \/ t = T_ILLEGAL.

Lemma next_in pre l fuel : length l < fuel -> exists t p,
  q_next_token fuel (st (pre ++ l) (length pre)) = Val (t, st (pre ++ l) p) /\
  length pre <= p <= S (length (pre ++ l)) /\
  (t <> T_ILLEGAL -> length pre < p).
Proof.
  intros F. destruct (skip_ok l pre fuel F) as (bs & r & -> & Hb & Hr & E).
  unfold q_next_token. rewrite E. cbn [obind]. clear E.
  assert (F2 : length r < fuel) by (rewrite app_length in F; lia).
  rewrite app_assoc. replace (length pre + length bs) with (length (pre ++ bs)) by apply app_length.
  assert (HL : length (pre ++ bs) >= length pre) by (rewrite app_length; lia).
  set (pre' := pre ++ bs) in *. clearbody pre'. clear Hb Hr F. rewrite st_ch. rewrite !read_st.
  destruct (single_token _) as [t|] eqn:S1.
  { exists t, (S (length pre')). splits; try lia; [reflexivity|]. rewrite app_length. lia. }
  destruct (N.eqb_spec (match r with [] => ch "0" | c :: _ => c end) (ch "0")) as [Z|Z].
  { exists T_EOF, (S (length pre')). splits; try lia; [reflexivity|]. rewrite app_length. lia. }
  destruct r as [|c r]; [congruence|]. cbn [length] in F2.
  destruct (N.eqb c (ch "'")).
  { rewrite (len1 pre' c), shift1. destruct (literal_loop_stops r (pre' ++ [c]) fuel false []) as (a & b & v & -> & E); [lia|].
    rewrite E. cbn [obind]. rewrite read_st. eexists _, _. split; [reflexivity|]. rewrite !app_length; cbn [length]. lia. }
  destruct (N.eqb c (ch """")).
  { rewrite (len1 pre' c), shift1. destruct (string_loop_stops r (pre' ++ [c]) fuel false []) as (a & b & v & -> & E); [lia|].
    rewrite E. cbn [obind]. rewrite read_st. eexists _, _. split; [reflexivity|]. rewrite !app_length; cbn [length]. lia. }
  destruct (is_letter c) eqn:L.
  { destruct (read_identifier_ok (c :: r) pre' fuel) as (a & b & (M & Ha & Hb) & E); [cbn [length]; lia|]. rewrite E. cbn [obind].
    assert (a <> []). { intros ->. cbn [app] in M. subst b. apply Hb. exists c, r. split; [reflexivity|]. left. apply is_letter_iff. exact L. }
    assert (0 < length a) by (destruct a; [congruence|cbn [length]; lia]).
    assert (length pre' + length a <= length (pre' ++ c :: r)) by (rewrite M, !app_length; lia).
    destruct (get_keyword_token a); eexists _, _; (split; [reflexivity|]; lia). }
  destruct (is_ascii_digit c) eqn:D.
  { destruct (read_number_ok (c :: r) pre' fuel) as (a & b & (M & Ha & Hb) & E); [cbn [length]; lia|]. rewrite E. cbn [obind].
    assert (a <> []). { intros ->. cbn [app] in M. subst b. apply Hb. exists c, r. split; [reflexivity|]. apply is_digit_iff. exact D. }
    assert (0 < length a) by (destruct a; [congruence|cbn [length]; lia]).
    assert (length pre' + length a <= length (pre' ++ c :: r)) by (rewrite M, !app_length; lia).
    eexists _, _; (split; [reflexivity|]; lia). }
  exists T_ILLEGAL, (length pre'). splits; try lia; [reflexivity|rewrite app_length; lia|congruence].
Qed.
Lemma next_st i p : exists t p', next_token (st i p) = Val (t, st i p') /\ p <= p' /\
  (t <> T_ILLEGAL -> p < p') /\ (p < length i -> p' <= S (length i)) /\ (length i <= p -> t = T_EOF /\ p' = S p).
Proof.
  unfold next_token. change (q_input (st i p)) with i. destruct (Nat.lt_ge_cases p (length i)) as [H|H].
  - destruct (st_split i p) as (pre & l & -> & <-); [lia|].
    destruct (next_in pre l (S (length (pre ++ l)))) as (t & p' & E & B & Pr); [rewrite app_length; lia|].
    exists t, p'. splits; [exact E|lia|exact Pr|lia|lia].
  - exists T_EOF, (S p). rewrite (past_next i p (length i) H). splits; auto; lia.
Qed.
Lemma next_new i : next_token (q_new i) = Val (T_EOF, st i 0).
Proof. unfold next_token, q_next_token, q_new. cbn [q_input q_skip_whitespace q_ch].
  change (is_blank (ch "0")) with false. cbn [obind q_ch]. change (single_token (ch "0")) with (@None token).
  change (N.eqb (ch "0") (ch "0")) with true. cbn iota. rewrite read_char_st. reflexivity. Qed.
Lemma skip_st i p : exists p', skip_whitespace (st i p) = Val (st i p') /\ p <= p'.
Proof.
  unfold skip_whitespace. change (q_input (st i p)) with i. destruct (Nat.lt_ge_cases p (length i)) as [H|H].
  - destruct (st_split i p) as (pre & l & -> & <-); [lia|].
    destruct (skip_ok l pre (S (length (pre ++ l)))) as (bs & r & _ & _ & _ & E); [rewrite app_length; lia|].
    exists (length pre + length bs). split; [exact E|lia].
  - exists p. cbn [q_skip_whitespace]. rewrite (st_past i p H). change (is_blank (ch "0")) with false. auto.
Qed.
Lemma skip_new i : skip_whitespace (q_new i) = Val (q_new i).
Proof. reflexivity. Qed.

Lemma reachable_st i l : reachable i l -> l = q_new i \/ exists p, l = st i p.
Proof.
  induction 1 as [|l H [->|[p ->]]|l l' H [->|[p ->]] E|l t l' H [->|[p ->]] E].
  - auto.
  - right. exists 0. apply read_char_st.
  - right. exists (S p). apply read_st.
  - left. rewrite skip_new in E. congruence.
  - right. destruct (skip_st i p) as (p' & E' & _). exists p'. congruence.
  - right. exists 0. rewrite next_new in E. congruence.
  - right. destruct (next_st i p) as (t' & p' & E' & _). exists p'. congruence.
Qed.

(** ** Driving the lexer *)
Lemma drive_total i : forall fuel p acc, p <= S (length i) -> S (length i) - p < fuel ->
  exists toks t, drive fuel (st i p) acc = Val (acc ++ toks ++ [t]) /\ final t /\ Forall (fun x => ~ final x) toks.
Proof.
  induction fuel as [|fuel IH]; intros p acc B F; [lia|]. cbn [drive].
  destruct (next_st i p) as (t & p' & E & Le & Pr & Up & Pa). rewrite E. cbn [obind].
  assert (D : final t \/ ~ final t) by (unfold final; destruct t; (left; left; reflexivity) || (left; right; reflexivity) || (right; intros [X|X]; discriminate)).
  destruct D as [D|D].
  - exists [], t. cbn [app]. splits; [|exact D|constructor]. destruct D as [->| ->]; reflexivity.
  - assert (H1 : p < p') by (apply Pr; intros ->; apply D; right; reflexivity).
    assert (H2 : p < length i). { destruct (Nat.lt_ge_cases p (length i)) as [H|H]; [exact H|]. destruct (Pa H) as [-> _]. exfalso. apply D. left; reflexivity. }
    destruct (IH p' (acc ++ [t])) as (toks & t' & E2 & Ft & Fo); [apply Up; exact H2|lia|].
    exists (t :: toks), t'. splits; [|exact Ft|constructor; assumption].
    replace (acc ++ (t :: toks) ++ [t']) with ((acc ++ [t]) ++ toks ++ [t']) by (rewrite <- app_assoc; reflexivity).
    rewrite <- E2. destruct t; try reflexivity; exfalso; apply D; ((left; reflexivity) || (right; reflexivity)).
Qed.
