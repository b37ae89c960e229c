(** The query lexer against the lexical grammar. *)
From Coq Require Import String Ascii NArith List Bool Arith Lia.
From Verif Require Import Base.Outcome Base.Arith Model.Query Spec.QuerySpec Proofs.QueryP.
Import ListNotations.
Local Open Scope list_scope.

Lemma skip_to bs : forall pre t fuel, Forall blank bs -> ~ starts blank t -> length bs < fuel ->
  q_skip_whitespace fuel (st (pre ++ bs ++ t) (length pre)) = Val (st ((pre ++ bs) ++ t) (length (pre ++ bs))).
Proof.
  induction bs as [|c bs IH]; intros pre t [|fuel] Hb Ht F; cbn [length] in F; try lia; cbn [q_skip_whitespace]; rewrite st_ch.
  - cbn [app]. rewrite app_nil_r. destruct t as [|c t]; [reflexivity|]. destruct (is_blank c) eqn:B; [|reflexivity].
    exfalso. apply Ht. exists c, t. split; [reflexivity|]. apply is_blank_iff. exact B.
  - cbn [app]. inversion Hb as [|? ? B Hb']; subst. apply is_blank_iff in B. rewrite B, read_st, (len1 pre c).
    rewrite (shift1 pre c (bs ++ t)), IH by (assumption || lia). rewrite <- (shift1 pre c bs). reflexivity.
Qed.

(** The part of a call after the white space. *)
Definition core (fuel : nat) (l : qlexer) : outcome (token * qlexer) :=
  match single_token (q_ch l) with
  | Some t => Val (t, q_read_char l)
  | None =>
      if N.eqb (q_ch l) (ch "0") then Val (T_EOF, q_read_char l)
      else if N.eqb (q_ch l) (ch "'") then
        let! (data, l) := literal_loop fuel false [] (q_read_char l) in
        Val (T_String data, q_read_char l)
      else if N.eqb (q_ch l) (ch """") then
        let! (data, l) := string_loop fuel false [] (q_read_char l) in
        Val (string_token data, q_read_char l)
      else if is_letter (q_ch l) then
        let! (ident, l) := read_identifier fuel l in
        match get_keyword_token ident with
        | Ok t => Val (t, l)
        | Err _ => Val (T_FIELD ident, l)
        end
      else if is_ascii_digit (q_ch l) then
        let! (ident, l) := read_number fuel l in
        Val (T_INT ident, l)
      else Val (T_ILLEGAL, l)
  end.
Lemma next_core fuel l : q_next_token fuel l = let! l := q_skip_whitespace fuel l in core fuel l.
Proof. reflexivity. Qed.

(** ** Quoted strings *)
Lemma literal_exact b v r : literal (ch "'") b v -> (r = [] \/ exists r', r = ch "'" :: r') -> forall pre fuel acc, length b < fuel ->
  literal_loop fuel false acc (st (pre ++ b ++ r) (length pre)) =
  Val (acc ++ v, st ((pre ++ b) ++ r) (length (pre ++ b))).
Proof.
  induction 1 as [|c b v N1 N2 H IH|c b v H IH]; intros R pre [|fuel] acc F; cbn [length] in F; try lia; cbn [literal_loop];
    rewrite st_in, st_ch; cbn [app].
  - assert (match r with [] => false | _ => true end = false \/ r <> []) as [Z|Z] by (destruct R as [->|[r' ->]]; [left; reflexivity|right; discriminate]).
    { rewrite Z, andb_false_r. rewrite !app_nil_r; reflexivity. } destruct R as [->|[r' ->]]; [congruence|].
    change (N.eqb (ch "'") (ch "'")) with true. cbn [orb negb andb]. rewrite !app_nil_r. reflexivity.
  - apply N.eqb_neq in N1. apply N.eqb_neq in N2. rewrite N1, N2. cbn [orb negb andb].
    rewrite read_st, (len1 pre c). rewrite (shift1 pre c (b ++ r)), IH by (exact R || lia).
    rewrite <- (shift1 pre c b), <- app_assoc. reflexivity.
  - change (N.eqb (ch "\") (ch "'")) with false. change (N.eqb (ch "\") (ch "\")) with true. cbn [orb negb andb].
    rewrite read_st, (len1 pre (ch "\")). rewrite (shift1 pre (ch "\") (c :: b ++ r)).
    destruct fuel as [|fuel]; [lia|]. cbn [literal_loop]. rewrite st_in, st_ch. cbn [orb andb].
    replace (pre ++ ch "\" :: c :: b) with ((pre ++ [ch "\"]) ++ c :: b) by (rewrite <- app_assoc; reflexivity).
    set (p2 := pre ++ [ch "\"]). clearbody p2. rewrite read_st, (len1 p2 c), (shift1 p2 c (b ++ r)), (shift1 p2 c b).
    replace (acc ++ escaped c :: v) with ((acc ++ [escaped c]) ++ v) by (rewrite <- app_assoc; reflexivity).
    destruct (N.eqb_spec c (ch "\")) as [->|N].
    + rewrite IH by (exact R || lia). reflexivity.
    + rewrite IH by (exact R || lia). do 3 f_equal. unfold transform_escape_char, escaped.
      repeat match goal with |- context [N.eqb c ?k] => destruct (N.eqb_spec c k) as [->|?] end; reflexivity.
Qed.

(** How the lexer stores the pieces of a double-quoted string *)
Definition stored (p : piece) : list N :=
  match p with PChar c => if N.eqb c (ch "*") then [ch "\"; ch "*"] else [c] | PStar => [ch "*"] end.
Definition store (ps : list piece) : list N := flat_map stored ps.

Lemma string_exact b ps r : pieces b ps -> (r = [] \/ exists r', r = ch """" :: r') -> forall pre fuel acc, length b < fuel ->
  string_loop fuel false acc (st (pre ++ b ++ r) (length pre)) =
  Val (acc ++ store ps, st ((pre ++ b) ++ r) (length (pre ++ b))).
Proof.
  induction 1 as [|b ps H IH|c b ps N1 N2 N3 H IH|c b ps H IH]; intros R pre [|fuel] acc F; cbn [length] in F; try lia; cbn [string_loop];
    rewrite st_in, st_ch; cbn [app].
  - assert (match r with [] => false | _ => true end = false \/ r <> []) as [Z|Z] by (destruct R as [->|[r' ->]]; [left; reflexivity|right; discriminate]).
    { rewrite Z, andb_false_r. unfold store; cbn [flat_map]; rewrite !app_nil_r; reflexivity. } destruct R as [->|[r' ->]]; [congruence|].
    change (N.eqb (ch """") (ch """")) with true. cbn [orb negb andb]. unfold store. cbn [flat_map]. rewrite !app_nil_r. reflexivity.
  - change (N.eqb (ch "*") (ch """")) with false. change (N.eqb (ch "*") (ch "\")) with false. cbn [orb negb andb].
    rewrite read_st, (len1 pre (ch "*")). rewrite (shift1 pre (ch "*") (b ++ r)), IH by (exact R || lia).
    rewrite <- (shift1 pre (ch "*") b). unfold store. cbn [flat_map stored]. rewrite <- app_assoc. reflexivity.
  - unfold store. cbn [flat_map stored]. fold (store ps). apply N.eqb_neq in N1. apply N.eqb_neq in N2. apply N.eqb_neq in N3. rewrite N1, N2, N3. cbn [orb negb andb].
    rewrite read_st, (len1 pre c). rewrite (shift1 pre c (b ++ r)), IH by (exact R || lia).
    rewrite <- (shift1 pre c b), <- app_assoc. reflexivity.
  - unfold store. cbn [flat_map stored]. fold (store ps).
    change (N.eqb (ch "\") (ch """")) with false. change (N.eqb (ch "\") (ch "\")) with true. cbn [orb negb andb].
    rewrite read_st, (len1 pre (ch "\")). rewrite (shift1 pre (ch "\") (c :: b ++ r)).
    destruct fuel as [|fuel]; [lia|]. cbn [string_loop]. rewrite st_in, st_ch. cbn [orb andb].
    replace (pre ++ ch "\" :: c :: b) with ((pre ++ [ch "\"]) ++ c :: b) by (rewrite <- app_assoc; reflexivity).
    set (p2 := pre ++ [ch "\"]). clearbody p2. rewrite read_st, (len1 p2 c), (shift1 p2 c (b ++ r)), (shift1 p2 c b).
    rewrite (app_assoc acc).
    destruct (N.eqb_spec c (ch "\")) as [->|N].
    + rewrite IH by (exact R || lia). reflexivity.
    + rewrite IH by (exact R || lia). do 3 f_equal. unfold transform_escape_char, escaped.
      repeat match goal with |- context [if N.eqb c ?k then _ else _] => destruct (N.eqb_spec c k) as [->|?]; try reflexivity end.
Qed.

(** ** Wildcards *)
Lemma count_loop_le l : forall x n, n <= count_loop l x n <= n + count_occ N.eq_dec l (ch "*").
Proof.
  induction l as [|c l IH]; intros x n; cbn [count_loop count_occ]; [lia|].
  destruct (N.eq_dec c (ch "*")) as [->|N].
  - change (N.eqb (ch "*") (ch "*")) with true. cbn [andb]. destruct (negb _); [specialize (IH (ch "*") (S n))|specialize (IH (ch "*") n)]; lia.
  - apply N.eqb_neq in N. rewrite N. cbn [andb]. apply IH.
Qed.
Lemma count_none l : ~ In (ch "*") l -> count_asterix l = 0.
Proof. intros H. apply (count_occ_not_In N.eq_dec) in H. pose proof (count_loop_le l 0%N 0). unfold count_asterix. lia. Qed.
Lemma count_unescaped l : ~ In (ch "\") l -> forall x n, x <> ch "\" -> count_loop l x n = n + count_occ N.eq_dec l (ch "*").
Proof.
  induction l as [|c l IH]; intros H x n Hx; cbn [count_loop count_occ]; [lia|].
  rewrite IH; [|intros X; apply H; right; exact X|intros ->; apply H; left; reflexivity].
  apply N.eqb_neq in Hx. rewrite Hx, andb_true_r. destruct (N.eq_dec c (ch "*")) as [->|N].
  - change (N.eqb (ch "*") (ch "*")) with true. cbn iota. lia.
  - apply N.eqb_neq in N. rewrite N. lia.
Qed.
Lemma drop_none v : ~ In (ch "*") v -> drop_stars v = v.
Proof.
  induction v as [|c v IH]; intros H; [reflexivity|]. unfold drop_stars in *. cbn [filter].
  destruct (N.eqb_spec c (ch "*")) as [->|N]; [exfalso; apply H; left; reflexivity|]. cbn [negb]. f_equal. apply IH. intros X; apply H; right; exact X.
Qed.
Lemma drop_app a b : drop_stars (a ++ b) = drop_stars a ++ drop_stars b.
Proof. apply filter_app. Qed.
Lemma store_plain v : ~ In (ch "*") v -> store (plain v) = v.
Proof.
  induction v as [|c v IH]; intros H; [reflexivity|]. unfold store, plain in *. cbn [map flat_map stored].
  destruct (N.eqb_spec c (ch "*")) as [->|N]; [exfalso; apply H; left; reflexivity|]. cbn [app]. f_equal. apply IH. intros X; apply H; right; exact X.
Qed.
Lemma store_app a b : store (a ++ b) = store a ++ store b.
Proof. apply flat_map_app. Qed.
Lemma nth_last_not v d k : ~ In k v -> v <> [] -> N.eqb (nth (length v - 1) v d) k = false.
Proof.
  intros H N. apply N.eqb_neq. intros E. apply H. rewrite <- E. apply nth_In. destruct v; [congruence|cbn [length]; lia].
Qed.
Lemma nth_first_not v d k : ~ In k v -> v <> [] -> N.eqb (nth 0 v d) k = false.
Proof. intros H N. apply N.eqb_neq. intros E. apply H. rewrite <- E. apply nth_In. destruct v; [congruence|cbn [length]; lia]. Qed.

Lemma token_plain v : ~ In (ch "*") v -> string_token v = T_String v.
Proof.
  intros H. unfold string_token. destruct (Nat.ltb_spec 1 (length v)) as [L|L]; [|reflexivity].
  assert (v <> []) by (intros ->; cbn [length] in L; lia).
  cbn zeta. rewrite count_none by exact H. cbn [Nat.ltb Nat.leb]. rewrite nth_first_not, nth_last_not by assumption. reflexivity.
Qed.
Lemma nth_snoc {A} (v : list A) x d : nth (length (v ++ [x]) - 1) (v ++ [x]) d = x.
Proof. rewrite app_length. cbn [length]. replace (length v + 1 - 1) with (length v) by lia. rewrite app_nth2, Nat.sub_diag by lia. reflexivity. Qed.
Lemma occ_none v : ~ In (ch "*") v -> count_occ N.eq_dec v (ch "*") = 0.
Proof. apply count_occ_not_In. Qed.
Lemma token_both v : ~ In (ch "*") v -> string_token (ch "*" :: v ++ [ch "*"]) = T_Contains v.
Proof.
  intros H. unfold string_token.
  assert (Nat.ltb 1 (length (ch "*" :: v ++ [ch "*"])) = true) as ->. { apply Nat.ltb_lt. cbn [length]. rewrite app_length. cbn [length]. lia. }
  cbn zeta. assert (Nat.ltb 2 (count_asterix (ch "*" :: v ++ [ch "*"])) = false) as ->.
  { apply Nat.ltb_ge. pose proof (count_loop_le (ch "*" :: v ++ [ch "*"]) 0%N 0) as B. unfold count_asterix.
    cbn [count_occ] in B. rewrite count_occ_app, occ_none in B by exact H. cbn [count_occ] in B.
    destruct (N.eq_dec (ch "*") (ch "*")); [|congruence]. lia. }
  change (nth 0 (ch "*" :: v ++ [ch "*"]) 0%N) with (ch "*"). change (N.eqb (ch "*") (ch "*")) with true.
  change (ch "*" :: v ++ [ch "*"]) with ((ch "*" :: v) ++ [ch "*"]). rewrite nth_snoc. change (N.eqb (ch "*") (ch "*")) with true. cbn [andb]. f_equal.
  rewrite drop_app. change (drop_stars [ch "*"]) with (@nil BinNums.N). rewrite app_nil_r. change (ch "*" :: v) with ([ch "*"] ++ v).
  rewrite drop_app. change (drop_stars [ch "*"]) with (@nil BinNums.N). cbn [app]. apply drop_none. exact H.
Qed.
Lemma token_leading v : ~ In (ch "*") v -> v <> [] -> string_token (ch "*" :: v) = T_StartsWith v.
Proof.
  intros H N. unfold string_token.
  assert (Nat.ltb 1 (length (ch "*" :: v)) = true) as ->. { apply Nat.ltb_lt. destruct v; [congruence|]. cbn [length]. lia. }
  cbn zeta. assert (Nat.ltb 2 (count_asterix (ch "*" :: v)) = false) as ->.
  { apply Nat.ltb_ge. pose proof (count_loop_le (ch "*" :: v) 0%N 0) as B. unfold count_asterix.
    cbn [count_occ] in B. rewrite occ_none in B by exact H.
    destruct (N.eq_dec (ch "*") (ch "*")); [|congruence]. lia. }
  change (nth 0 (ch "*" :: v) 0%N) with (ch "*"). change (N.eqb (ch "*") (ch "*")) with true. cbn [length]. replace (S (length v) - 1) with (S (length v - 1)) by (destruct v; [congruence|cbn [length]; lia]).
  cbn [nth]. rewrite nth_last_not by assumption. cbn [andb]. f_equal. change (ch "*" :: v) with ([ch "*"] ++ v).
  rewrite drop_app. change (drop_stars [ch "*"]) with (@nil BinNums.N). cbn [app]. apply drop_none. exact H.
Qed.
Lemma token_trailing v : ~ In (ch "*") v -> v <> [] -> string_token (v ++ [ch "*"]) = T_EndsWith v.
Proof.
  intros H N. unfold string_token.
  assert (Nat.ltb 1 (length (v ++ [ch "*"])) = true) as ->. { apply Nat.ltb_lt. rewrite app_length. destruct v; [congruence|]. cbn [length]. lia. }
  cbn zeta. assert (Nat.ltb 2 (count_asterix (v ++ [ch "*"])) = false) as ->.
  { apply Nat.ltb_ge. pose proof (count_loop_le (v ++ [ch "*"]) 0%N 0) as B. unfold count_asterix.
    rewrite count_occ_app, occ_none in B by exact H. cbn [count_occ] in B.
    destruct (N.eq_dec (ch "*") (ch "*")); [|congruence]. lia. }
  rewrite nth_snoc. change (N.eqb (ch "*") (ch "*")) with true. rewrite app_nth1 by (destruct v; [congruence|cbn [length]; lia]).
  rewrite nth_first_not by assumption. cbn [andb]. f_equal.
  rewrite drop_app. change (drop_stars [ch "*"]) with (@nil BinNums.N). rewrite app_nil_r. apply drop_none. exact H.
Qed.

(** ** Words *)
Lemma is_function_iff w : is_function w = true <-> In w functions.
Proof.
  unfold is_function. rewrite existsb_exists. unfold functions. split.
  - intros (f & I & E). apply chars_eqb_iff in E. subst w. cbn [In] in I |- *.
    repeat (destruct I as [<-|I]; [tauto|]). destruct I.
  - intros I. cbn [In] in I. repeat (destruct I as [<-|I]; [eexists; split; [|apply chars_eqb_iff; reflexivity]; cbn [In]; tauto|]). destruct I.
Qed.
Lemma keyword_ok w tok : word_token w tok <-> (match get_keyword_token w with Ok t => t | Err _ => T_FIELD w end) = tok.
Proof.
  unfold get_keyword_token.
  assert (A : forall k t, In (k, t) keywords -> w = k -> forall tok', word_token w tok' -> tok' = t).
  { intros k t I -> tok' [t' I'|I'|I' _].
    - cbn [In keywords] in I, I'. repeat (destruct I as [E|I]; [|]); try contradiction; inversion E; subst;
      repeat (destruct I' as [E'|I']; [|]); try contradiction; (congruence || (inversion E'; reflexivity)) .
    - exfalso. revert I'. cbn [In keywords] in I. repeat (destruct I as [E|I]; [injection E as <- <-|]); try contradiction; vm_compute; intuition discriminate.
    - exfalso. apply I'. apply (in_map fst) in I. exact I. }
  repeat match goal with |- context [chars_eqb w (chars ?k)] => destruct (chars_eqb_spec w (chars k)) as [->|?];
     [split; [intros H; symmetry; eapply A; [|reflexivity|exact H]; cbn [In keywords]; tauto|intros <-; apply WT_keyword; cbn [In keywords]; tauto]|] end.
  assert (K : ~ In w (map fst keywords)). { cbn [map fst keywords In]. intuition congruence. }
  destruct (is_function w) eqn:F.
  - apply is_function_iff in F. split; [|intros <-; apply WT_function; exact F].
    intros [t I|I|_ I]; [|reflexivity|contradiction]. exfalso. apply K. apply (in_map fst) in I. exact I.
  - assert (F' : ~ In w functions) by (intros X; apply is_function_iff in X; congruence).
    split; [|intros <-; apply WT_field; assumption].
    intros [t I|I|_ I]; [|contradiction|reflexivity]. exfalso. apply K. apply (in_map fst) in I. exact I.
Qed.

(** ** Classes of first characters are disjoint *)
Lemma symbol_ok c f : In (c, f) symbols -> single_token c = Some (f c).
Proof.
  unfold symbols. cbn [In]. intros I. repeat (destruct I as [E|I]; [injection E as <- <-; reflexivity|]). destruct I.
Qed.
Lemma single_some c t : single_token c = Some t -> exists f, In (c, f) symbols /\ t = f c.
Proof.
  unfold single_token, symbols. cbn [In].
  repeat match goal with |- (if N.eqb c ?k then _ else _) = _ -> _ => destruct (N.eqb_spec c k) as [->|?]; [intros E; injection E as <-; eexists; split; [eauto 20|reflexivity]|] end.
  discriminate.
Qed.
Lemma letter_ranges c : letter c -> single_token c = None /\ c <> ch "0" /\ c <> ch "'" /\ c <> ch """" /\ ~ blank c.
Proof.
  intros H. unfold letter in H. splits; try (intros ->; vm_compute in H; intuition congruence).
  - destruct (single_token c) as [t|] eqn:E; [|reflexivity]. exfalso. apply single_some in E as (f & I & _).
    cbn [In symbols] in I. repeat (destruct I as [E|I]; [injection E as <- <-; vm_compute in H; intuition congruence|]). destruct I.
  - unfold blank. cbn [In]. lia.
Qed.
Lemma digit_ranges c : digit c -> single_token c = None /\ c <> ch "'" /\ c <> ch """" /\ is_letter c = false /\ ~ blank c.
Proof.
  intros H. unfold digit in H. splits; try (intros ->; vm_compute in H; intuition congruence).
  - destruct (single_token c) as [t|] eqn:E; [|reflexivity]. exfalso. apply single_some in E as (f & I & _).
    cbn [In symbols] in I. repeat (destruct I as [E|I]; [injection E as <- <-; vm_compute in H; intuition congruence|]). destruct I.
  - destruct (is_letter c) eqn:E; [|reflexivity]. apply is_letter_iff in E. unfold letter in E. lia.
  - unfold blank. cbn [In]. lia.
Qed.
Lemma symbol_not_blank c f : In (c, f) symbols -> ~ blank c.
Proof.
  unfold symbols, blank. cbn [In]. intros I B. repeat (destruct I as [E|I]; [injection E as <- <-; vm_compute in B; intuition congruence|]). destruct I.
Qed.

(** ** A lexeme, without its leading blanks *)
Lemma core_symbol c f r pre fuel : In (c, f) symbols ->
  core fuel (st (pre ++ c :: r) (length pre)) = Val (f c, st ((pre ++ [c]) ++ r) (length (pre ++ [c]))).
Proof. intros I. unfold core. rewrite st_ch, (symbol_ok c f I), read_st, (len1 pre c), (shift1 pre c r). reflexivity. Qed.
Lemma core_int ds r pre fuel : ds <> [] -> Forall digit ds -> ~ starts digit r -> ~ starts (eq (ch "0")) ds -> length (ds ++ r) < fuel ->
  core fuel (st (pre ++ ds ++ r) (length pre)) = Val (T_INT ds, st ((pre ++ ds) ++ r) (length (pre ++ ds))).
Proof.
  intros N D S Z F. destruct ds as [|c ds]; [congruence|]. inversion D as [|? ? Dc Ds]; subst.
  destruct (digit_ranges c Dc) as (R1 & R2 & R3 & R4 & _). unfold core. rewrite st_ch. cbn [app]. rewrite R1.
  destruct (N.eqb_spec c (ch "0")) as [->|_]; [exfalso; apply Z; exists (ch "0"), ds; auto|].
  apply N.eqb_neq in R2. apply N.eqb_neq in R3. rewrite R2, R3, R4. apply is_digit_iff in Dc as Dc'. rewrite Dc'.
  destruct (read_number_ok (c :: ds ++ r) pre fuel F) as (a & b & M & E).
  destruct (maximal_unique digit (c :: ds ++ r) a b (c :: ds) r M) as [-> ->]; [split; [reflexivity|split; assumption]|].
  rewrite E. cbn [obind]. rewrite <- app_assoc. rewrite (app_length pre (c :: ds)). reflexivity.
Qed.
Lemma core_word w tok r pre fuel : starts letter w -> Forall word_char w -> ~ starts word_char r -> word_token w tok -> length (w ++ r) < fuel ->
  core fuel (st (pre ++ w ++ r) (length pre)) = Val (tok, st ((pre ++ w) ++ r) (length (pre ++ w))).
Proof.
  intros (c & w' & -> & L) D S T F.
  destruct (letter_ranges c L) as (R1 & R0 & R2 & R3 & _). unfold core. rewrite st_ch. cbn [app]. rewrite R1.
  apply N.eqb_neq in R0. apply N.eqb_neq in R2. apply N.eqb_neq in R3. apply is_letter_iff in L as L'. rewrite R0, R2, R3, L'.
  destruct (read_identifier_ok (c :: w' ++ r) pre fuel F) as (a & b & M & E).
  destruct (maximal_unique word_char (c :: w' ++ r) a b (c :: w') r M) as [-> ->]; [split; [reflexivity|split; assumption]|].
  rewrite E. cbn [obind]. rewrite <- app_assoc. rewrite (app_length pre (c :: w')). apply keyword_ok in T. rewrite <- T.
  destruct (get_keyword_token (c :: w')); reflexivity.
Qed.
Lemma core_literal b v r pre fuel : literal (ch "'") b v -> length b < fuel ->
  core fuel (st (pre ++ (ch "'" :: b ++ [ch "'"]) ++ r) (length pre)) =
  Val (T_String v, st ((pre ++ ch "'" :: b ++ [ch "'"]) ++ r) (length (pre ++ ch "'" :: b ++ [ch "'"]))).
Proof.
  intros H F. unfold core. cbn [app]. rewrite st_ch. change (single_token (ch "'")) with (@None token).
  change (N.eqb (ch "'") (ch "0")) with false. change (N.eqb (ch "'") (ch "'")) with true. cbn iota.
  rewrite read_st, (len1 pre (ch "'")). rewrite <- app_assoc. cbn [app]. rewrite (shift1 pre (ch "'") (b ++ ch "'" :: r)).
  rewrite (literal_exact b v (ch "'" :: r) H) by (eauto || exact F). cbn [obind app]. rewrite read_st.
  rewrite (len1 ((pre ++ [ch "'"]) ++ b) (ch "'")). rewrite (shift1 ((pre ++ [ch "'"]) ++ b)).
  do 2 f_equal. repeat (rewrite <- app_assoc; cbn [app]). reflexivity.
Qed.
Lemma core_string b ps r pre fuel : pieces b ps -> length b < fuel ->
  core fuel (st (pre ++ (ch """" :: b ++ [ch """"]) ++ r) (length pre)) =
  Val (string_token (store ps), st ((pre ++ ch """" :: b ++ [ch """"]) ++ r) (length (pre ++ ch """" :: b ++ [ch """"]))).
Proof.
  intros H F. unfold core. cbn [app]. rewrite st_ch. change (single_token (ch """")) with (@None token).
  change (N.eqb (ch """") (ch "0")) with false. change (N.eqb (ch """") (ch "'")) with false. change (N.eqb (ch """") (ch """")) with true. cbn iota.
  rewrite read_st, (len1 pre (ch """")). rewrite <- app_assoc. cbn [app]. rewrite (shift1 pre (ch """") (b ++ ch """" :: r)).
  rewrite (string_exact b ps (ch """" :: r) H) by (eauto || exact F). cbn [obind app]. rewrite read_st.
  rewrite (len1 ((pre ++ [ch """"]) ++ b) (ch """")). rewrite (shift1 ((pre ++ [ch """"]) ++ b)).
  do 2 f_equal. repeat (rewrite <- app_assoc; cbn [app]). reflexivity.
Qed.

(** ** A call on a lexeme *)
Lemma lexeme_core t tok r : lexeme t tok r -> dependable tok -> tok <> T_EOF ->
  exists bs a, t = bs ++ a ++ r /\ Forall blank bs /\ a <> [] /\ ~ starts blank (a ++ r) /\
    forall pre fuel, length (a ++ r) < fuel ->
      core fuel (st (pre ++ a ++ r) (length pre)) = Val (tok, st ((pre ++ a) ++ r) (length (pre ++ a))).
Proof.
  induction 1 as [c t tok r B H IH| |c f r I|ds r Nd D S|w tok r L W S T|b v r H|b ps tok r H M]; intros G NE.
  - destruct (IH G NE) as (bs & a & -> & Hb & Na & St & C). exists (c :: bs), a. splits; auto.
  - congruence.
  - exists [], [c]. cbn [app]. splits; [reflexivity|constructor|discriminate| |].
    + intros (c' & r' & E & X). injection E as <- <-. exact (symbol_not_blank c f I X).
    + intros pre fuel _. apply core_symbol. exact I.
  - exists [], ds. cbn [app]. splits; [reflexivity|constructor|exact Nd| |].
    + intros (c' & r' & E & X). destruct ds as [|d ds]; [congruence|]. injection E as <- _. inversion D as [|? ? Dd ?]; subst.
      apply digit_ranges in Dd. tauto.
    + intros pre fuel F. apply core_int; assumption.
  - destruct L as (c & w' & -> & L). exists [], (c :: w'). splits; [reflexivity|constructor|discriminate| |].
    + intros (c' & r' & E & X). injection E as <- _. apply letter_ranges in L. tauto.
    + intros pre fuel F. apply core_word; try assumption. exists c, w'. auto.
  - exists [], (ch "'" :: b ++ [ch "'"]). splits; [cbn [app]; rewrite <- app_assoc; reflexivity|constructor|discriminate| |].
    + intros (c' & r' & E & X). injection E as <- _. vm_compute in X. intuition congruence.
    + intros pre fuel F. apply core_literal; [exact H|]. rewrite app_length in F. cbn [length] in F. rewrite app_length in F. lia.
  - exists [], (ch """" :: b ++ [ch """"]). splits; [cbn [app]; rewrite <- app_assoc; reflexivity|constructor|discriminate| |].
    + intros (c' & r' & E & X). injection E as <- _. vm_compute in X. intuition congruence.
    + intros pre fuel F. rewrite (core_string b ps r pre fuel H); [|rewrite app_length in F; cbn [length] in F; rewrite app_length in F; lia].
      do 2 f_equal. destruct M as [v|v|v|v]; cbn [dependable] in G; try contradiction.
      * rewrite store_plain by exact G. apply token_plain. exact G.
      * change (PStar :: plain v ++ [PStar]) with ([PStar] ++ plain v ++ [PStar]). rewrite !store_app, store_plain by exact G. apply token_both. exact G.
Qed.
Lemma lexeme_next t tok r : lexeme t tok r -> dependable tok -> tok <> T_EOF -> exists a, t = a ++ r /\ a <> [] /\
  forall pre, next_token (st (pre ++ t) (length pre)) = Val (tok, st ((pre ++ a) ++ r) (length (pre ++ a))).
Proof.
  intros H G NE. destruct (lexeme_core t tok r H G NE) as (bs & a & -> & Hb & Na & St & C).
  exists (bs ++ a). splits; [apply app_assoc|destruct bs; [exact Na|discriminate]|]. intros pre.
  unfold next_token. change (q_input (st (pre ++ bs ++ a ++ r) (length pre))) with (pre ++ bs ++ a ++ r).
  rewrite next_core, skip_to by (assumption || (rewrite !app_length; lia)). cbn [obind].
  rewrite C by (rewrite !app_length; lia). rewrite <- !app_assoc. reflexivity.
Qed.
Lemma lexeme_end t r : lexeme t T_EOF r -> Forall blank t /\ r = [].
Proof.
  remember T_EOF as tok eqn:E. induction 1 as [c t tok r B H IH| |c f r I|ds r Nd D S|w tok r L W S T|b v r H|b ps tok r H M]; subst; try discriminate.
  - destruct (IH eq_refl) as [F ->]. split; [constructor; assumption|reflexivity].
  - split; constructor.
  - exfalso. unfold symbols in I. cbn [In] in I. repeat (destruct I as [X|I]; [injection X as <- <-; discriminate|]). destruct I.
  - exfalso. inversion T as [t I E|I E|I J E]; subst. cbn [In keywords] in I. repeat (destruct I as [X|I]; [discriminate|]). destruct I.
  - inversion M.
Qed.
Lemma blanks_eof t pre : Forall blank t -> next_token (st (pre ++ t) (length pre)) = Val (T_EOF, st (pre ++ t) (S (length (pre ++ t)))).
Proof.
  intros H. unfold next_token. change (q_input (st (pre ++ t) (length pre))) with (pre ++ t). rewrite <- (app_nil_r t).
  rewrite next_core, skip_to; [|assumption|intros (? & ? & X & _); discriminate|rewrite !app_length; cbn [length]; lia].
  cbn [obind]. rewrite !app_nil_r. unfold core. rewrite st_past by lia. cbn. rewrite read_st. reflexivity.
Qed.
Lemma lexes_drive t toks : lexes t toks -> Forall dependable toks -> forall pre fuel acc, length t < fuel ->
  ~ In T_ILLEGAL toks ->
  drive fuel (st (pre ++ t) (length pre)) acc = Val (acc ++ toks).
Proof.
  induction 1 as [t H|t tok r toks H NE HL IH]; intros G pre [|fuel] acc F NI; try lia; cbn [drive].
  - apply lexeme_end in H as [Hb _]. rewrite blanks_eof by exact Hb. reflexivity.
  - inversion G as [|? ? G1 G2]; subst. destruct (lexeme_next t tok r H G1 NE) as (a & -> & Na & E). rewrite E. cbn [obind].
    assert (NI2 : ~ In T_ILLEGAL toks) by (intros X; apply NI; right; exact X).
    assert (tok <> T_ILLEGAL) by (intros ->; apply NI; left; reflexivity).
    assert (length r < fuel). { rewrite app_length in F. destruct a; [congruence|cbn [length] in F; lia]. }
    pose proof (IH G2 (pre ++ a) fuel (acc ++ [tok]) ltac:(assumption) NI2) as X. rewrite <- (shift1 acc tok toks) in X.
    destruct tok; try congruence; exact X.
Qed.
Lemma lexeme_legal t r : ~ lexeme t T_ILLEGAL r.
Proof.
  remember T_ILLEGAL as tok eqn:E. induction 1 as [c t tok r B H IH| |c f r I|ds r Nd D S|w tok r L W S T|b v r H|b ps tok r H M]; subst; try discriminate.
  - exact (IH eq_refl).
  - unfold symbols in I. cbn [In] in I. repeat (destruct I as [X|I]; [injection X as <- <-; discriminate|]). destruct I.
  - inversion T as [t I E|I E|I J E]; subst. cbn [In keywords] in I. repeat (destruct I as [X|I]; [discriminate|]). destruct I.
  - inversion M.
Qed.
Lemma lexes_legal t toks : lexes t toks -> ~ In T_ILLEGAL toks.
Proof.
  induction 1 as [t H|t tok r toks H NE HL IH]; intros [X|X]; try discriminate; [destruct X| |exact (IH X)].
  subst tok. exact (lexeme_legal t r H).
Qed.
Lemma lexes_query t toks : lexes t toks -> Forall dependable toks -> lex_query t = Val toks.
Proof.
  intros H G. unfold lex_query, q_new. rewrite read_char_st.
  exact (lexes_drive t toks H G [] (S (S (length t))) [] ltac:(lia) (lexes_legal t toks H)).
Qed.
Lemma escape_literal v : literal (ch "'") (escape v) v.
Proof.
  induction v as [|c v IH]; [constructor|]. unfold escape in *. cbn [flat_map].
  destruct (N.eqb_spec c (ch "'")) as [->|N1].
  - exact (Lit_esc (ch "'") (ch "'") _ v IH).
  - destruct (N.eqb_spec c (ch "\")) as [->|N2].
    + exact (Lit_esc (ch "'") (ch "\") _ v IH).
    + cbn [app]. constructor; assumption.
Qed.
(** An unterminated literal *)
Lemma open_literal b v pre : literal (ch "'") b v ->
  next_token (st (pre ++ ch "'" :: b) (length pre)) = Val (T_String v, st (pre ++ ch "'" :: b) (S (length (pre ++ ch "'" :: b)))).
Proof.
  intros H. unfold next_token. change (q_input (st (pre ++ ch "'" :: b) (length pre))) with (pre ++ ch "'" :: b).
  rewrite next_core. change (ch "'" :: b) with ([] ++ ch "'" :: b) at 1 2.
  rewrite skip_to; [|constructor|intros (c & r & E & X); injection E as <- _; vm_compute in X; intuition congruence|cbn [length]; lia].
  cbn [obind]. rewrite app_nil_r. unfold core. rewrite st_ch. change (single_token (ch "'")) with (@None token).
  change (N.eqb (ch "'") (ch "0")) with false. change (N.eqb (ch "'") (ch "'")) with true. cbn iota.
  rewrite read_st, (len1 pre (ch "'")), (shift1 pre (ch "'") b).
  pose proof (literal_exact b v [] H (or_introl eq_refl) (pre ++ [ch "'"]) (S (length ((pre ++ [ch "'"]) ++ b))) []) as E.
  rewrite !app_nil_r in E. rewrite E by (rewrite !app_length; lia). cbn [obind app]. rewrite read_st. reflexivity.
Qed.
Lemma open_string b ps pre : pieces b ps ->
  next_token (st (pre ++ ch """" :: b) (length pre)) = Val (string_token (store ps), st (pre ++ ch """" :: b) (S (length (pre ++ ch """" :: b)))).
Proof.
  intros H. unfold next_token. change (q_input (st (pre ++ ch """" :: b) (length pre))) with (pre ++ ch """" :: b).
  rewrite next_core. change (ch """" :: b) with ([] ++ ch """" :: b) at 1 2.
  rewrite skip_to; [|constructor|intros (c & r & E & X); injection E as <- _; vm_compute in X; intuition congruence|cbn [length]; lia].
  cbn [obind]. rewrite app_nil_r. unfold core. rewrite st_ch. change (single_token (ch """")) with (@None token).
  change (N.eqb (ch """") (ch "0")) with false. change (N.eqb (ch """") (ch "'")) with false. change (N.eqb (ch """") (ch """")) with true. cbn iota.
  rewrite read_st, (len1 pre (ch """")), (shift1 pre (ch """") b).
  pose proof (string_exact b ps [] H (or_introl eq_refl) (pre ++ [ch """"]) (S (length ((pre ++ [ch """"]) ++ b))) []) as E.
  rewrite !app_nil_r in E. rewrite E by (rewrite !app_length; lia). cbn [obind app]. rewrite read_st. reflexivity.
Qed.
(** A closed double-quoted string *)
Lemma closed_string b ps pre r : pieces b ps ->
  next_token (st (pre ++ ch """" :: b ++ ch """" :: r) (length pre)) =
  Val (string_token (store ps), st (pre ++ ch """" :: b ++ ch """" :: r) (length (pre ++ ch """" :: b ++ [ch """"]))).
Proof.
  intros H. unfold next_token. change (q_input (st (pre ++ ch """" :: b ++ ch """" :: r) (length pre))) with (pre ++ ch """" :: b ++ ch """" :: r).
  rewrite next_core. assert (E : pre ++ ch """" :: b ++ ch """" :: r = pre ++ [] ++ (ch """" :: b ++ [ch """"]) ++ r).
  { cbn [app]. rewrite <- app_assoc. reflexivity. }
  rewrite E. rewrite skip_to; [|constructor|intros (c & x & E' & X); injection E' as <- _; vm_compute in X; intuition congruence|cbn [length]; lia].
  cbn [obind]. rewrite app_nil_r. rewrite (core_string b ps r pre _ H).
  - do 2 f_equal. rewrite <- app_assoc. reflexivity.
  - rewrite !app_length. cbn [app length]. rewrite !app_length. cbn [length]. lia.
Qed.
(** Patterns *)
Lemma store_pattern ps : (forall c, In (PChar c) ps -> c <> ch "*") -> store ps = pattern_text ps.
Proof.
  induction ps as [|p ps IH]; intros H; [reflexivity|]. unfold store, pattern_text in *. cbn [flat_map map].
  rewrite IH by (intros c I; apply H; right; exact I). destruct p as [c|]; [|reflexivity]. cbn [stored].
  destruct (N.eqb_spec c (ch "*")) as [->|N]; [|reflexivity]. exfalso. apply (H (ch "*")); [left; reflexivity|reflexivity].
Qed.
Lemma stars_occ ps : (forall c, In (PChar c) ps -> c <> ch "*") -> count_occ N.eq_dec (pattern_text ps) (ch "*") = stars ps.
Proof.
  unfold stars. induction ps as [|p ps IH]; intros H; [reflexivity|]. unfold pattern_text in *. cbn [map filter count_occ].
  assert (IH' := IH (fun c I => H c (or_intror I))). destruct p as [c|]; rewrite IH'.
  - destruct (N.eq_dec c (ch "*")) as [->|N]; [|reflexivity]. exfalso. apply (H (ch "*")); [left; reflexivity|reflexivity].
  - destruct (N.eq_dec (ch "*") (ch "*")); [reflexivity|congruence].
Qed.
Lemma pattern_no_backslash ps : (forall c, In (PChar c) ps -> c <> ch "\") -> ~ In (ch "\") (pattern_text ps).
Proof.
  intros H I. unfold pattern_text in I. apply in_map_iff in I as ([c|] & E & I); [subst c; exact (H _ I eq_refl)|discriminate].
Qed.

(** ** Calls, from states described by their position *)
Lemma at_text_st l i k : at_text l i k -> l = st i k.
Proof. destruct l as [i' p rp c]. intros (H1 & H2 & H3 & H4). cbn in H1, H2, H3, H4. subst. reflexivity. Qed.
Lemma st_at_text i k : at_text (st i k) i k.
Proof. unfold at_text, st. cbn. auto. Qed.
Lemma string_call pre b ps r l : pieces b ps -> at_text l (pre ++ ch """" :: b ++ ch """" :: r) (length pre) ->
  exists l', next_token l = Val (string_token (store ps), l') /\
    at_text l' (pre ++ ch """" :: b ++ ch """" :: r) (length (pre ++ ch """" :: b ++ [ch """"])).
Proof.
  intros P H. apply at_text_st in H as ->. rewrite (closed_string b ps pre r P). eexists. split; [reflexivity|]. apply st_at_text.
Qed.
Lemma literal_call pre b v r l : literal (ch "'") b v -> at_text l (pre ++ ch "'" :: b ++ ch "'" :: r) (length pre) ->
  exists l', next_token l = Val (T_String v, l') /\
    at_text l' (pre ++ ch "'" :: b ++ ch "'" :: r) (length (pre ++ ch "'" :: b ++ [ch "'"])).
Proof.
  intros P H. apply at_text_st in H as ->. exists (st (pre ++ ch "'" :: b ++ ch "'" :: r) (length (pre ++ ch "'" :: b ++ [ch "'"]))).
  split; [|apply st_at_text]. unfold next_token.
  change (q_input (st (pre ++ ch "'" :: b ++ ch "'" :: r) (length pre))) with (pre ++ ch "'" :: b ++ ch "'" :: r).
  rewrite next_core. assert (E : pre ++ ch "'" :: b ++ ch "'" :: r = pre ++ [] ++ (ch "'" :: b ++ [ch "'"]) ++ r).
  { cbn [app]. rewrite <- app_assoc. reflexivity. }
  rewrite E. rewrite skip_to; [|constructor|intros (c & x & E' & X); injection E' as <- _; vm_compute in X; intuition congruence|cbn [length]; lia].
  cbn [obind]. rewrite app_nil_r. rewrite (core_literal b v r pre _ P).
  - do 2 f_equal. rewrite <- app_assoc. reflexivity.
  - rewrite !app_length. cbn [app length]. rewrite !app_length. cbn [length]. lia.
Qed.
(** Patterns that keep their asterisks *)
Lemma occ_pos l : In (ch "*") l -> 0 < count_occ N.eq_dec l (ch "*").
Proof. intros H. apply (count_occ_In N.eq_dec) in H. lia. Qed.
Lemma like_token ps : (forall c, In (PChar c) ps -> c <> ch "*" /\ c <> ch "\") ->
  (2 < stars ps \/ (0 < stars ps /\ (exists c ps', ps = PChar c :: ps') /\ (exists c ps', ps = ps' ++ [PChar c]))) ->
  string_token (store ps) = T_Like (pattern_text ps).
Proof.
  intros H K.
  assert (H1 : forall c, In (PChar c) ps -> c <> ch "*") by (intros c I; apply H; exact I).
  assert (H2 : ~ In (ch "\") (pattern_text ps)) by (apply pattern_no_backslash; intros c I; apply H; exact I).
  rewrite store_pattern by exact H1.
  assert (C : count_asterix (pattern_text ps) = stars ps).
  { unfold count_asterix. rewrite count_unescaped by (exact H2 || discriminate). apply stars_occ. exact H1. }
  assert (SL : stars ps <= length ps). { unfold stars. clear. induction ps as [|[c|] ps IH]; cbn [filter length]; lia. }
  unfold string_token. assert (L : length (pattern_text ps) = length ps) by apply map_length. rewrite C. cbn zeta.
  destruct K as [K|(K0 & (c & ps1 & E1) & (d & ps2 & E2))].
  - assert (Nat.ltb 1 (length (pattern_text ps)) = true) as -> by (apply Nat.ltb_lt; lia).
    assert (Nat.ltb 2 (stars ps) = true) as -> by (apply Nat.ltb_lt; exact K). reflexivity.
  - assert (1 < length ps).
    { destruct ps1 as [|p1 ps1]; [|rewrite E1; cbn [length]; lia]. rewrite E1 in K0. cbn in K0. lia. }
    assert (Nat.ltb 1 (length (pattern_text ps)) = true) as -> by (apply Nat.ltb_lt; lia).
    destruct (Nat.ltb 2 (stars ps)); [reflexivity|].
    assert (nth 0 (pattern_text ps) 0%N = c) as -> by (rewrite E1; reflexivity).
    assert (nth (length (pattern_text ps) - 1) (pattern_text ps) 0%N = d) as ->.
    { rewrite E2. unfold pattern_text. rewrite map_app. cbn [map]. apply nth_snoc. }
    assert (N.eqb c (ch "*") = false) as -> by (apply N.eqb_neq, H1; rewrite E1; left; reflexivity).
    assert (N.eqb d (ch "*") = false) as -> by (apply N.eqb_neq, H1; rewrite E2; apply in_or_app; right; left; reflexivity).
    cbn [andb]. destruct (Nat.eqb_spec (stars ps) 0); [lia|reflexivity].
Qed.
