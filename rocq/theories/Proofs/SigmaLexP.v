(** The lexer of descriptions, and whole Sigma rules. *)
From Coq Require Import String Ascii NArith ZArith List Bool Arith Lia.
From Verif Require Import Base.Ord Base.BTree Base.Str Base.Outcome Model.Field Model.DatasetTypes Model.Mitre Model.Rule Model.Sigma
  Spec.RuleSpec Spec.SigmaSpec Proofs.SigmaP Proofs.MitreP.
Import ListNotations.
Local Open Scope list_scope.

Definition st (i : list ascii) (p : nat) : dlexer := mkDL i p (S p) (nth p i "000"%char).

Lemma read_char_st i p q c : dl_read_char (mkDL i q p c) = st i p.
Proof.
  unfold dl_read_char, st. simpl. f_equal. destruct (Nat.leb_spec (length i) p) as [H|H]; [|reflexivity].
  symmetry. apply nth_overflow. exact H.
Qed.
Lemma st_ch pre l : dl_ch (st (pre ++ l) (length pre)) = match l with c :: _ => c | [] => "000"%char end.
Proof.
  unfold st. simpl. rewrite app_nth2 by lia. rewrite Nat.sub_diag. destruct l; reflexivity.
Qed.
Lemma st_ge pre l : Nat.ltb (dl_position (st (pre ++ l) (length pre))) (length (dl_input (st (pre ++ l) (length pre)))) =
  match l with [] => false | _ => true end.
Proof.
  unfold st. simpl. rewrite app_length. destruct l; simpl; [apply Nat.ltb_ge|apply Nat.ltb_lt]; lia.
Qed.
Lemma shift1 {A} (pre : list A) c l : pre ++ c :: l = (pre ++ [c]) ++ l.
Proof. rewrite <- app_assoc. reflexivity. Qed.
Lemma len1 {A} (pre : list A) c : S (length pre) = length (pre ++ [c]).
Proof. rewrite app_length. simpl. lia. Qed.

(** the maximal run of characters other than [c] *)
Definition run_of (c : ascii) (l a b : list ascii) : Prop :=
  l = a ++ b /\ ~ In c a /\ (b = [] \/ exists r, b = c :: r).

Lemma text_loop_ok l : forall pre fuel, length l < fuel -> exists a b, run_of "$" l a b /\
  text_loop fuel (st (pre ++ l) (length pre)) = Val (st (pre ++ l) (length pre + length a)).
Proof.
  induction l as [|c l IH]; intros pre [|fuel] H; simpl in H; try lia; cbn [text_loop]; rewrite st_ge, st_ch.
  - exists [], []. split; [repeat split; auto|]. rewrite Nat.add_0_r. reflexivity.
  - destruct (Ascii.eqb_spec c "$") as [->|N]; cbn [andb negb].
    + exists [], ("$"%char :: l). split; [repeat split; eauto|]. rewrite Nat.add_0_r. reflexivity.
    + unfold st at 1. rewrite read_char_st. rewrite (len1 pre c), shift1.
      destruct (IH (pre ++ [c]) fuel ltac:(lia)) as (a & b & (-> & Na & Hb) & E).
      exists (c :: a), b. split; [split; [reflexivity|split; [|exact Hb]]; intros [X|X]; [congruence|contradiction]|].
      rewrite E. f_equal. f_equal. rewrite app_length. simpl. lia.
Qed.

Lemma field_loop_ok l : forall pre fuel acc, length l < fuel -> exists a b, run_of " " l a b /\
  field_loop fuel (st (pre ++ l) (length pre)) acc = Val (acc ++ a, st (pre ++ l) (length pre + length a)).
Proof.
  induction l as [|c l IH]; intros pre [|fuel] acc H; simpl in H; try lia; cbn [field_loop]; rewrite st_ge, st_ch.
  - exists [], []. split; [repeat split; auto|]. rewrite Nat.add_0_r, !app_nil_r. reflexivity.
  - destruct (Ascii.eqb_spec c " ") as [->|N]; cbn [andb negb].
    + exists [], (" "%char :: l). split; [repeat split; eauto|]. rewrite Nat.add_0_r, app_nil_r. reflexivity.
    + unfold st at 1. rewrite read_char_st. rewrite (len1 pre c), shift1.
      destruct (IH (pre ++ [c]) fuel (acc ++ [c]) ltac:(lia)) as (a & b & (-> & Na & Hb) & E).
      exists (c :: a), b. split; [split; [reflexivity|split; [|exact Hb]]; intros [X|X]; [congruence|contradiction]|].
      rewrite E. rewrite <- app_assoc. f_equal. f_equal. f_equal. rewrite app_length. simpl. lia.
Qed.

Lemma back_read i p : (let! l := dl_back (st i p) in Val (dl_read_char l)) = Val (st i p).
Proof. unfold dl_back, st. simpl. rewrite read_char_st. reflexivity. Qed.

(** One token *)
Lemma next_text pre c l fuel : c <> "$"%char -> c <> "000"%char -> length (pre ++ c :: l) < fuel ->
  exists a b, run_of "$" (c :: l) a b /\
  dl_next_token fuel (st (pre ++ c :: l) (length pre)) = Val (DText (string_of_list_ascii a), st (pre ++ c :: l) (length pre + length a)).
Proof.
  intros N1 N2 F. unfold dl_next_token. rewrite st_ch.
  destruct (Ascii.eqb_spec c "$") as [->|_]; [congruence|]. destruct (Ascii.eqb_spec c "000") as [->|_]; [congruence|].
  rewrite app_length in F.
  destruct (text_loop_ok (c :: l) pre fuel ltac:(lia)) as (a & b & R & E). exists a, b. split; [exact R|].
  unfold read_text. rewrite E. destruct R as (R & _ & _).
  cbn [obind]. change (dl_position (st (pre ++ c :: l) (length pre))) with (length pre).
  change (dl_position (st (pre ++ c :: l) (length pre + length a))) with (length pre + length a).
  change (dl_input (st (pre ++ c :: l) (length pre + length a))) with (pre ++ c :: l).
  assert (Nat.leb (length pre) (length pre + length a) && Nat.leb (length pre + length a) (length (pre ++ c :: l)) = true) as ->.
  { rewrite R, !app_length. apply andb_true_iff; split; apply Nat.leb_le; lia. }
  cbn [obind]. unfold dl_back, st at 1. cbn [dl_read_position obind dl_input dl_position dl_ch]. rewrite read_char_st.
  do 2 f_equal. f_equal. f_equal. replace (length pre + length a - length pre) with (length a) by lia.
  rewrite R. rewrite skipn_app, skipn_all, Nat.sub_diag. cbn [skipn app]. rewrite firstn_app, firstn_all, Nat.sub_diag. cbn [firstn].
  apply app_nil_r.
Qed.

Lemma next_field pre l fuel : length (pre ++ "$"%char :: l) < fuel ->
  exists a b, run_of " " l a b /\
  dl_next_token fuel (st (pre ++ "$"%char :: l) (length pre)) =
    Val (DField (string_of_list_ascii a), st (pre ++ "$"%char :: l) (length pre + S (length a))).
Proof.
  intros F. unfold dl_next_token. rewrite st_ch, Ascii.eqb_refl.
  unfold st at 1. rewrite read_char_st. rewrite (len1 pre "$"%char), shift1.
  rewrite app_length in F. simpl in F.
  destruct (field_loop_ok l (pre ++ ["$"%char]) fuel [] ltac:(lia)) as (a & b & R & E). exists a, b. split; [exact R|].
  unfold read_field. rewrite E. cbn [obind app]. unfold dl_back, st at 1. cbn [dl_read_position obind dl_input dl_position dl_ch].
  rewrite read_char_st. do 2 f_equal. f_equal. rewrite app_length. simpl. lia.
Qed.

Lemma next_eof i p fuel : length i <= p -> dl_next_token fuel (st i p) = Val (DEof, st i (S p)).
Proof.
  intros H. unfold dl_next_token. assert (dl_ch (st i p) = "000"%char) as -> by (apply nth_overflow; exact H).
  cbn [obind Ascii.eqb Bool.eqb]. unfold st at 1. rewrite read_char_st. reflexivity.
Qed.

Lemma has_in c a : ~ In c a -> str_has c (string_of_list_ascii a) = false.
Proof.
  induction a as [|x a IH]; intros H; [reflexivity|]. cbn [string_of_list_ascii str_has].
  rewrite IH by (intros X; apply H; right; exact X). rewrite orb_false_r. apply Ascii.eqb_neq. intros ->. apply H. left; reflexivity.
Qed.
Lemma sol_app a b : string_of_list_ascii (a ++ b) = append (string_of_list_ascii a) (string_of_list_ascii b).
Proof. induction a as [|c a IH]; simpl; congruence. Qed.
Lemma rest_is c b : (b = [] \/ exists r, b = c :: r) -> string_of_list_ascii b = EmptyString \/ first_is c (string_of_list_ascii b).
Proof. intros [->|[r ->]]; [left; reflexivity|right; exists (string_of_list_ascii r); reflexivity]. Qed.

Lemma content_ok n : forall l pre fuel acc, length l <= n -> n < fuel -> match l with c :: _ => c <> "000"%char | [] => True end ->
  exists ps, content_loop fuel (st (pre ++ l) (length pre)) acc = Val (acc ++ ps) /\ template (string_of_list_ascii l) ps.
Proof.
  induction n as [n IH] using lt_wf_ind. intros l pre [|fuel] acc H F N; [lia|]. destruct l as [|c l].
  - exists []. cbn [content_loop]. rewrite next_eof by (rewrite app_nil_r; lia). cbn. rewrite app_nil_r. split; [reflexivity|constructor].
  - simpl in H. cbn [content_loop]. change (dl_input (st (pre ++ c :: l) (length pre))) with (pre ++ c :: l).
    destruct (ascii_dec c "$") as [->|Nc].
    + destruct (next_field pre l (S (length (pre ++ "$"%char :: l)))) as (a & b & (-> & Na & Hb) & E); [lia|]. rewrite E. cbn [obind].
      replace (length pre + S (length a)) with (length (pre ++ "$"%char :: a)) by (rewrite app_length; simpl; lia).
      replace (pre ++ "$"%char :: a ++ b) with ((pre ++ "$"%char :: a) ++ b) by (rewrite <- app_assoc; reflexivity).
      rewrite app_length in H.
      destruct (IH (length b) ltac:(lia) b (pre ++ "$"%char :: a) fuel (acc ++ [AField (string_of_list_ascii a)])) as (ps & Eps & T);
        [lia|lia|destruct Hb as [->|[r ->]]; [exact I|discriminate]|].
      exists (AField (string_of_list_ascii a) :: ps). rewrite Eps, <- app_assoc. split; [reflexivity|].
      change (string_of_list_ascii ("$"%char :: a ++ b)) with (append "$" (string_of_list_ascii (a ++ b))). rewrite sol_app.
      constructor; [apply has_in; exact Na|apply rest_is; exact Hb|exact T].
    + destruct (next_text pre c l (S (length (pre ++ c :: l))) Nc N) as (a & b & (R & Na & Hb) & E); [lia|]. rewrite E. cbn [obind].
      replace (length pre + length a) with (length (pre ++ a)) by (rewrite app_length; lia).
      assert (NA : a <> []). { intros ->. simpl in R. destruct Hb as [->|[r ->]]; [discriminate R|congruence]. }
      assert (length b < S (length l)). { assert (X : length (c :: l) = length (a ++ b)) by congruence. rewrite app_length in X. simpl in X.
        destruct a; [congruence|simpl in X; lia]. }
      rewrite R. replace (pre ++ a ++ b) with ((pre ++ a) ++ b) by (rewrite <- app_assoc; reflexivity).
      destruct (IH (length b) ltac:(lia) b (pre ++ a) fuel (acc ++ [AText (string_of_list_ascii a)])) as (ps & Eps & T);
        [lia|lia|destruct Hb as [->|[r ->]]; [exact I|discriminate]|].
      exists (AText (string_of_list_ascii a) :: ps). rewrite Eps, <- app_assoc. split; [reflexivity|]. rewrite sol_app.
      constructor; [destruct a; [congruence|discriminate]|apply has_in; exact Na|apply rest_is; exact Hb|exact T].
Qed.

Lemma transform_template d : d <> EmptyString -> ~ first_is "000" d ->
  exists ps, transform_alert_content d = Val ps /\ template d ps.
Proof.
  intros N F. unfold transform_alert_content. unfold dl_new. rewrite read_char_st.
  set (i := list_ascii_of_string d).
  destruct (content_ok (length i) i [] (S (length i)) []) as (ps & E & T); [lia|lia| |].
  { subst i. destruct d as [|c d]; [exact I|]. simpl. intros ->. apply F. exists d. reflexivity. }
  cbn [app length] in E. rewrite E. unfold i in T. rewrite string_of_list_ascii_of_string in T. cbn [obind].
  exists ps. split; [|exact T]. destruct ps as [|p ps]; [|reflexivity]. inversion T. congruence.
Qed.
Lemma transform_empty : transform_alert_content EmptyString = Val [AText EmptyString].
Proof. reflexivity. Qed.
Lemma transform_nul d : first_is "000" d -> transform_alert_content d = Val [AText d].
Proof. intros [r ->]. reflexivity. Qed.

Lemma template_source d ps : template d ps -> source ps = d.
Proof.
  intros T; induction T; cbn [source part_source]; [reflexivity|congruence|]. rewrite IHT. rewrite str_app_assoc. reflexivity.
Qed.
Lemma template_fun d ps : template d ps -> forall qs, template d qs -> ps = qs.
Proof.
  assert (CUT : forall c x r y t, str_has c x = false -> str_has c y = false -> r = EmptyString \/ first_is c r -> t = EmptyString \/ first_is c t ->
    append x r = append y t -> x = y /\ r = t).
  { intros c. induction x as [|a x IH]; intros r [|b y] t Hx Hy Hr Ht E; cbn in *.
    - auto.
    - exfalso. destruct Hr as [->|[u ->]]; [discriminate E|]. inversion E; subst. rewrite Ascii.eqb_refl in Hy. discriminate Hy.
    - exfalso. destruct Ht as [->|[u ->]]; [discriminate E|]. inversion E; subst. rewrite Ascii.eqb_refl in Hx. discriminate Hx.
    - inversion E; subst. apply orb_false_iff in Hx as [_ Hx]. apply orb_false_iff in Hy as [_ Hy].
      destruct (IH r y t Hx Hy Hr Ht) as [-> ->]; auto. }
  intros T; induction T as [|x r ps Nx Hx Hr T IH|f r ps Hf Hr T IH]; intros qs S.
  - inversion S as [|y t qs' Ny Hy Ht S' E|]; subst; [reflexivity|]. destruct y; [congruence|discriminate E].
  - inversion S as [E|y t qs' Ny Hy Ht S' E|g t qs' Hg Ht S' E].
    + destruct x; [congruence|discriminate E].
    + destruct (CUT _ _ _ _ _ Hx Hy Hr Ht (eq_sym E)) as [-> ->]. f_equal. apply IH. exact S'.
    + exfalso. destruct x as [|a x]; [congruence|]. cbn in E. inversion E; subst. cbn in Hx. discriminate Hx.
  - inversion S as [E|y t qs' Ny Hy Ht S' E|g t qs' Hg Ht S' E].
    + exfalso. destruct y as [|a y]; [congruence|]. cbn in E. inversion E; subst. cbn in Hy. discriminate Hy.
    + cbn in E. inversion E as [E1]. destruct (CUT _ _ _ _ _ Hf Hg Hr Ht (eq_sym E1)) as [-> ->]. f_equal. apply IH. exact S'.
Qed.

(** ** Tags *)
Lemma prefix_split p t : starts_with p t = true <-> exists x, t = append p x.
Proof. apply FieldP.prefix_iff. Qed.

Lemma slice_from_inv n s u : slice_from n s = Val u -> u = String.substring n (String.length s - n) s.
Proof. unfold slice_from, slice. destruct (_ && _); [|discriminate]. intros H. inversion H. reflexivity. Qed.
Lemma substring_skip p x : String.substring (String.length p) (String.length (append p x) - String.length p) (append p x) = x.
Proof.
  rewrite slen_app, Nat.add_comm, Nat.add_sub. induction p as [|c p IH]; simpl; [apply substring_all; lia|exact IH].
Qed.

Lemma recognise_ok {A} (try_from : string -> result A string) (names : A -> string -> Prop) tags rs :
  (forall s a, try_from s = Ok a <-> names a s) -> recognise try_from tags = Val rs -> tagged names tags rs.
Proof.
  intros N. revert rs; induction tags as [|t r IH]; intros rs H; cbn [recognise] in H; [inversion H; constructor|].
  destruct (recognise try_from r) as [rest| |] eqn:E; cbn [obind] in H; try discriminate H. specialize (IH _ eq_refl).
  destruct (starts_with "attack." t) eqn:S.
  - apply prefix_split in S as [x ->]. destruct (slice_from 7 (append "attack." x)) as [u| |] eqn:C; cbn [obind] in H; try discriminate H.
    apply slice_from_inv in C. pose proof (substring_skip "attack." x) as K. change (String.length "attack.") with 7 in K. rewrite K in C. subst u.
    destruct (try_from x) as [a|e] eqn:TF; inversion H; subst.
    + constructor; [apply N; exact TF|exact IH].
    + apply tag_drop; [|exact IH]. intros a s X. assert (x = s) by (cbn in X; congruence). subst s. intros Y. apply N in Y. congruence.
  - inversion H; subst. apply tag_drop; [|exact IH]. intros a s X. exfalso.
    assert (starts_with "attack." t = true) by (apply prefix_split; eauto). congruence.
Qed.

(** ** Whole rules *)
Lemma obind_val {A B} (o : outcome A) (f : A -> outcome B) b : obind o f = Val b -> exists a, o = Val a /\ f a = Val b.
Proof. destruct o; simpl; intros H; try discriminate H. eauto. Qed.

Lemma subrules_ok P ids : forall ret subs, (forall k, In k (map fst ids) -> bt_get k ret = None) -> NoDup (map fst ids) ->
  parse_subrules_loop P ids ret = Val subs ->
  forall k s, bt_get k subs = Some s <-> bt_get k ret = Some s \/ exists c, In (k, c) ids /\ condition_to_subrule P c = Val s.
Proof.
  induction ids as [|[k c] r IH]; intros ret subs D ND H k0 s0; cbn [parse_subrules_loop] in H.
  - inversion H; subst. split; [auto|]. intros [X|(c & [] & _)]. exact X.
  - apply obind_val in H as (s & E & H). inversion ND as [|? ? NI ND']; subst.
    rewrite (IH (bt_insert k s ret) subs).
    + rewrite bt_get_insert. destruct (keqb_spec k0 k) as [->|NE].
      * split.
        -- intros [X|(c' & I & X)]; [right; exists c; split; [left; reflexivity|congruence]|].
           exfalso. apply NI. apply in_map_iff. exists (k, c'). auto.
        -- intros [X|(c' & [I|I] & X)]; [rewrite D in X; [discriminate X|left; reflexivity]| |].
           ++ left. congruence.
           ++ exfalso. apply NI. apply in_map_iff. exists (k, c'). auto.
      * split; (intros [X|(c' & I & X)]; [left; exact X|right; exists c'; split; [|exact X]]).
        -- right; exact I.
        -- destruct I as [I|I]; [congruence|exact I].
    + intros k1 I. rewrite bt_get_insert. destruct (keqb_spec k1 k) as [->|]; [contradiction|]. apply D. right; exact I.
    + exact ND'.
    + exact H.
Qed.
