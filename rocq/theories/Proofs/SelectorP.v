From Coq Require Import String Ascii List Bool Sorted.
From Verif Require Import Base.Arith Base.Ord Base.BTree Base.Str Model.RuleSelector Spec.SelectorSpec.
Import ListNotations.
Local Open Scope N_scope.

Lemma is_sep_spec a : is_sep a = false <-> word_char a.
Proof. unfold is_sep, word_char. cbv zeta. split; lia. Qed.
Lemma is_sep_spec' a : is_sep a = true <-> ~ word_char a.
Proof. rewrite <- is_sep_spec. destruct (is_sep a); split; congruence. Qed.
Lemma no_sep_chars w : all_chars (fun a => negb (is_sep a)) w = true <-> Forall word_char (chars w).
Proof.
  induction w as [|a w IH]; cbn [all_chars chars]; [split; [constructor|reflexivity]|].
  rewrite andb_true_iff, negb_true_iff, is_sep_spec, IH. split; [intros [? ?]; constructor; auto|intros H; inversion H; auto].
Qed.

Lemma cuts_split s ws : cuts s ws -> split_pred is_sep s = ws.
Proof.
  induction 1 as [w Hw|w c s ws Hw Hc Hs IH].
  - apply split_pred_no_sep, no_sep_chars, Hw.
  - rewrite split_pred_app_sep; [rewrite IH; reflexivity|apply no_sep_chars, Hw|apply is_sep_spec', Hc].
Qed.
Lemma split_cuts s : cuts s (split_pred is_sep s).
Proof.
  induction s as [|a s IH]; cbn [split_pred].
  - constructor. constructor.
  - destruct (is_sep a) eqn:E.
    + apply (cuts_more EmptyString a s); [constructor|apply is_sep_spec', E|exact IH].
    + apply is_sep_spec in E. destruct (split_pred is_sep s) as [|h t] eqn:Es.
      { exfalso. apply (split_pred_nonempty is_sep s Es). }
      inversion IH as [w Hw|w c s' ws Hw Hc Hs]; subst.
      * apply cuts_last. constructor; auto.
      * apply (cuts_more (String a h)); auto. constructor; auto.
Qed.
Lemma cuts_functional s w1 w2 : cuts s w1 -> cuts s w2 -> w1 = w2.
Proof. intros H1 H2. apply cuts_split in H1, H2. congruence. Qed.

(** ** The index *)
Definition has_post (idx : bt string (bset string)) (w r : string) : bool :=
  match bt_get w idx with Some rules => bset_mem r rules | None => false end.
Definition idx_wf (idx : bt string (bset string)) : Prop := forall w rules, bt_get w idx = Some rules -> bt_wf rules.

Lemma index_word_post rule idx word w r :
  has_post (index_word rule idx word) w r = has_post idx w r || (keqb w word && keqb r rule).
Proof.
  unfold has_post, index_word, bset_mem, bset_add.
  destruct (bt_get word idx) as [rules|] eqn:E; rewrite bt_get_insert; destruct (keqb_spec w word) as [->|Hn].
  - rewrite E, bt_has_insert. cbn [andb]. apply orb_comm.
  - cbn [andb]. rewrite orb_false_r. reflexivity.
  - rewrite E, bt_has_insert. cbn. destruct (keqb r rule); reflexivity.
  - cbn [andb]. rewrite orb_false_r. reflexivity.
Qed.
Lemma index_word_wf rule idx word : idx_wf idx -> idx_wf (index_word rule idx word).
Proof.
  intros H w rules. unfold index_word, bset_add. destruct (bt_get word idx) as [rs|] eqn:E; rewrite bt_get_insert; destruct (keqb w word).
  - intros [= <-]. apply wf_insert, (H word); exact E.
  - apply H.
  - intros [= <-]. constructor; constructor.
  - apply H.
Qed.
Lemma index_words_post rule words : forall idx w r,
  has_post (fold_left (index_word rule) words idx) w r = true <-> has_post idx w r = true \/ r = rule /\ In w words.
Proof.
  induction words as [|x words IH]; intros idx w r; cbn [fold_left In].
  - tauto.
  - rewrite IH, index_word_post, orb_true_iff, andb_true_iff, !keqb_eq. intuition (subst; auto).
Qed.
Lemma index_words_wf rule words : forall idx, idx_wf idx -> idx_wf (fold_left (index_word rule) words idx).
Proof. induction words as [|x words IH]; intros idx H; cbn [fold_left]; auto. apply IH, index_word_wf, H. Qed.

Definition adds (h : list (string * string)) (s : selector) : selector := fold_left (fun s p => sel_add (fst p) (snd p) s) h s.

Record inv (h : list (string * string)) (s : selector) : Prop := {
  inv_wf : idx_wf (inverted_index s);
  inv_rules_wf : bt_wf (rule_list s);
  inv_post : forall w r, has_post (inverted_index s) w r = true <-> described h r w;
  inv_rules : forall r, bset_mem r (rule_list s) = true <-> added h r }.

Lemma inv_new : inv [] sel_new.
Proof.
  split; cbn.
  - intros w rules; discriminate.
  - constructor.
  - intros w r. split; [discriminate|]. intros (d & ws & [] & _).
  - intros r. split; [discriminate|]. intros (d & []).
Qed.
Lemma inv_add h s rule d : inv h s -> inv (h ++ [(rule, d)]) (sel_add rule d s).
Proof.
  intros [I1 I2 I3 I4]. split; cbn [sel_add inverted_index rule_list].
  - apply index_words_wf, I1.
  - apply wf_insert, I2.
  - intros w r. rewrite index_words_post, I3. unfold described. split.
    + intros [(d' & ws & Hin & Hc & Hw)|[-> Hw]].
      * exists d', ws. rewrite in_app_iff. auto.
      * exists d, (split_pred is_sep d). splits; [apply in_or_app; right; left; reflexivity|apply split_cuts|exact Hw].
    + intros (d' & ws & Hin & Hc & Hw). apply in_app_or in Hin as [Hin|[[= <- <-]|[]]].
      * left. exists d', ws. auto.
      * right. apply cuts_split in Hc. subst. auto.
  - intros r. unfold bset_mem, bset_add in *. rewrite bt_has_insert, orb_true_iff, keqb_eq, I4. unfold added. split.
    + intros [->|[d' H]]; [exists d|exists d']; apply in_or_app; [right; left; reflexivity|left; exact H].
    + intros [d' H]. apply in_app_or in H as [H|[[= <- <-]|[]]]; [right; exists d'; exact H|left; reflexivity].
Qed.
Lemma inv_adds h : inv h (adds h sel_new).
Proof.
  unfold adds. induction h as [|[r d] h IH] using rev_ind; [apply inv_new|].
  rewrite fold_left_app. cbn [fold_left fst snd]. apply inv_add, IH.
Qed.

(** ** Scores *)
Lemma bump_get sc rule r : bt_get r (bump sc rule) = option_map (fun n => if keqb r rule then n + 1 else n) (bt_get r sc).
Proof.
  unfold bump. destruct (bt_get rule sc) as [n|] eqn:E.
  - rewrite bt_get_insert. destruct (keqb_spec r rule) as [->|]; [rewrite E; reflexivity|destruct (bt_get r sc); reflexivity].
  - destruct (keqb_spec r rule) as [->|]; [rewrite E; reflexivity|destruct (bt_get r sc); reflexivity].
Qed.
Lemma bump_wf sc rule : bt_wf sc -> bt_wf (bump sc rule).
Proof. intros H. unfold bump. destruct (bt_get rule sc); [apply wf_insert|]; exact H. Qed.
Lemma bump_fold_wf rs : forall sc, bt_wf sc -> bt_wf (fold_left bump rs sc).
Proof. induction rs as [|r rs IH]; intros sc H; cbn [fold_left]; auto. apply IH, bump_wf, H. Qed.
Lemma bump_fold_notin rs : forall sc r, ~ In r rs -> bt_get r (fold_left bump rs sc) = bt_get r sc.
Proof.
  induction rs as [|x rs IH]; intros sc r H; cbn [fold_left]; [reflexivity|].
  rewrite IH by (intros C; apply H; right; exact C). rewrite bump_get.
  destruct (keqb_spec r x) as [->|]; [exfalso; apply H; left; reflexivity|destruct (bt_get r sc); reflexivity].
Qed.
Lemma bump_fold_get rs : forall sc r, NoDup rs -> bt_get r (fold_left bump rs sc) =
  option_map (fun n => if existsb (keqb r) rs then n + 1 else n) (bt_get r sc).
Proof.
  induction rs as [|x rs IH]; intros sc r H; cbn [fold_left existsb].
  - destruct (bt_get r sc); reflexivity.
  - inversion H as [|? ? Hn Hd]; subst. destruct (keqb_spec r x) as [->|Hne].
    + rewrite bump_fold_notin by exact Hn. rewrite bump_get, keqb_refl. reflexivity.
    + rewrite IH by exact Hd. rewrite bump_get. apply keqb_neq in Hne. rewrite Hne. destruct (bt_get r sc); reflexivity.
Qed.

Lemma existsb_keys r (rules : bset string) : existsb (keqb r) (bset_elems rules) = bset_mem r rules.
Proof.
  unfold bset_elems, bset_mem. apply eq_true_iff_eq. rewrite bt_has_keys, existsb_exists. split.
  - intros (x & Hx & E). apply keqb_eq in E. subst. exact Hx.
  - intros H. exists r. split; [exact H|apply keqb_refl].
Qed.

Lemma score_word_get idx sc word r : idx_wf idx -> bt_get r (score_word idx sc word) =
  option_map (fun n => if has_post idx word r then n + 1 else n) (bt_get r sc).
Proof.
  intros H. unfold score_word, has_post. destruct (bt_get word idx) as [rules|] eqn:E.
  - rewrite bump_fold_get by (apply bt_keys_nodup, (H word), E). rewrite existsb_keys. reflexivity.
  - destruct (bt_get r sc); reflexivity.
Qed.
Lemma score_word_wf idx sc word : bt_wf sc -> bt_wf (score_word idx sc word).
Proof. intros H. unfold score_word. destruct (bt_get word idx); [apply bump_fold_wf|]; exact H. Qed.

Fixpoint count (idx : bt string (bset string)) (r : string) (ws : list string) : N :=
  match ws with [] => 0 | w :: ws => (if has_post idx w r then 1 else 0) + count idx r ws end.
Lemma score_words_get idx ws : forall sc r, idx_wf idx -> bt_get r (fold_left (score_word idx) ws sc) =
  option_map (fun n => n + count idx r ws) (bt_get r sc).
Proof.
  induction ws as [|w ws IH]; intros sc r H; cbn [fold_left count].
  - destruct (bt_get r sc); cbn [option_map]; [f_equal; lia|reflexivity].
  - rewrite IH, score_word_get by exact H. destruct (bt_get r sc); cbn [option_map]; [|reflexivity].
    f_equal. destruct (has_post idx w r); lia.
Qed.
Lemma score_words_wf idx ws : forall sc, bt_wf sc -> bt_wf (fold_left (score_word idx) ws sc).
Proof. induction ws as [|w ws IH]; intros sc H; cbn [fold_left]; auto. apply IH, score_word_wf, H. Qed.

Lemma count_hits h s r : inv h s -> forall ws n, hits h r ws n <-> n = count (inverted_index s) r ws.
Proof.
  intros I. induction ws as [|w ws IH]; intros n; cbn [count].
  - split; [intros H; inversion H; reflexivity|intros ->; constructor].
  - split.
    + intros H. inversion H as [|? ? m Hd Hh|? ? m Hd Hh]; subst.
      * apply (inv_post _ _ I) in Hd. rewrite Hd. apply IH in Hh. lia.
      * destruct (has_post (inverted_index s) w r) eqn:E; [apply (inv_post _ _ I) in E; contradiction|].
        apply IH in Hh. lia.
    + intros ->. destruct (has_post (inverted_index s) w r) eqn:E.
      * rewrite N.add_comm. apply hits_yes; [apply (inv_post _ _ I), E|apply IH; reflexivity].
      * rewrite N.add_0_l. apply hits_no; [|apply IH; reflexivity].
        intros C. apply (inv_post _ _ I) in C. congruence.
Qed.

Lemma zero_scores_get (rules : list string) (r : string) : forall m : bt string N, bt_get r (fold_left (fun m r => bt_insert r 0 m) rules m) =
  if existsb (keqb r) rules then Some 0 else bt_get r m.
Proof.
  induction rules as [|x rules IH]; intros m; cbn [fold_left existsb]; [reflexivity|].
  rewrite IH, bt_get_insert. destruct (keqb r x), (existsb (keqb r) rules); reflexivity.
Qed.

(** ** Selection *)
Lemma pick_spec l : forall acc, StronglySorted key_lt l ->
  (forall k v, In (k, v) l -> v <= fst acc) /\ fold_left pick l acc = acc \/
  exists k v, fold_left pick l acc = (v, k) /\ In (k, v) l /\ fst acc < v /\
    forall k' v', In (k', v') l -> v' < v \/ v' = v /\ (k' = k \/ cmp k k' = Lt).
Proof.
  induction l as [|[k v] l IH]; intros acc Hs; cbn [fold_left]; [left; split; [intros ? ? []|reflexivity]|].
  inversion Hs as [|? ? Hs' Hf]; subst.
  unfold pick at 2 4; cbn [fst snd].
  destruct (N.ltb_spec (fst acc) v) as [Hv|Hv].
  - right. destruct (IH (v, k) Hs') as [[Hall E]|(k2 & v2 & E & Hin & Hlt & Hmax)].
    + exists k, v. splits; [exact E|left; reflexivity|exact Hv|].
      intros k' v' [[= <- <-]|H]; [right; auto|]. specialize (Hall _ _ H). cbn [fst] in Hall.
      destruct (N.eq_dec v' v) as [->|]; [|left; lia]. right. split; [reflexivity|right].
      rewrite Forall_forall in Hf. apply (Hf _ H).
    + exists k2, v2. cbn [fst] in Hlt. splits; [exact E|right; exact Hin|lia|].
      intros k' v' [[= <- <-]|H]; [left; exact Hlt|apply Hmax, H].
  - destruct (IH acc Hs') as [[Hall E]|(k2 & v2 & E & Hin & Hlt & Hmax)].
    + left. split; [|exact E]. intros k' v' [[= <- <-]|H]; [exact Hv|eauto].
    + right. exists k2, v2. splits; [exact E|right; exact Hin|exact Hlt|].
      intros k' v' [[= <- <-]|H]; [left; lia|apply Hmax, H].
Qed.

Definition scores_of (text : string) (s : selector) : bt string N :=
  fold_left (score_word (inverted_index s)) (split_pred is_sep text)
    (fold_left (fun m r => bt_insert r 0 m) (bset_elems (rule_list s)) []).
Lemma scores_in h s text r n : inv h s -> In (r, n) (scores_of text s) <->
  added h r /\ n = count (inverted_index s) r (split_pred is_sep text).
Proof.
  intros I.
  assert (W : bt_wf (scores_of text s)).
  { apply score_words_wf. apply (wf_fold_insert (fun r => r) (fun _ => 0)), wf_empty. }
  assert (G : bt_get r (scores_of text s) =
    if bset_mem r (rule_list s) then Some (count (inverted_index s) r (split_pred is_sep text)) else None).
  { unfold scores_of. rewrite score_words_get by apply (inv_wf _ _ I). rewrite zero_scores_get, existsb_keys.
    destruct (bset_mem r (rule_list s)); reflexivity. }
  split.
  - intros H. apply wf_In_get in H; [|exact W]. rewrite G in H. destruct (bset_mem r (rule_list s)) eqn:E; [|discriminate].
    split; [apply (inv_rules _ _ I), E|congruence].
  - intros [Ha ->]. apply (inv_rules _ _ I) in Ha. rewrite Ha in G. apply bt_get_In, G.
Qed.

Lemma search_unfold text s : sel_search text s =
  let b := fold_left pick (scores_of text s) (0, EmptyString) in if 0 <? fst b then Some (snd b) else None.
Proof. reflexivity. Qed.

Lemma string_cmp_asym (a b : string) : String.compare a b = Lt -> String.compare b a = Lt -> False.
Proof. intros H1 H2. assert (E := @cmp_lt_trans string _ a b a H1 H2). apply (cmp_lt_irrefl a E). Qed.

Lemma search_spec h text ws : cuts text ws ->
  (forall r, sel_search text (adds h sel_new) = Some r <-> best h ws r) /\
  (sel_search text (adds h sel_new) = None <-> forall r w, In w ws -> ~ described h r w).
Proof.
  intros Hc. apply cuts_split in Hc. subst ws. set (s := adds h sel_new). assert (I : inv h s) by apply inv_adds.
  rewrite search_unfold. cbv zeta. set (ws := split_pred is_sep text).
  assert (W : bt_wf (scores_of text s)).
  { apply score_words_wf. apply (wf_fold_insert (fun r => r) (fun _ => 0)), wf_empty. }
  assert (Hpos : forall r w, In w ws -> described h r w -> 0 < count (inverted_index s) r ws).
  { intros r. induction ws as [|x l IH]; [intros ? []|]. intros w [->|Hw] Hd; cbn [count].
    - apply (inv_post _ _ I) in Hd. rewrite Hd. lia.
    - specialize (IH w Hw Hd). destruct (has_post (inverted_index s) x r); lia. }
  assert (Hpos' : forall r, 0 < count (inverted_index s) r ws -> exists w, In w ws /\ described h r w).
  { clear Hpos. intros r. induction ws as [|x l IH]; cbn [count]; [lia|]. intros Hp.
    destruct (has_post (inverted_index s) x r) eqn:E.
    - exists x. split; [left; reflexivity|apply (inv_post _ _ I), E].
    - destruct IH as (w & Hw & Hd); [lia|]. exists w. split; [right; exact Hw|exact Hd]. }
  assert (Hadd : forall r w, described h r w -> added h r).
  { intros r w (d & _ & Hin & _). exists d. exact Hin. }
  destruct (pick_spec (scores_of text s) (0, EmptyString) W) as [[Hall E]|(k & v & E & Hin & Hlt & Hmax)].
  - rewrite E. cbn [fst snd]. change (0 <? 0) with false. cbn [fst] in Hall.
    assert (Z : forall r w, In w ws -> ~ described h r w).
    { intros r w Hw Hd. pose proof (Hpos r w Hw Hd) as P. specialize (Hall r (count (inverted_index s) r ws)).
      rewrite scores_in in Hall by exact I. specialize (Hall (conj (Hadd r w Hd) eq_refl)). lia. }
    split.
    + intros r. split; [discriminate|]. intros (Ha & n & Hh & Hn & _). apply (count_hits h s r I) in Hh. subst n.
      destruct (Hpos' r Hn) as (w & Hw & Hd). exfalso. exact (Z r w Hw Hd).
    + split; [intros _; exact Z|reflexivity].
  - rewrite E. cbn [fst snd] in *. replace (0 <? v) with true by lia.
    apply (scores_in h s text k v I) in Hin as [Hk ->]. fold ws in E, Hlt, Hmax.
    assert (B : best h ws k).
    { split; [exact Hk|]. exists (count (inverted_index s) k ws). splits; [apply (count_hits h s k I); reflexivity|exact Hlt|].
      intros r' n' Ha' Hh'. apply (count_hits h s r' I) in Hh'. subst n'.
      apply Hmax. apply (scores_in h s text r' _ I). auto. }
    split.
    + intros r. split; [intros [= <-]; exact B|]. intros (Ha & n & Hh & Hn & Hm).
      destruct B as (_ & n2 & Hh2 & Hn2 & Hm2). specialize (Hm k n2 Hk Hh2). specialize (Hm2 r n Ha Hh).
      f_equal. destruct Hm as [?|[? [?|H1]]], Hm2 as [?|[? [?|H2]]]; auto; try lia.
      exfalso. exact (string_cmp_asym _ _ H1 H2).
    + split; [discriminate|]. intros Z. exfalso. destruct (Hpos' k Hlt) as (w & Hw & Hd). exact (Z k w Hw Hd).
Qed.
