(** C179-C182: Sigma rules and alert dictionaries in JSON. *)
From Coq Require Import String Ascii NArith ZArith List Bool Lia Floats.SpecFloat.
From Verif Require Import Base.Arith Base.Ord Base.BTree Base.Str Base.Outcome Model.Field Model.Rule Model.Sigma Model.Json Model.JsonField
  Model.JsonSigma Spec.JsonSpec Spec.JsonKeysSpec Spec.SigmaJsonSpec Proofs.JsonP Proofs.JsonCmdP Props.PropsJson Props.PropsJsonKeys Props.PropsRange.
Import ListNotations.
Local Open Scope string_scope.
Local Open Scope list_scope.

Lemma value_induction (P : sigma_value -> Prop) : (forall s, P (SText s)) -> (forall z, P (SInt z)) -> (forall x, P (SFloat x)) ->
  (forall l, Forall P l -> P (SArray l)) -> P SNone -> forall v, P v.
Proof.
  intros A B C D E. fix IH 1. intros [s|z|x|l|]; [apply A|apply B|apply C| |exact E].
  apply D. induction l as [|v l IL]; constructor; [exact (IH v)|exact IL].
Qed.

(** ** The document *)
Theorem C179_document : forall r, json_of_sigma r = sigma_document r.
Proof.
  assert (V : forall v, json_of_value v = value_document v).
  { induction v using value_induction; try reflexivity.
    - destruct x as [| | |]; reflexivity.
    - cbn. f_equal. induction H; cbn; congruence. }
  assert (M : forall m, json_of_map json_of_value m = map_document m).
  { intros m. unfold json_of_map, map_document. f_equal. apply map_ext. intros e. rewrite V. reflexivity. }
  assert (C : forall c, json_of_condition c = condition_document c).
  { intros [m|l|]; cbn; [apply M| |reflexivity]. unfold json_of_list. f_equal. apply map_ext, M. }
  intros r. unfold json_of_sigma, sigma_document, members, json_of_logsource, json_of_detection.
  rewrite (map_ext (fun e => (fst e, json_of_condition (snd e))) (fun e => (fst e, condition_document (snd e)))) by (intros e; rewrite C; reflexivity).
  assert (K : forall A (k : string) (w : A -> json) o, skip_none k w o = match option_map w o with Some j => [(k, j)] | None => [] end)
    by (intros A k w [a|]; reflexivity).
  rewrite !K. cbn [flat_map fst snd]. rewrite !app_nil_r. reflexivity.
Qed.
Print Assumptions C179_document.

(** ** Reading it again *)
Lemma mapM_same {A B} (f : B -> option A) (w : A -> B) l : mapM f (map w l) = Some l <-> Forall (fun x => f (w x) = Some x) l.
Proof.
  rewrite mapM_some. split; intros H.
  - induction l as [|x l IH]; [constructor|]. inversion H; subst. constructor; auto.
  - induction H; cbn; constructor; auto.
Qed.
Lemma wf_same_keys {A B} (m : bt string A) (es : bt string B) : Forall2 (fun e f => fst e = fst f) m es -> bt_wf m -> bt_wf es.
Proof.
  induction 1 as [|e f m es E H IH]; intros W; [constructor|]. inversion W as [|? ? S F]; subst. constructor; [apply IH, S|].
  clear - E H F. induction H as [|e' f' m es E' H IH]; [constructor|]. inversion F; subst. constructor; [|apply IH; assumption].
  unfold key_lt in *. rewrite <- E, <- E'. assumption.
Qed.
Lemma read_map_same {A} (r : json -> option A) (w : A -> json) (m : bt string A) : sorted m ->
  (read_map r (json_of_map w m) = Some m <-> forall k a, In (k, a) m -> r (w a) = Some a).
Proof.
  intros S. split; intros H.
  - unfold read_map, json_of_map in H. destruct (mapM _ _) as [es|] eqn:E; [|discriminate H]. injection H as H.
    assert (K : Forall2 (fun e f => fst e = fst f /\ r (w (snd e)) = Some (snd f)) m es).
    { apply mapM_some in E. clear S H. revert es E. induction m as [|[k a] m IH]; intros es E; cbn in E; inversion E as [|? [k' b] ? es' E1 E2]; subst; constructor; auto.
      cbn in E1. destruct (r (w a)) as [b'|] eqn:R; [|discriminate E1]. injection E1 as <- <-. auto. }
    assert (W : bt_wf es) by (apply (wf_same_keys m es); [|exact S]; clear - K; induction K as [|? ? ? ? []]; constructor; auto).
    rewrite (of_list_sorted es W) in H. subst es. clear - K.
    intros k a I. assert (X : forall m', Forall2 (fun e f : string * A => fst e = fst f /\ r (w (snd e)) = Some (snd f)) m' m' -> In (k, a) m' -> r (w a) = Some a).
    { induction m' as [|e m' IH]; intros F J; [destruct J|]. inversion F as [|? ? ? ? [_ R] F']; subst. destruct J as [->|J]; auto. }
    eauto.
  - apply read_map_ok; [exact S|]. intros [k a] I. exact (H k a I).
Qed.

Lemma within_list v l : within v (SArray l) <-> v = SArray l \/ exists w, In w l /\ within v w.
Proof. split; [intros H; inversion H; subst; eauto | intros [->|(w & I & W)]; [constructor|econstructor; eassumption]]. Qed.
Lemma value_same io v : (forall x, float_reads io x x) -> (forall z, within (SInt z) v -> i64_ok z) ->
  (value_of_json io (json_of_value v) = Some v <-> forall x, within (SFloat x) v -> finite x).
Proof.
  intros F. induction v as [s|z|x|l IH|] using value_induction; intros Z.
  - split; [intros _ x H; inversion H|reflexivity].
  - split; [intros _ x H; inversion H|]. intros _. specialize (Z z (W_self _)). destruct Z as [Z1 Z2].
    cbn [json_of_value value_of_json]. unfold read_number.
    destruct (Z.leb_spec 0 z); cbn [andb].
    + destruct (Z.ltb_spec z (2 ^ 64)); [|lia]. destruct (N.ltb_spec (Z.to_N z) (2 ^ 63)); [|lia]. rewrite Z2N.id by lia. reflexivity.
    + destruct (Z.leb_spec (- 2 ^ 63) z); [|lia]. destruct (Z.ltb_spec z 0); [|lia]. reflexivity.
  - split.
    + intros E y H. assert (y = x) as -> by (inversion H; reflexivity). cbn [json_of_value] in E. unfold json_of_f64 in E. destruct (is_finite x) eqn:K; [apply is_finite_iff, K|discriminate E].
    + intros H. specialize (H x (W_self _)). apply is_finite_iff in H. cbn [json_of_value]. unfold json_of_f64. rewrite H. cbn [value_of_json].
      rewrite (F x). reflexivity.
  - cbn [json_of_value value_of_json].
    assert (M : mapM (value_of_json io) (map json_of_value l) = Some l <-> forall x, within (SFloat x) (SArray l) -> finite x).
    { rewrite mapM_same. rewrite Forall_forall in *. split.
      - intros H x W. apply within_list in W as [W|(w & I & W)]; [discriminate W|]. refine (proj1 (IH w I _) (H w I) x W).
        intros z Wz. apply Z. econstructor; eassumption.
      - intros H w I. apply (IH w I); [intros z Wz; apply Z; econstructor; eassumption|]. intros x W. apply H. econstructor; eassumption. }
    rewrite <- M. destruct (mapM _ _) as [l'|]; [|split; discriminate]. split; congruence.
  - split; [intros _ x H; inversion H|reflexivity].
Qed.
Lemma map_same io m : (forall x, float_reads io x x) -> sorted m -> (forall z k w, In (k, w) m -> within (SInt z) w -> i64_ok z) ->
  (read_map (value_of_json io) (json_of_map json_of_value m) = Some m <-> forall x k w, In (k, w) m -> within (SFloat x) w -> finite x).
Proof.
  intros F S Z. rewrite (read_map_same _ _ _ S). split.
  - intros H x k w I. revert x. apply (value_same io w F); eauto.
  - intros H k w I. apply (value_same io w F); eauto.
Qed.
Lemma condition_same io c : (forall x, float_reads io x x) -> (forall m, In m (maps_of c) -> sorted m) ->
  (forall z m k w, In m (maps_of c) -> In (k, w) m -> within (SInt z) w -> i64_ok z) ->
  (condition_of_json io (json_of_condition c) = Some c <-> forall x m k w, In m (maps_of c) -> In (k, w) m -> within (SFloat x) w -> finite x).
Proof.
  intros F S Z. destruct c as [m|l|].
  - cbn [json_of_condition]. assert (X := map_same io m F (S m (or_introl eq_refl)) (fun z k w => Z z m k w (or_introl eq_refl))).
    change (condition_of_json io (json_of_map json_of_value m)) with (let? m := read_map (value_of_json io) (json_of_map json_of_value m) in Some (SMap m)).
    split.
    + intros E x m' k w [<-|[]]. apply X. destruct (read_map _ _); [|discriminate E]. congruence.
    + intros H. rewrite (proj2 X); [reflexivity|]. intros x k w. apply (H x m k w). left. reflexivity.
  - cbn [json_of_condition].
    change (condition_of_json io (json_of_list (json_of_map json_of_value) l)) with (let? l := mapM (read_map (value_of_json io)) (map (json_of_map json_of_value) l) in Some (SList l)).
    assert (X : mapM (read_map (value_of_json io)) (map (json_of_map json_of_value) l) = Some l <-> forall x m k w, In m l -> In (k, w) m -> within (SFloat x) w -> finite x).
    { rewrite mapM_same, Forall_forall. cbn [maps_of] in *. split.
      - intros H x m k w I. revert x k w. apply (map_same io m F (S m I)); eauto.
      - intros H m I. apply (map_same io m F (S m I)); eauto. }
    cbn [maps_of]. rewrite <- X. destruct (mapM _ _); [|split; discriminate]. split; congruence.
  - split; [intros _ x m k w []|reflexivity].
Qed.

Lemma entries_app k a b : entries k (a ++ b) = entries k a ++ entries k b.
Proof. unfold entries. rewrite filter_app, map_app. reflexivity. Qed.
Lemma entries_none {A} k (w : A -> json) (m : list (string * A)) : (forall a, ~ In (k, a) m) -> entries k (map (fun e => (fst e, w (snd e))) m) = [].
Proof.
  induction m as [|[k' a] m IH]; intros H; [reflexivity|]. unfold entries in *. cbn [map filter fst]. destruct (String.eqb_spec k' k) as [->|]; [destruct (H a); left; reflexivity|].
  apply IH. intros b I. apply (H b). right. exact I.
Qed.
Lemma entries_some {A} k (w : A -> json) (m : list (string * A)) a : In (k, a) m -> exists j r, entries k (map (fun e => (fst e, w (snd e))) m) = j :: r.
Proof.
  induction m as [|[k' b] m IH]; intros H; [destruct H|]. unfold entries in *. cbn [map filter fst snd]. destruct (String.eqb_spec k' k) as [->|N]; [cbn; eauto|].
  destruct H as [E|H]; [congruence|]. apply IH, H.
Qed.
Lemma detection_same io d : (forall x, float_reads io x x) -> sorted (search_identifiers d) ->
  (forall id c m, In (id, c) (search_identifiers d) -> In m (maps_of c) -> sorted m) ->
  (forall z id c m k w, In (id, c) (search_identifiers d) -> In m (maps_of c) -> In (k, w) m -> within (SInt z) w -> i64_ok z) ->
  (detection_of_json io (json_of_detection d) = Some d <->
   (forall c, ~ In ("condition", c) (search_identifiers d)) /\
   (forall x id c m k w, In (id, c) (search_identifiers d) -> In m (maps_of c) -> In (k, w) m -> within (SFloat x) w -> finite x)).
Proof.
  intros F S SM Z. destruct d as [ids cond]. cbn [search_identifiers] in *. unfold json_of_detection. cbn [search_identifiers sd_condition].
  set (doc := map _ ids ++ _). cbn [detection_of_json]. unfold doc. rewrite entries_app. change (entries "condition" [("condition", JStr cond)]) with [JStr cond].
  assert (D : (forall c, ~ In ("condition", c) ids) \/ exists c, In ("condition", c) ids).
  { clear. induction ids as [|[k c] ids [IH|(c' & IH)]]; [left; intros c []| |right; exists c'; right; exact IH].
    destruct (String.eqb_spec k "condition") as [->|N]; [right; exists c; left; reflexivity|]. left. intros c' [E|H]; [congruence|exact (IH c' H)]. }
  destruct D as [D|(c & D)].
  - rewrite (entries_none _ _ _ D). cbn [app once req read_str]. rewrite filter_app. cbn [filter fst negb]. rewrite String.eqb_refl. cbn [negb]. rewrite app_nil_r.
    assert (K : filter (fun e : string * json => negb (String.eqb (fst e) "condition")) (map (fun e => (fst e, json_of_condition (snd e))) ids) = map (fun e => (fst e, json_of_condition (snd e))) ids).
    { clear - D. induction ids as [|[k c] ids IH]; [reflexivity|]. cbn [map filter fst]. destruct (String.eqb_spec k "condition") as [->|]; [destruct (D c); left; reflexivity|].
      cbn [negb]. rewrite IH; [reflexivity|]. intros c' I. apply (D c'). right. exact I. }
    rewrite K. change (JObj (map (fun e => (fst e, json_of_condition (snd e))) ids)) with (json_of_map json_of_condition ids).
    assert (X := read_map_same (condition_of_json io) json_of_condition ids S).
    split.
    + intros E. split; [exact D|]. assert (Y : read_map (condition_of_json io) (json_of_map json_of_condition ids) = Some ids) by (destruct (read_map _ _); [congruence|discriminate E]).
      intros x id c m k w I. revert x m k w. apply (condition_same io c F); eauto. eapply X; eassumption.
    + intros [_ H]. rewrite (proj2 X); [reflexivity|]. intros id c I. apply (condition_same io c F); eauto.
  - split; [|intros [H _]; destruct (H c D)]. intros E. exfalso.
    destruct (entries_some _ json_of_condition _ _ D) as (j & r & K). rewrite K in E. destruct r; discriminate E.
Qed.
Lemma entries_skip {A} k k' (w : A -> json) o : entries k (skip_none k' w o) = if String.eqb k' k then match o with Some a => [w a] | None => [] end else [].
Proof. destruct o; unfold entries; cbn [skip_none filter fst]; destruct (String.eqb k' k); reflexivity. Qed.
Lemma once_skip {A} (w : A -> json) o : once match o with Some a => [w a] | None => [] end = Some (option_map w o).
Proof. destruct o; reflexivity. Qed.
Lemma opt_same {A} (r : json -> option A) (w : A -> json) o : (forall a, r (w a) = Some a) -> (forall a, w a <> JNull) -> opt r (option_map w o) = Some o.
Proof. intros R N. destruct o as [a|]; [|reflexivity]. cbn. unfold read_option. specialize (N a). destruct (w a) eqn:E; try (rewrite <- E, R; reflexivity). contradiction. Qed.
Lemma opt_text o : opt read_str (option_map JStr o) = Some o.
Proof. apply opt_same; [reflexivity|discriminate]. Qed.
Lemma opt_texts o : opt (read_list read_str) (option_map json_of_strings o) = Some o.
Proof. apply opt_same; [apply read_strings_ok|discriminate]. Qed.
Ltac given_entries := rewrite ?entries_app, ?entries_skip; lazy beta iota zeta delta [String.eqb Ascii.eqb Bool.eqb]; cbn [app].
Lemma logsource_same l : logsource_of_json (json_of_logsource l) = Some l.
Proof.
  destruct l as [c p s d]. unfold logsource_of_json, json_of_logsource. cbn [ls_category ls_product ls_service ls_definition struct_fields mapM].
  given_entries. rewrite !app_nil_r, !once_skip. rewrite !opt_text. reflexivity.
Qed.
Lemma entries_members k l : entries k (flat_map (fun e : string * option json => match snd e with Some j => [(fst e, j)] | None => [] end) l)
  = flat_map (fun e => if String.eqb (fst e) k then match snd e with Some j => [j] | None => [] end else []) l.
Proof.
  induction l as [|[k' [j|]] l IH]; [reflexivity| |]; cbn [flat_map fst snd]; rewrite entries_app, IH.
  - unfold entries at 1. cbn [filter fst]. destruct (String.eqb k' k); reflexivity.
  - destruct (String.eqb k' k); reflexivity.
Qed.
Lemma once_given o : once (match o with Some j => [j] | None => [] end) = Some o.
Proof. destruct o; reflexivity. Qed.
Lemma struct_members ks l : struct_fields ks (members l) =
  mapM (fun k => once (flat_map (fun e => if String.eqb (fst e) k then match snd e with Some j => [j] | None => [] end else []) l)) ks.
Proof.
  unfold members. cbn [struct_fields]. induction ks as [|k ks IH]; [reflexivity|]. cbn [mapM]. rewrite entries_members, IH. reflexivity.
Qed.
Lemma sigma_read io r : sigma_of_json io (json_of_sigma r) =
  let? de := detection_of_json io (json_of_detection (sg_detection r)) in
  Some (mkSigma (sg_title r) (sg_id r) (sg_description r) (sg_references r) (sg_status r) (sg_license r) (sg_author r) (sg_date r)
    (sg_logsource r) de (sg_fields r) (sg_falsepositives r) (sg_level r) (sg_tags r)).
Proof.
  assert (E : json_of_sigma r = members [("title", Some (JStr (sg_title r))); ("id", option_map JStr (sg_id r)); ("description", option_map JStr (sg_description r));
    ("references", option_map json_of_strings (sg_references r)); ("status", option_map JStr (sg_status r));
    ("license", option_map JStr (sg_license r)); ("author", option_map JStr (sg_author r)); ("date", option_map JStr (sg_date r));
    ("logsource", Some (json_of_logsource (sg_logsource r))); ("detection", Some (json_of_detection (sg_detection r)));
    ("fields", option_map json_of_strings (sg_fields r)); ("falsepositives", option_map json_of_strings (sg_falsepositives r));
    ("level", option_map JStr (sg_level r)); ("tags", option_map json_of_strings (sg_tags r))]).
  { unfold json_of_sigma, members. cbn [flat_map fst snd].
    assert (K : forall A (k : string) (w : A -> json) o, skip_none k w o = match option_map w o with Some j => [(k, j)] | None => [] end) by (intros A k w [a|]; reflexivity).
    rewrite !K, !app_nil_r. reflexivity. }
  rewrite E. clear E. destruct r as [t i d rf s l a dt ls de f fp lv tg]. cbn [sg_title sg_id sg_description sg_references sg_status sg_license sg_author sg_date sg_logsource sg_detection sg_fields sg_falsepositives sg_level sg_tags].
  assert (G : forall o1 o2 o3 o4 o5 o6 o7 o8 o9 o10 o11 o12 o13 o14,
    struct_fields ["title"; "id"; "description"; "references"; "status"; "license"; "author"; "date"; "logsource"; "detection"; "fields"; "falsepositives"; "level"; "tags"]
      (members [("title", o1); ("id", o2); ("description", o3); ("references", o4); ("status", o5); ("license", o6); ("author", o7); ("date", o8); ("logsource", o9);
        ("detection", o10); ("fields", o11); ("falsepositives", o12); ("level", o13); ("tags", o14)])
    = Some [o1; o2; o3; o4; o5; o6; o7; o8; o9; o10; o11; o12; o13; o14]).
  { intros. rewrite struct_members. cbn [mapM]. cbn [flat_map fst snd String.eqb Ascii.eqb Bool.eqb app]. rewrite !app_nil_r, !once_given. reflexivity. }
  unfold sigma_of_json. rewrite G. cbn [req read_str]. rewrite !opt_text, !opt_texts, logsource_same.
  destruct (detection_of_json io (json_of_detection de)); reflexivity.
Qed.
Theorem C179_roundtrip : forall io r, (forall x, float_reads io x x) -> sigma_fits r ->
  (sigma_of_json io (json_of_sigma r) = Some r <->
   (forall c, ~ In ("condition", c) (search_identifiers (sg_detection r))) /\ forall x, occurs (SFloat x) r -> finite x).
Proof.
  intros io r F (S & SM & Z).
  assert (D := detection_same io (sg_detection r) F S SM).
  assert (D' : (forall z id c m k w, In (id, c) (search_identifiers (sg_detection r)) -> In m (maps_of c) -> In (k, w) m -> within (SInt z) w -> i64_ok z))
    by (intros z id c m k w H1 H2 H3 H4; apply Z; exists id, c, m, k, w; auto).
  specialize (D D'). clear D' Z S SM F.
  assert (X : (forall x, occurs (SFloat x) r -> finite x) <->
    (forall x id c m k w, In (id, c) (search_identifiers (sg_detection r)) -> In m (maps_of c) -> In (k, w) m -> within (SFloat x) w -> finite x)).
  { split; [intros H x id c m k w H1 H2 H3 H4; apply H; exists id, c, m, k, w; auto | intros H x (id & c & m & k & w & H1 & H2 & H3 & H4); exact (H x id c m k w H1 H2 H3 H4)]. }
  rewrite X, <- D. clear X D.
  rewrite sigma_read. destruct r as [t i d rf s l a dt ls de f fp lv tg].
  cbn [sg_title sg_id sg_description sg_references sg_status sg_license sg_author sg_date sg_logsource sg_detection sg_fields sg_falsepositives sg_level sg_tags].
  destruct (detection_of_json io (json_of_detection de)) as [de'|]; [|split; discriminate]. split; congruence.
Qed.
Print Assumptions C179_roundtrip.


(** A rule that is read has maps without repeated keys, integers of 64 bits, and no identifier called condition; so it can be
    passed on. *)
Definition value_fits (v : sigma_value) : Prop := forall z, within (SInt z) v -> i64_ok z.
Lemma reads_value io : reads (value_of_json io) value_fits.
Proof.
  intros j. induction j as [|b|z|x|s|l IH|l IH] using json_induction; intros v E; cbn [value_of_json] in E; try discriminate E.
  - injection E as <-. intros z H. inversion H.
  - intros z' W. unfold read_number in E. destruct (Z.leb_spec 0 z); cbn [andb] in E.
    + destruct (Z.ltb_spec z (2 ^ 64)).
      * destruct (N.ltb_spec (Z.to_N z) (2 ^ 63)); injection E as <-; inversion W; subst. unfold i64_ok. rewrite Z2N.id by lia. lia.
      * destruct (Z.ltb_spec z 0); [lia|]. rewrite andb_false_r in E. destruct (big_int io z); [|discriminate E]. injection E as <-. inversion W.
    + destruct (Z.leb_spec (- 2 ^ 63) z); cbn [andb] in E.
      * destruct (Z.ltb_spec z 0); [|lia]. injection E as <-. inversion W; subst. unfold i64_ok. lia.
      * destruct (big_int io z); [|discriminate E]. injection E as <-. inversion W.
  - destruct (reread io x); [|discriminate E]. injection E as <-. intros z W. inversion W.
  - injection E as <-. intros z H. inversion H.
  - destruct (mapM _ l) as [vs|] eqn:M; [|discriminate E]. injection E as <-. apply mapM_some in M. intros z W.
    apply within_list in W as [W|(w & I & W)]; [discriminate W|].
    induction M as [|j u l us M1 M2 IM]; [destruct I|]. destruct I as [<-|I].
    + exact (IH j (or_introl eq_refl) _ M1 z W).
    + apply IM; [|exact I]. intros x J. apply IH. right. exact J.
Qed.
Definition values_fit (m : bt string sigma_value) : Prop := sorted m /\ Forall (fun e => value_fits (snd e)) m.
Lemma reads_condition io : reads (condition_of_json io) (fun c => forall m, In m (maps_of c) -> values_fit m).
Proof.
  intros j c E. destruct j as [| | | | |l|l]; try discriminate E.
  - injection E as <-. intros m [].
  - unfold condition_of_json in E. destruct (read_list _ _) as [ms|] eqn:K; [|discriminate E]. injection E as <-.
    apply (reads_list _ _ (reads_map _ _ (reads_value io))) in K. rewrite Forall_forall in K. exact K.
  - unfold condition_of_json in E. destruct (read_map _ _) as [m|] eqn:K; [|discriminate E]. injection E as <-.
    intros m' [<-|[]]. apply (reads_map _ _ (reads_value io)) in K. exact K.
Qed.
Lemma read_map_keys {A} (r : json -> option A) l m k a : read_map r (JObj l) = Some m -> In (k, a) m -> exists j, In (k, j) l.
Proof.
  intros E I. cbn [read_map] in E. destruct (mapM _ l) as [es|] eqn:M; [|discriminate E]. injection E as <-.
  assert (F : Forall (fun e : string * A => exists j, In (fst e, j) l) (bt_of_list es)).
  { assert (G : Forall (fun e : string * A => exists j, In (fst e, j) l) es).
    { apply mapM_some in M. clear k a I. assert (G : forall l', incl l l' -> Forall (fun e : string * A => exists j, In (fst e, j) l') es).
      { induction M as [|x e l es M1 M2 IH]; intros l' J; constructor.
        - destruct (r (snd x)); [|discriminate M1]. injection M1 as <-. exists (snd x). apply J. left. destruct x; reflexivity.
        - apply IH. intros y Y. apply J. right. exact Y. }
      apply G. intros x X. exact X. }
    unfold bt_of_list. assert (H0 : Forall (fun e : string * A => exists j, In (fst e, j) l) (@bt_empty string A)) by constructor.
    revert H0. generalize (@bt_empty string A) as m0. clear - G. induction G as [|e es H G IH]; intros m0 H0; [exact H0|]. cbn [fold_left]. apply IH.
    apply forall_insert; assumption. }
  rewrite Forall_forall in F. exact (F _ I).
Qed.
Lemma reads_sigma io : reads (sigma_of_json io) (fun r => sigma_fits r /\ forall c, ~ In ("condition", c) (search_identifiers (sg_detection r))).
Proof.
  intros j r E. unfold sigma_of_json in E. struct E.
  match goal with H : req (detection_of_json io) _ = Some _ |- _ => rename H into D end.
  match type of D with req _ ?o = _ => destruct o as [jd|]; [|discriminate D] end. cbn [req] in D.
  unfold sigma_fits. cbn [sg_detection]. destruct jd as [| | | | | |ds]; try discriminate D. cbn [detection_of_json] in D. struct D.
  match goal with H : read_map (condition_of_json io) _ = Some _ |- _ => rename H into M end. cbn [search_identifiers].
  pose proof (reads_map _ _ (reads_condition io) _ _ M) as [S F]. rewrite Forall_forall in F.
  assert (V : forall id c m, In (id, c) b -> In m (maps_of c) -> values_fit m) by (intros id c m I J; exact (F _ I m J)).
  splits.
  - exact S.
  - intros id c m I J. exact (proj1 (V id c m I J)).
  - intros z (id & c & m & k & w & I & J & KK & W). cbn [sg_detection search_identifiers] in I. destruct (V id c m I J) as [_ Q].
    rewrite Forall_forall in Q. exact (Q _ KK z W).
  - intros c I. destruct (read_map_keys _ _ _ _ _ M I) as (j' & X). apply filter_In in X as [_ X]. rewrite String.eqb_refl in X. discriminate X.
Qed.
Theorem C175_sigma : forall io j r, sigma_of_json io j = Some r -> sigma_fits r.
Proof. intros io j r E. exact (proj1 (reads_sigma io j r E)). Qed.
Print Assumptions C175_sigma.
Theorem C179_passed_on : forall io j r, (forall x, float_reads io x x) -> sigma_of_json io j = Some r -> (forall x, occurs (SFloat x) r -> finite x) ->
  sigma_of_json io (json_of_sigma r) = Some r.
Proof. intros io j r F E H. destruct (reads_sigma io j r E) as [A B]. apply C179_roundtrip; auto. Qed.
Print Assumptions C179_passed_on.
Theorem C153_sigma : forall io,
  by_keys ["title"; "logsource"; "detection"] ["id"; "description"; "references"; "status"; "license"; "author"; "date"; "fields"; "falsepositives"; "level"; "tags"] (sigma_of_json io)
  /\ by_keys [] ["category"; "product"; "service"; "definition"] logsource_of_json /\ by_keys ["language_map"] [] dictionary_of_json.
Proof.
  intros io. splits; [keys sigma_of_json|keys logsource_of_json|keys dictionary_of_json].
Qed.
Print Assumptions C153_sigma.

(** C180. Full property: every rule that is written is read. One with an identifier called condition is not. *)
Theorem C180_condition_refuted : forall io r c, In ("condition", c) (search_identifiers (sg_detection r)) -> sigma_of_json io (json_of_sigma r) = None.
Proof.
  intros io r c I. assert (D : detection_of_json io (json_of_detection (sg_detection r)) = None).
  { unfold json_of_detection. cbn [detection_of_json]. rewrite entries_app. destruct (entries_some _ json_of_condition _ _ I) as (j & q & ->).
    destruct q; reflexivity. }
  rewrite sigma_read, D. reflexivity.
Qed.
Print Assumptions C180_condition_refuted.

(** ** What is read from documents of the rule language *)
Lemma value_means io j v : value_of_json io j = Some v <-> reads_as io j v.
Proof.
  revert v. induction j as [|b|z|x|s|l IH|l IH] using json_induction; intros v; cbn [value_of_json].
  - split; [intros [= <-]; constructor|inversion 1; reflexivity].
  - split; [discriminate|inversion 1].
  - unfold read_number. destruct (Z.leb_spec 0 z); cbn [andb].
    + destruct (Z.ltb_spec z (2 ^ 64)).
      * destruct (N.ltb_spec (Z.to_N z) (2 ^ 63)); rewrite Z2N.id by lia.
        -- split; [intros [= <-]; constructor; unfold i64_ok; lia|]. inversion 1; subst; [reflexivity|lia|lia].
        -- split; [intros [= <-]; apply RA_large; lia|]. inversion 1; subst; [unfold i64_ok in *; lia|reflexivity|lia].
      * destruct (Z.ltb_spec z 0); [lia|]. rewrite andb_false_r. split.
        -- destruct (big_int io z) eqn:B; [|discriminate]. intros [= <-]. apply RA_huge; [lia|exact B].
        -- inversion 1 as [| | |? y ? E| | |]; subst; [unfold i64_ok in *; lia|lia|]. rewrite E. reflexivity.
    + destruct (Z.leb_spec (- 2 ^ 63) z); cbn [andb].
      * destruct (Z.ltb_spec z 0); [|lia]. split; [intros [= <-]; constructor; unfold i64_ok; lia|]. inversion 1; subst; [reflexivity|lia|lia].
      * split.
        -- destruct (big_int io z) eqn:B; [|discriminate]. intros [= <-]. apply RA_huge; [lia|exact B].
        -- inversion 1 as [| | |? y ? E| | |]; subst; [unfold i64_ok in *; lia|lia|]. rewrite E. reflexivity.
  - split.
    + destruct (reread io x) eqn:R; [|discriminate]. intros [= <-]. constructor. exact R.
    + inversion 1 as [| | | |? ? E| |]; subst. unfold float_reads in E. rewrite E. reflexivity.
  - split; [intros [= <-]; constructor|inversion 1; reflexivity].
  - assert (X : forall vs, mapM (value_of_json io) l = Some vs <-> Forall2 (reads_as io) l vs).
    { intros vs. rewrite mapM_some. split; intros H; revert IH; induction H as [|j u l us H1 H2 K]; intros IH; constructor.
      - apply IH; [left; reflexivity|exact H1].
      - apply K. intros y Y. apply IH. right. exact Y.
      - apply IH; [left; reflexivity|exact H1].
      - apply K. intros y Y. apply IH. right. exact Y. }
    split.
    + destruct (mapM _ l) as [vs|] eqn:M; [|discriminate]. intros [= <-]. constructor. apply X. reflexivity.
    + inversion 1 as [| | | | |? ? E|]; subst. apply X in E. rewrite E. reflexivity.
  - split; [discriminate|inversion 1].
Qed.
Lemma members_mean {A} (r : json -> option A) (R : json -> A -> Prop) l m : (forall j a, r j = Some a -> R j a) ->
  read_map r (JObj l) = Some m -> members_read_as R l m.
Proof.
  intros H E. cbn [read_map] in E. destruct (mapM _ l) as [es|] eqn:M; [|discriminate E]. injection E as <-. split; [apply wf_of_list|].
  intros k. rewrite bt_get_of_list. apply mapM_some in M. induction M as [|[k' j] e l es M1 M2 IH]; [exact I|]. cbn [fst snd] in M1.
  destruct (r j) as [a|] eqn:Rj; [|discriminate M1]. injection M1 as <-. cbn [last_assoc].
  destruct (last_assoc k l), (last_assoc k es); try exact IH; try contradiction. destruct (keqb k k'); [apply H, Rj|exact I].
Qed.
Lemma search_means io j c : condition_of_json io j = Some c -> search_reads_as io j c.
Proof.
  assert (MM : forall j m, read_map (value_of_json io) j = Some m -> map_reads_as io j m).
  { intros j' m E. destruct j'; try discriminate E. constructor. eapply members_mean; [|exact E]. intros a b. apply value_means. }
  intros E. destruct j as [| | | | |l|l]; try discriminate E.
  - injection E as <-. constructor.
  - unfold condition_of_json in E. destruct (read_list _ _) as [ms|] eqn:K; [|discriminate E]. injection E as <-. constructor.
    cbn [read_list] in K. apply mapM_some in K. clear - K MM. induction K; constructor; auto.
  - unfold condition_of_json in E. destruct (read_map _ _) as [m|] eqn:K; [|discriminate E]. injection E as <-. constructor. apply MM, K.
Qed.
Theorem C179_meaning : forall io l d, detection_of_json io (JObj l) = Some d ->
  entries "condition" l = [JStr (sd_condition d)]
  /\ members_read_as (search_reads_as io) (filter (fun e => negb (String.eqb (fst e) "condition")) l) (search_identifiers d).
Proof.
  intros io l d E. cbn [detection_of_json] in E. destruct (entries "condition" l) as [|j [|]]; try discriminate E. cbn [once req] in E.
  destruct j; try discriminate E. cbn [read_str] in E. destruct (read_map _ _) as [m|] eqn:M; [|discriminate E]. injection E as <-.
  split; [reflexivity|]. eapply members_mean; [|exact M]. intros j c. apply search_means.
Qed.
Print Assumptions C179_meaning.

Definition reads_floats (io : float_io) : Prop := forall x, finite x -> exists y, float_reads io x y.
Lemma scalar_read io j : reads_floats io -> sigma_scalar j -> (forall b, j <> JBool b) -> exists v, value_of_json io j = Some v.
Proof.
  intros F H N. destruct H as [s|z Z|x X|b|].
  - exists (SText s). reflexivity.
  - destruct (Z.ltb_spec z (2 ^ 63)).
    + exists (SInt z). apply value_means. constructor. unfold i64_ok. lia.
    + eexists. apply value_means. apply RA_large. lia.
  - destruct (F x X) as (y & Y). exists (SFloat y). apply value_means. constructor. exact Y.
  - destruct (N b). reflexivity.
  - exists SNone. reflexivity.
Qed.
Lemma mapM_exists {A B} (f : A -> option B) l : (forall a, In a l -> exists b, f a = Some b) -> exists bs, mapM f l = Some bs.
Proof.
  induction l as [|a l IH]; intros H; [exists []; reflexivity|]. destruct (H a (or_introl eq_refl)) as (b & E).
  destruct IH as (bs & E'); [intros x I; apply H; right; exact I|]. exists (b :: bs). cbn [mapM]. rewrite E, E'. reflexivity.
Qed.
Lemma values_read io j : reads_floats io -> sigma_values j -> no_bool j -> exists v, value_of_json io j = Some v.
Proof.
  intros F H [N M]. destruct H as [j H|l H]; [apply scalar_read; assumption|]. rewrite Forall_forall in H.
  destruct (mapM_exists (value_of_json io) l) as (vs & E).
  - intros j I. apply scalar_read; [exact F|apply H, I|]. intros b ->. exact (M l b eq_refl I).
  - exists (SArray vs). cbn [value_of_json]. rewrite E. reflexivity.
Qed.
Lemma members_read {A} (r : json -> option A) l : (forall k j, In (k, j) l -> exists a, r j = Some a) -> exists m, read_map r (JObj l) = Some m.
Proof.
  intros H. cbn [read_map]. destruct (mapM_exists (fun e : string * json => let? x := r (snd e) in Some (fst e, x)) l) as (es & E).
  - intros [k j] I. cbn [fst snd]. destruct (H k j I) as (a & ->). exists (k, a). reflexivity.
  - rewrite E. eexists. reflexivity.
Qed.
Lemma plain_map_read io j : reads_floats io -> plain_map j -> exists m, read_map (value_of_json io) j = Some m.
Proof.
  intros F (l & -> & H). rewrite Forall_forall in H. apply members_read. intros k j I. apply H in I as [A B]. apply values_read; assumption.
Qed.
Lemma plain_read io j : reads_floats io -> plain_search j -> exists c, condition_of_json io j = Some c.
Proof.
  intros F [H|(l & -> & H)].
  - destruct (plain_map_read io j F H) as (m & E). destruct H as (l & -> & _). exists (SMap m). unfold condition_of_json. rewrite E. reflexivity.
  - rewrite Forall_forall in H. destruct (mapM_exists (read_map (value_of_json io)) l) as (ms & E).
    + intros j I. apply plain_map_read; auto.
    + exists (SList ms). unfold condition_of_json. cbn [read_list]. rewrite E. reflexivity.
Qed.
Theorem C179_reads : forall io before after c, reads_floats io ->
  Forall (fun e => fst e <> "condition" /\ plain_search (snd e)) (before ++ after) ->
  exists d, detection_of_json io (JObj (before ++ [("condition", JStr c)] ++ after)) = Some d /\ sd_condition d = c
    /\ members_read_as (search_reads_as io) (before ++ after) (search_identifiers d).
Proof.
  intros io before after c F H. set (l := before ++ [("condition", JStr c)] ++ after).
  assert (K : forall l0 : list (string * json), Forall (fun e => fst e <> "condition" /\ plain_search (snd e)) l0 ->
    entries "condition" l0 = [] /\ filter (fun e => negb (String.eqb (fst e) "condition")) l0 = l0).
  { intros l0 X. induction X as [|[k j] l0 [A _] _ [IH1 IH2]]; [split; reflexivity|]. unfold entries in *. cbn [filter map fst] in *.
    destruct (String.eqb_spec k "condition"); [contradiction|]. cbn [negb]. rewrite IH2. auto. }
  pose proof (proj1 (Forall_app _ _ _) H) as [H1 H2]. destruct (K _ H1) as [E1 G1], (K _ H2) as [E2 G2].
  assert (E : entries "condition" l = [JStr c]) by (unfold l; rewrite !entries_app, E1, E2; reflexivity).
  assert (G : filter (fun e => negb (String.eqb (fst e) "condition")) l = before ++ after)
    by (unfold l; rewrite !filter_app, G1, G2; reflexivity).
  destruct (members_read (condition_of_json io) (before ++ after)) as (m & M).
  { intros k j I. rewrite Forall_forall in H. apply plain_read; [exact F|]. exact (proj2 (H _ I)). }
  exists (mkDetection m c). assert (D : detection_of_json io (JObj l) = Some (mkDetection m c)).
  { cbn [detection_of_json]. rewrite E, G. cbn [once req read_str]. rewrite M. reflexivity. }
  split; [exact D|]. split; [reflexivity|]. apply C179_meaning in D as [_ D]. rewrite G in D. exact D.
Qed.
Print Assumptions C179_reads.

(** C181. Full property: every detection of the rule language is read. *)
Definition language_read := forall io before after c, reads_floats io ->
  Forall (fun e => fst e <> "condition" /\ sigma_search (snd e)) (before ++ after) ->
  detection_of_json io (JObj (before ++ [("condition", JStr c)] ++ after)) <> None.
Lemma refused io l k j : In (k, j) l -> k <> "condition" -> condition_of_json io j = None -> detection_of_json io (JObj l) = None.
Proof.
  intros I N E. destruct (detection_of_json io (JObj l)) as [d|] eqn:D; [|reflexivity]. exfalso. cbn [detection_of_json] in D.
  destruct (once _) as [o|]; [|discriminate D]. destruct (req _ o); [|discriminate D]. destruct (read_map _ _) as [m|] eqn:M; [|discriminate D]. clear D.
  cbn [read_map] in M. destruct (mapM _ _) as [es|] eqn:K; [|discriminate M]. clear M. apply mapM_some in K.
  assert (J : In (k, j) (filter (fun e : string * json => negb (String.eqb (fst e) "condition")) l))
    by (apply filter_In; split; [exact I|]; cbn [fst]; destruct (String.eqb_spec k "condition"); [contradiction|reflexivity]).
  induction K as [|x e xs es K1 K2 IH]; [destruct J|]. destruct J as [->|J]; [|exact (IH J)]. cbn [fst snd] in K1. rewrite E in K1. discriminate K1.
Qed.
(** a list with a keyword *)
Theorem C181_keywords : forall io l k j s, In (k, JArr j) l -> k <> "condition" -> In (JStr s) j -> detection_of_json io (JObj l) = None.
Proof.
  intros io l k j s I N J. eapply refused; [exact I|exact N|]. unfold condition_of_json. cbn [read_list].
  destruct (mapM _ j) as [ms|] eqn:M; [|reflexivity]. exfalso. apply mapM_some in M. clear I. induction M as [|? ? ? ? M1 M2 IH]; [destruct J|].
  destruct J as [->|J]; [discriminate M1|exact (IH J)].
Qed.
Print Assumptions C181_keywords.
(** a truth value, alone or in a list of values *)
Theorem C181_truth_values : forall io l k j f v b, In (k, JObj j) l -> k <> "condition" -> In (f, v) j -> v = JBool b \/ (exists vs, v = JArr vs /\ In (JBool b) vs) ->
  detection_of_json io (JObj l) = None.
Proof.
  intros io l k j f v b I N J V. eapply refused; [exact I|exact N|]. unfold condition_of_json. cbn [read_map].
  assert (E : value_of_json io v = None).
  { destruct V as [->|(vs & -> & V)]; [reflexivity|]. cbn [value_of_json]. destruct (mapM _ vs) as [us|] eqn:M; [|reflexivity]. exfalso.
    clear J. apply mapM_some in M. induction M as [|? ? ? ? M1 M2 IH]; [destruct V|]. destruct V as [->|V]; [discriminate M1|exact (IH V)]. }
  destruct (mapM _ j) as [ms|] eqn:M; [|reflexivity]. exfalso. clear I V. apply mapM_some in M. induction M as [|? ? ? ? M1 M2 IH]; [destruct J|].
  destruct J as [->|J]; [|exact (IH J)]. cbn [fst snd] in M1. rewrite E in M1. discriminate M1.
Qed.
Print Assumptions C181_truth_values.
(** a member with a text, such as a time frame *)
Theorem C181_texts : forall io l k s, In (k, JStr s) l -> k <> "condition" -> detection_of_json io (JObj l) = None.
Proof. intros io l k s I N. eapply refused; [exact I|exact N|reflexivity]. Qed.
Print Assumptions C181_texts.
Theorem C181_refuted : ~ language_read.
Proof.
  intros H. apply (H (Build_float_io Some (fun _ => None)) [("keywords", JArr [JStr "mimikatz"])] [] "keywords").
  - intros x _. exists x. reflexivity.
  - constructor; [|constructor]. split; [discriminate|]. apply Search_keywords. constructor; [eexists; reflexivity|constructor].
  - reflexivity.
Qed.
Print Assumptions C181_refuted.

(** ** C182: alert dictionaries *)
Theorem C182_document : forall d, json_of_dictionary d = JObj [("language_map", JObj (map (fun e => (fst e, JObj (map (fun t => (fst t, JStr (snd t))) (snd e)))) (language_map d)))].
Proof. reflexivity. Qed.
Print Assumptions C182_document.
Theorem C182_roundtrip : forall d, sorted (language_map d) -> (forall lang texts, In (lang, texts) (language_map d) -> sorted texts) ->
  dictionary_of_json (json_of_dictionary d) = Some d.
Proof.
  intros [m] S T. cbn [language_map] in *. unfold dictionary_of_json, json_of_dictionary. cbn [language_map].
  change (struct_fields ["language_map"] (JObj [("language_map", json_of_map (json_of_map JStr) m)])) with (Some [Some (json_of_map (json_of_map JStr) m)]).
  cbn [req]. rewrite (proj2 (read_map_same (read_map read_str) (json_of_map JStr) m S)); [reflexivity|].
  intros k t I. apply (read_map_same read_str JStr t (T k t I)). reflexivity.
Qed.
Print Assumptions C182_roundtrip.
Theorem C182_fits : forall j d, dictionary_of_json j = Some d -> sorted (language_map d) /\ (forall lang texts, In (lang, texts) (language_map d) -> sorted texts).
Proof.
  intros j d E. unfold dictionary_of_json in E. struct E. cbn [language_map].
  match goal with H : req _ ?o = Some _ |- _ => destruct o as [jd|]; [|discriminate H]; cbn [req] in H; rename H into M end.
  assert (R : reads (read_map read_str) (fun m => sorted m /\ Forall (fun e => True) m)).
  { apply (reads_map read_str (fun _ => True)). intros x y _. exact I. }
  apply (reads_map _ _ R) in M as [A B]. split; [exact A|]. rewrite Forall_forall in B. intros lang texts J. exact (proj1 (B _ J)).
Qed.
Print Assumptions C182_fits.
Theorem C182_passed_on : forall j d, dictionary_of_json j = Some d -> dictionary_of_json (json_of_dictionary d) = Some d.
Proof. intros j d E. destruct (C182_fits j d E) as [A B]. apply C182_roundtrip; assumption. Qed.
Print Assumptions C182_passed_on.

(** ** Concrete cases *)
Definition plain_io : float_io := Build_float_io Some (fun _ => None).
Definition a_rule : sigma_rule :=
  mkSigma "Mimikatz" (Some "7a6b") None (Some ["https://example.org"]) (Some "test") None None (Some "2022/01/01")
    (mkSource (Some "process_creation") (Some "windows") None None)
    (mkDetection [("filter", SNoCondition);
                  ("selection", SList [[("CommandLine|contains", SArray [SText "sekurlsa"; SText "lsadump"])]; [("EventID", SInt (-1)); ("Image", SNone); ("Score", SFloat (S754_finite false 3 (-1)))]])] "selection and not filter")
    None (Some ["none"]) (Some "high") (Some ["attack.t1003"]).
Example C179_case : sigma_fits a_rule /\ (forall c, ~ In ("condition", c) (search_identifiers (sg_detection a_rule))) /\ (forall x, occurs (SFloat x) a_rule -> finite x)
  /\ sigma_of_json plain_io (json_of_sigma a_rule) = Some a_rule
  /\ json_of_logsource (sg_logsource a_rule) = JObj [("category", JStr "process_creation"); ("product", JStr "windows")].
Proof.
  assert (R : sigma_of_json plain_io (json_of_sigma a_rule) = Some a_rule) by (vm_compute; reflexivity).
  pose proof (reads_sigma _ _ _ R) as [A B]. splits; auto.
  apply (C179_roundtrip plain_io a_rule); auto. intros x. reflexivity.
Qed.
Example C179_reads_case : exists d, detection_of_json plain_io (JObj [("selection", JObj [("EventID", JInt 1); ("EventID", JInt 2)]); ("condition", JStr "selection"); ("none", JArr [])]) = Some d
  /\ search_identifiers d = [("none", SList []); ("selection", SMap [("EventID", SInt 2)])].
Proof. eexists. split; vm_compute; reflexivity. Qed.
Example C180_case : sigma_of_json plain_io (json_of_sigma (mkSigma "t" None None None None None None None (mkSource None None None None)
  (mkDetection [("condition", SNoCondition)] "condition") None None None None)) = None.
Proof. vm_compute. reflexivity. Qed.
Example C182_case : let d := mkDict [("en", [("a", "alert")]); ("es", [("a", "alerta"); ("b", "otra")])] in dictionary_of_json (json_of_dictionary d) = Some d.
Proof. vm_compute. reflexivity. Qed.
