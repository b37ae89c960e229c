(** Reading back rules. *)
From Coq Require Import String Ascii NArith ZArith List Bool Lia.
From Verif Require Import Base.Arith Base.Ord Base.BTree Base.Str Base.Outcome Model.Ip Model.Field Model.Log
  Model.DatasetTypes Model.Holder Model.Mitre Model.Rule Model.Command Model.Component Model.Payloads Model.Json Model.JsonField Model.JsonCommand Model.JsonRule
  Spec.JsonSpec Proofs.JsonP Proofs.JsonCmdP.
Import ListNotations.
Local Open Scope string_scope.
Local Open Scope list_scope.

Lemma state_rt s : state_of_json (json_of_state s) = Some s.
Proof. destruct s as [[t|f]]; reflexivity. Qed.
Lemma content_rt c : content_of_json (json_of_content c) = Some c.
Proof. destruct c; reflexivity. Qed.
Lemma mitre_rt m : mitre_of_json (json_of_mitre m) = Some m.
Proof.
  destruct m as [a b]. unfold mitre_of_json, json_of_mitre. cbn [mi_tactics mi_techniques]. fields.
  rewrite (read_list_ok tactic_of_json json_of_tactic) by (intros; apply tactic_rt).
  rewrite (read_list_ok technique_of_json json_of_technique) by (intros; apply technique_rt). reflexivity.
Qed.
Lemma alert_gen_rt a : (forall g, al_aggregation a = Some g -> aggregation_ok g) -> alert_gen_of_json (json_of_alert_gen a) = Some a.
Proof.
  intros K. destruct a as [c s t g]. cbn [al_aggregation] in K. unfold alert_gen_of_json, json_of_alert_gen.
  cbn [al_content al_severity al_tags al_aggregation]. destruct g as [g|]; fields; rewrite (read_list_ok content_of_json json_of_content) by (intros; apply content_rt);
    rewrite severity_rt, read_strings_ok.
  - unfold opt, read_option. rewrite (aggregation_rt g (K g eq_refl)). reflexivity.
  - reflexivity.
Qed.

(** Induction over operators, with the lists in them *)
Section op_induction.
  Context (P : rule_op -> Prop).
  Context (Hall : forall l, Forall P l -> P (OAll l)) (Hany : forall l, Forall P l -> P (OAny l)) (Hnot : forall o, P o -> P (ONot o))
    (Hb64 : forall o, P o -> P (OB64 o))
    (Hrest : forall o, (forall l, o <> OAll l) -> (forall l, o <> OAny l) -> (forall p, o <> ONot p) -> (forall p, o <> OB64 p) -> P o).
  Lemma op_ind_nested : forall o, P o.
  Proof.
    fix IH 1. intros o.
    destruct o as [l|l|o| | | | | | | | | | | | | | |o| | | ]; try (apply Hrest; intros; discriminate).
    - apply Hall. induction l as [|x r IHl]; constructor; [apply IH|exact IHl].
    - apply Hany. induction l as [|x r IHl]; constructor; [apply IH|exact IHl].
    - apply Hnot, IH.
    - apply Hb64, IH.
  Qed.
End op_induction.

Section Rules.
  Context (io : float_io) (compiles : string -> bool).

  Lemma ops_read l : Forall (fun o => op_ok o -> forall o', op_of_json io compiles (json_of_op o) = Some o' <-> op_becomes io compiles o o') l ->
    (forall o, In o l -> op_ok o) ->
    forall l', mapM (op_of_json io compiles) (map (fun o => JObj [op_entry o]) l) = Some l' <-> Forall2 (op_becomes io compiles) l l'.
  Proof.
    intros F K l'. rewrite mapM_some. revert l'. induction F as [|o r H F IH]; intros l'; cbn [map].
    - split; inversion 1; constructor.
    - split; inversion 1; subst; constructor; try (apply IH; auto; intros; apply K; right; assumption);
        apply H; auto; apply K; left; reflexivity.
  Qed.
  Ltac step := cbn [json_of_op op_entry op_of_json]; lazy beta iota zeta delta [String.eqb Ascii.eqb Bool.eqb pick newtype_v pair_v read_pair].
  Lemma op_reads o : op_ok o -> forall o', op_of_json io compiles (json_of_op o) = Some o' <-> op_becomes io compiles o o'.
  Proof.
    induction o as [l IH|l IH|o IH|o IH|o N1 N2 N3 N4] using op_ind_nested; intros K o'.
    - unfold json_of_op. cbn [op_entry op_of_json]. change (String.eqb "all" "all") with true. cbv iota.
      assert (K' : forall o, In o l -> op_ok o) by (intros o I p J; apply K; eapply In_all; eauto).
      destruct (mapM _ _) as [l'|] eqn:E.
      + split; [intros [= <-]; constructor; apply (ops_read l IH K'); exact E|]. inversion 1; subst.
        match goal with X : Forall2 _ l _ |- _ => apply (ops_read l IH K') in X end. congruence.
      + split; [discriminate|]. inversion 1; subst. match goal with X : Forall2 _ l _ |- _ => apply (ops_read l IH K') in X end. congruence.
    - unfold json_of_op. cbn [op_entry op_of_json]. change (String.eqb "any" "all") with false. change (String.eqb "any" "any") with true. cbv iota.
      assert (K' : forall o, In o l -> op_ok o) by (intros o I p J; apply K; eapply In_any; eauto).
      destruct (mapM _ _) as [l'|] eqn:E.
      + split; [intros [= <-]; constructor; apply (ops_read l IH K'); exact E|]. inversion 1; subst.
        match goal with X : Forall2 _ l _ |- _ => apply (ops_read l IH K') in X end. congruence.
      + split; [discriminate|]. inversion 1; subst. match goal with X : Forall2 _ l _ |- _ => apply (ops_read l IH K') in X end. congruence.
    - assert (K' : op_ok o) by (intros p J; apply K; constructor; exact J). specialize (IH K').
      change (op_of_json io compiles (json_of_op (ONot o))) with (let? p := op_of_json io compiles (json_of_op o) in Some (ONot p)).
      destruct (op_of_json io compiles (json_of_op o)) as [p|].
      + split; [intros [= <-]; constructor; apply IH; reflexivity|]. inversion 1; subst.
        match goal with X : op_becomes _ _ o _ |- _ => apply IH in X end. congruence.
      + split; [discriminate|]. inversion 1; subst. match goal with X : op_becomes _ _ o _ |- _ => apply IH in X end. congruence.
    - assert (K' : op_ok o) by (intros p J; apply K; constructor; exact J). specialize (IH K').
      change (op_of_json io compiles (json_of_op (OB64 o))) with (let? p := op_of_json io compiles (json_of_op o) in Some (OB64 p)).
      destruct (op_of_json io compiles (json_of_op o)) as [p|].
      + split; [intros [= <-]; constructor; apply IH; reflexivity|]. inversion 1; subst.
        match goal with X : op_becomes _ _ o _ |- _ => apply IH in X end. congruence.
      + split; [discriminate|]. inversion 1; subst. match goal with X : op_becomes _ _ o _ |- _ => apply IH in X end. congruence.
    - pose proof (K o (In_self o)) as C.
      destruct o as [l|l|o|f|s|s|s|f|f|f|f|re|ip bits|b|b|b|b|o|t|l|s];
        try (exfalso; eapply N1; reflexivity); try (exfalso; eapply N2; reflexivity); try (exfalso; eapply N3; reflexivity); try (exfalso; eapply N4; reflexivity);
        cbn [compares_ok] in C; unfold json_of_op; cbn [op_entry op_of_json];
        lazy beta iota zeta delta [String.eqb Ascii.eqb Bool.eqb pick newtype_v pair_v read_pair];
        cbn [read_str read_bool];
        try (split; [intros [= <-]; constructor|inversion 1; reflexivity]; fail);
        try (let y := fresh in pose proof (fun g => field_reads io f g C) as y; destruct (field_of_json io (json_of_field f)) as [g|];
             (split; [first [discriminate | intros [= <-]; constructor; apply y; reflexivity]
                     |inversion 1; subst; match goal with X : becomes _ f _ |- _ => apply y in X end; congruence]); fail).
      + cbn [regex_of_json]. destruct (compiles re) eqn:E; (split; [|inversion 1; subst; congruence]); [|discriminate].
        intros [= <-]. constructor. exact E.
      + unfold json_of_ip. rewrite (proj2 (ip_text_fails _)). split; [discriminate|inversion 1].
      + rewrite type_rt. split; [intros [= <-]; constructor|inversion 1; reflexivity].
      + rewrite (read_list_ok state_of_json json_of_state) by (intros; apply state_rt). split; [intros [= <-]; constructor|inversion 1; reflexivity].
  Qed.

  Lemma op_tag_known o : existsb (String.eqb (fst (op_entry o))) op_names = true.
  Proof. destruct o; reflexivity. Qed.
  Lemma op_tag_not_field o : String.eqb (fst (op_entry o)) "field" = false.
  Proof. destruct o; reflexivity. Qed.
  Lemma cond_reads c c' : op_ok (rc_op c) -> (cond_of_json io compiles (json_of_cond c) = Some c' <-> cond_becomes io compiles c c').
  Proof.
    intros K. destruct c as [f o]. cbn [rc_op] in K. unfold cond_of_json, json_of_cond, cond_becomes, entries. cbn [rc_field rc_op filter fst find].
    change (String.eqb "field" "field") with true. cbv iota. rewrite op_tag_not_field. cbn [map snd once]. cbn [negb andb].
    rewrite op_tag_known. cbn [req read_str].
    change (op_of_json io compiles (JObj [op_entry o])) with (op_of_json io compiles (json_of_op o)).
    destruct (op_of_json io compiles (json_of_op o)) as [p|] eqn:E.
    - split; [intros [= <-]; cbn; split; [reflexivity|]; apply (op_reads o K); exact E|].
      destruct c' as [f' o']. cbn. intros [-> B]. apply (op_reads o K) in B. congruence.
    - split; [discriminate|]. destruct c' as [f' o']. cbn. intros [-> B]. apply (op_reads o K) in B. congruence.
  Qed.
  Lemma conds_read l : (forall c, In c l -> op_ok (rc_op c)) ->
    forall l', read_list (cond_of_json io compiles) (json_of_list json_of_cond l) = Some l' <-> Forall2 (cond_becomes io compiles) l l'.
  Proof.
    intros K l'. unfold read_list, json_of_list. rewrite mapM_some. revert l'. induction l as [|c r IH]; intros l'; cbn [map].
    - split; inversion 1; constructor.
    - split; inversion 1; subst; constructor; try (apply IH; auto; intros; apply K; right; assumption); apply cond_reads; auto; apply K; left; reflexivity.
  Qed.
  Lemma subrule_reads s s' : (forall c, In c (sr_conditions s) -> op_ok (rc_op c)) ->
    (subrule_of_json io compiles (json_of_subrule s) = Some s' <-> subrule_becomes io compiles s s').
  Proof.
    intros K. destruct s as [cs st]. cbn [sr_conditions] in K. unfold subrule_of_json, json_of_subrule, subrule_becomes. cbn [sr_conditions sr_state].
    assert (E : forall o, match read_list (cond_of_json io compiles) (json_of_list json_of_cond cs) with
        | Some c => match opt state_of_json o with Some t => Some (mkSub c t) | None => None end | None => None end
        = Some s' <-> Forall2 (cond_becomes io compiles) cs (sr_conditions s') /\ opt state_of_json o = Some (sr_state s')).
    { intros o. destruct (read_list _ _) as [cs'|] eqn:X.
      - destruct (opt state_of_json o) as [t|].
        + split; [intros [= <-]; cbn; split; [apply (conds_read cs K); exact X|reflexivity]|].
          destruct s' as [cs2 t2]. cbn. intros [A B]. apply (conds_read cs K) in A. congruence.
        + split; [discriminate|intros [_ ?]; discriminate].
      - split; [discriminate|]. intros [A _]. apply (conds_read cs K) in A. congruence. }
    destruct st as [t|]; fields.
    - rewrite (E (Some (json_of_state t))). unfold opt, read_option. rewrite state_rt. cbn [json_of_state].
      unfold json_of_state. split; intros [A B]; split; auto; congruence.
    - rewrite (E None). cbn [opt]. split; intros [A B]; split; auto; congruence.
  Qed.

  Lemma rule_reads r r' : rule_ok r -> (rule_of_json io compiles (json_of_rule r) = Some r' <-> rule_becomes io compiles r r').
  Proof.
    intros (W & K & A). destruct r as [i n d m ds s c a]. cbn in W, K, A. unfold rule_of_json, json_of_rule, rule_becomes.
    cbn [ru_id ru_name ru_description ru_mitre ru_needed_datasets ru_subrules ru_conditions ru_alert]. fields. cbn [read_str].
    rewrite mitre_rt, (read_list_ok type_of_json json_of_type) by (intros; apply type_rt).
    rewrite (read_list_ok (read_list read_str) json_of_strings) by (intros; apply read_strings_ok). rewrite (alert_gen_rt a A).
    assert (G : forall es, read_map (subrule_of_json io compiles) (json_of_map json_of_subrule s) = Some es
        <-> Forall2 (fun e e' => fst e' = fst e /\ subrule_becomes io compiles (snd e) (snd e')) s es).
    { assert (G0 : forall es, mapM (fun e : string * json => let? a := subrule_of_json io compiles (snd e) in Some (fst e, a))
          (map (fun e : string * subrule => (fst e, json_of_subrule (snd e))) s) = Some es
          <-> Forall2 (fun e e' => fst e' = fst e /\ subrule_becomes io compiles (snd e) (snd e')) s es).
      { intros es. rewrite mapM_some. clear W. revert es. induction s as [|[k x] r IH]; intros es; cbn [map fst snd].
        - split; inversion 1; constructor.
        - assert (Kx : forall c, In c (sr_conditions x) -> op_ok (rc_op c)) by (intros c' I; apply (K (k, x) c'); [left; reflexivity|exact I]).
          split; inversion 1 as [|? y ? ys E T]; subst; cbn [fst snd] in *; constructor;
            try (apply IH; [intros e c' I; apply K; right; exact I|assumption]).
          + destruct (subrule_of_json io compiles (json_of_subrule x)) as [g|] eqn:X; [|discriminate]. injection E as <-. cbn. split; auto.
            apply subrule_reads; auto.
          + destruct y as [k' g]. cbn [fst snd] in E. destruct E as [-> B]. cbn [fst snd]. apply subrule_reads in B; [|exact Kx]. rewrite B. reflexivity. }
      assert (S : forall es, Forall2 (fun e e' => fst e' = fst e /\ subrule_becomes io compiles (snd e) (snd e')) s es -> bt_wf es).
      { clear G0 K. induction s as [|e r IH]; intros es T; inversion T as [|? y ? ys E T']; subst; [constructor|].
        inversion W as [|? ? W' F]; subst. constructor; [exact (IH W' _ T')|]. clear - E F T'. destruct E as [E _].
        revert F. induction T' as [|a b r ys [E2 _] T' IH]; intros F; constructor; inversion F; subst; auto.
        unfold key_lt in *. rewrite E, E2. assumption. }
      intros es. unfold read_map, json_of_map. split.
      - destruct (mapM _ _) as [es'|]; [|discriminate]. intros [= <-]. pose proof (proj1 (G0 es') eq_refl) as E. rewrite of_list_sorted; eauto.
      - intros T. pose proof (proj2 (G0 es) T) as E. rewrite E. rewrite of_list_sorted; eauto. }
    destruct (read_map _ _) as [es|].
    - pose proof (proj1 (G es) eq_refl) as E. split.
      + intros [= <-]. cbn. splits; auto.
      + destruct r' as [i' n' d' m' ds' s' c' a']. cbn. intros (-> & -> & -> & -> & -> & -> & -> & T). apply G in T. congruence.
    - split; [discriminate|]. intros (_ & _ & _ & _ & _ & _ & _ & T). apply G in T. congruence.
  Qed.

  (** A rule that was read matches what the written one matched *)
  Lemma cond_same c c' l ds : cond_becomes io compiles c c' -> cond_matches c' l ds = cond_matches c l ds.
  Proof.
    intros [F B]. unfold cond_matches. rewrite F. destruct (log_field (rc_field c) l); destruct B; reflexivity.
  Qed.
  Lemma rule_same r r' l ds : rule_becomes io compiles r r' -> rule_matches r' l ds = rule_matches r l ds.
  Proof.
    intros (_ & _ & _ & _ & _ & _ & _ & T). unfold rule_matches.
    induction T as [|e e' s s' [_ [C _]] T IH]; [reflexivity|]. cbn [map subrules_match].
    assert (E : conds_match (sr_conditions (snd e')) l ds = conds_match (sr_conditions (snd e)) l ds).
    { induction C as [|c c' t t' H C IHC]; [reflexivity|]. cbn [conds_match]. rewrite (cond_same c c' l ds H).
      destruct (cond_matches c l ds) as [[|]| |]; cbn; auto. }
    rewrite E. destruct (conds_match (sr_conditions (snd e)) l ds) as [[|]| |]; cbn [obind negb]; [exact IH|reflexivity|reflexivity|reflexivity].
  Qed.
End Rules.

Lemma Forall2_In_l {A B} (P : A -> B -> Prop) l l' x : Forall2 P l l' -> In x l -> exists y, In y l' /\ P x y.
Proof. induction 1 as [|a b r r' H F IH]; intros I; [destruct I|]. destruct I as [->|I]; [exists b; simpl; auto|]. destruct (IH I) as (y & J & Q). exists y. simpl. auto. Qed.
(** A network test never comes back *)
Lemma same_net_lost io compiles o o' ip bits : op_becomes io compiles o o' -> inside (OSameNet ip bits) o -> False.
Proof.
  revert o'. induction o as [l IH|l IH|o IH|o IH|o N1 N2 N3 N4] using op_ind_nested; intros o' B J.
  - inversion B; subst. inversion J; subst. rewrite Forall_forall in IH.
    match goal with I : In ?p l, F : Forall2 _ l _ |- _ => destruct (Forall2_In_l _ _ _ _ F I) as (q & _ & Q); eapply (IH p I); eauto end.
  - inversion B; subst. inversion J; subst. rewrite Forall_forall in IH.
    match goal with I : In ?p l, F : Forall2 _ l _ |- _ => destruct (Forall2_In_l _ _ _ _ F I) as (q & _ & Q); eapply (IH p I); eauto end.
  - inversion B; subst. inversion J; subst. eapply IH; eauto.
  - inversion B; subst. inversion J; subst. eapply IH; eauto.
  - inversion J; subst; try (exfalso; eauto; fail).
    + inversion B.
    + exact (N1 _ eq_refl).
    + exact (N2 _ eq_refl).
    + exact (N3 _ eq_refl).
    + exact (N4 _ eq_refl).
Qed.
