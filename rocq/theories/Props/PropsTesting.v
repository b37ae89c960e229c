(** C159-C164: the test parsers and the test harness, parsing errors and schemas in JSON, the predefined tags and the
    default generators. *)
From Coq Require Import String Ascii NArith ZArith List Bool Lia Permutation.
From Verif Require Import Base.Ord Base.BTree Base.Str Base.Arith Base.Outcome Base.Sched Model.Ip Model.Field Model.Log Model.Err Model.Command
  Model.Component Model.Schema Model.Json Model.JsonField Model.Testing Spec.FieldSpec Spec.ComponentSpec
  Proofs.FieldP Proofs.LogP Proofs.JsonP Proofs.ComponentP Props.PropsComponent Props.PropsJson.
Import ListNotations.
Local Open Scope string_scope.
Local Open Scope list_scope.

(** * C159 *)

(** The log a parser gives back, or hands back with its error *)
Definition log_of_answer (r : result log parsing_error) : option log :=
  match r with
  | Ok l | Err (NoValidParser l) | Err (ParserError l _) | Err (NotImplementedYet l) | Err (FormatError l _) => Some l
  | Err Discard => None
  end.

(** [l'] is [l] with one more (or changed) field *)
Definition only_field_set (name : string) (v : field) (l l' : log) : Prop :=
  log_field name l' = Some v
  /\ (forall n, n <> name -> log_field n l' = log_field n l)
  /\ log_tags l' = log_tags l.

(** The first parser takes a log exactly if its message contains the word, and adds the documented field; otherwise it hands
    the log back unchanged, as not being for it. *)
Theorem C159_text_parser : forall l,
  (substring_of "DUMMY" (log_message l) ->
     exists l', p_parse dummy_parser_text l = Ok l' /\ only_field_set "parser" (Text "DummyParserText") l l')
  /\ (~ substring_of "DUMMY" (log_message l) -> p_parse dummy_parser_text l = Err (NoValidParser l)).
Proof.
  intros l. unfold dummy_parser_text. cbn [p_parse p_name]. split; intros H.
  - apply str_contains_iff in H. rewrite H. cbn [negb]. eexists. split; [reflexivity|].
    unfold only_field_set, add_field. splits.
    + rewrite field_insert, Ord.keqb_refl. reflexivity.
    + intros n Hn. rewrite field_insert. destruct (Ord.keqb_spec n "parser"); [contradiction|reflexivity].
    + reflexivity.
  - destruct (str_contains "DUMMY" (log_message l)) eqn:E; [|reflexivity]. exfalso. apply H. apply str_contains_iff. exact E.
Qed.
Print Assumptions C159_text_parser.

(** The second one takes every log. *)
Theorem C159_all_parser : forall l, exists l', p_parse dummy_parser_all l = Ok l'
  /\ only_field_set "parser" (Text "DummyParserAll") l l'.
Proof.
  intros l. unfold dummy_parser_all. cbn [p_parse p_name]. eexists. split; [reflexivity|].
  unfold only_field_set, add_field. splits.
  - rewrite field_insert, Ord.keqb_refl. reflexivity.
  - intros n Hn. rewrite field_insert. destruct (Ord.keqb_spec n "parser"); [contradiction|reflexivity].
  - reflexivity.
Qed.
Print Assumptions C159_all_parser.

(** The third one takes none, and hands each back unchanged with the message that it has a bug. *)
Theorem C159_error_parser : forall l, p_parse dummy_parser_error l = Err (ParserError l "Bug in parser").
Proof. intros l. reflexivity. Qed.
Print Assumptions C159_error_parser.

(** None of them loses a log, whatever it answers; the field with the name of the parser is all that may change, and a log
    parsed twice is as if parsed once. *)
Theorem C159_no_log_lost : forall p l, In p [dummy_parser_text; dummy_parser_all; dummy_parser_error] ->
  exists l', log_of_answer (p_parse p l) = Some l'
    /\ (forall n, n <> "parser" -> log_field n l' = log_field n l) /\ log_tags l' = log_tags l
    /\ (forall ok, p_parse p l = Ok ok -> log_field "parser" ok = Some (Text (p_name p)))
    /\ (forall ok, p_parse p l = Ok ok -> exists again, p_parse p ok = Ok again /\ (forall n, log_field n again = log_field n ok)).
Proof.
  intros p l I. simpl in I. destruct I as [<-|[<-|[<-|[]]]].
  - destruct (C159_text_parser l) as [A B]. destruct (str_contains "DUMMY" (log_message l)) eqn:E.
    + apply str_contains_iff in E. destruct (A E) as (l' & Q & F1 & F2 & F3). rewrite Q. exists l'. splits; auto; [intros ok K; injection K as <-; exact F1|].
      intros ok K. injection K as <-. destruct (C159_text_parser l') as [A' _].
      assert (M : log_message l' = log_message l) by (unfold log_message, get_text; rewrite F2 by discriminate; reflexivity).
      rewrite M in A'. destruct (A' E) as (l2 & Q2 & G1 & G2 & _). exists l2. split; auto. intros n.
      destruct (string_dec n "parser") as [->|N]; [congruence|apply G2; exact N].
    + rewrite (B ltac:(rewrite <- str_contains_iff; congruence)). exists l. splits; auto; discriminate.
  - destruct (C159_all_parser l) as (l' & Q & F1 & F2 & F3). rewrite Q. exists l'. splits; auto; [intros ok K; injection K as <-; exact F1|].
    intros ok K. injection K as <-. destruct (C159_all_parser l') as (l2 & Q2 & G1 & G2 & _). exists l2. split; auto. intros n.
    destruct (string_dec n "parser") as [->|N]; [congruence|apply G2; exact N].
  - exists l. splits; auto; discriminate.
Qed.
Print Assumptions C159_no_log_lost.
Example C159_nonvacuous :
  (exists l', p_parse dummy_parser_text (log_new "a DUMMY log" 5 "o") = Ok l' /\ map fst (log_iter l') = ["event.created"; "event.received"; "message"; "origin"; "parser"])
  /\ p_parse dummy_parser_text (log_new "a dummy log" 5 "o") = Err (NoValidParser (log_new "a dummy log" 5 "o")).
Proof. split; [eexists; split; reflexivity|reflexivity]. Qed.

(** A generator of a parser makes logs that the parser takes, whenever and wherever they are received: so it is for the
    second parser (not for the first one, C165). *)
Definition generator_fits (p : parser) : Prop := forall received origin,
  exists l', p_parse p (log_new (p_generated p) received origin) = Ok l' /\ log_message l' = p_generated p.
Theorem C159_generated : forall p, In p [dummy_parser_text; dummy_parser_all; dummy_parser_error] ->
  p_generated p = "This is a dummy log" /\ p_weight p = 1%N /\
  In (p_name p, p_description p)
    [("DummyParserText", "This is a dummy that parsers if contains DUMMY in text"); ("DummyParserAll", "This is a dummy parser that always parses logs");
     ("DummyParserError", "This is a parser that cannot parse because it has a bug")].
Proof. intros p [<-|[<-|[<-|[]]]]; splits; try reflexivity; cbn; tauto. Qed.
Print Assumptions C159_generated.
Theorem C159_generator_fits : generator_fits dummy_parser_all.
Proof. intros r o. eexists. split; reflexivity. Qed.
Print Assumptions C159_generator_fits.
Theorem C165_generator_fits_refuted : ~ generator_fits dummy_parser_text
  /\ forall received origin, p_parse dummy_parser_text (log_new (p_generated dummy_parser_text) received origin)
       = Err (NoValidParser (log_new (p_generated dummy_parser_text) received origin)).
Proof.
  assert (E : forall r o, p_parse dummy_parser_text (log_new (p_generated dummy_parser_text) r o) = Err (NoValidParser (log_new (p_generated dummy_parser_text) r o)))
    by (intros r o; reflexivity).
  split; [|exact E]. intros G. destruct (G 0%Z "") as (l' & K & _). rewrite E in K. discriminate K.
Qed.
Print Assumptions C165_generator_fits_refuted.

(** * C160 *)

(** What a parsing error says: its kind, the log it is about, and a reason *)
Inductive kind := KNoValidParser | KParserError | KNotImplemented | KFormatError | KDiscard.
Definition kind_of (e : parsing_error) : kind :=
  match e with NoValidParser _ => KNoValidParser | ParserError _ _ => KParserError | NotImplementedYet _ => KNotImplemented
  | FormatError _ _ => KFormatError | Discard => KDiscard end.
Definition log_in (e : parsing_error) : option log := log_of_answer (Err e).
Definition reason_in (e : parsing_error) : option string :=
  match e with ParserError _ r | FormatError _ r => Some r | _ => None end.

(** What is written shows the kind, the reason and exactly what the JSON of the log shows. *)
Theorem C160_written : forall e e', json_of_parsing_error e = json_of_parsing_error e' <->
  kind_of e = kind_of e' /\ reason_in e = reason_in e' /\ option_map json_of_log (log_in e) = option_map json_of_log (log_in e').
Proof.
  intros e e'. split.
  - destruct e, e'; unfold json_of_parsing_error, tagged; intros H; try discriminate H;
      cbn [kind_of reason_in log_in log_of_answer option_map]; splits; congruence.
  - intros (K & R & L). destruct e, e'; try discriminate K; unfold json_of_parsing_error, tagged;
      cbn [kind_of reason_in log_in log_of_answer option_map] in *; congruence.
Qed.
Print Assumptions C160_written.

(** It is read back exactly if the log is (see C87), and then as the same kind, with the same reason and the log as read. *)
Theorem C160_read : forall io e,
  match log_in e with
  | None => parsing_error_of_json io (json_of_parsing_error e) = Some e
  | Some l =>
      match log_of_json io (json_of_log l) with
      | None => parsing_error_of_json io (json_of_parsing_error e) = None
      | Some l' => exists e', parsing_error_of_json io (json_of_parsing_error e) = Some e'
          /\ kind_of e' = kind_of e /\ reason_in e' = reason_in e /\ log_in e' = Some l'
      end
  end.
Proof.
  intros io e. destruct e as [l|l r|l|l r|]; cbn [log_in log_of_answer json_of_parsing_error]; try reflexivity;
    unfold parsing_error_of_json, read_enum, tagged, variant; cbn [fst snd pick String.eqb Ascii.eqb Bool.eqb];
    unfold newtype_v, pair_v, read_pair; destruct (log_of_json io (json_of_log l)) as [l'|]; cbn [read_str]; auto;
    eexists; (split; [reflexivity|]); splits; reflexivity.
Qed.
Print Assumptions C160_read.

(** So the error about a log that was just made cannot be read back. *)
Theorem C160_new_log_unreadable : forall io e message received origin, i64_ok received ->
  log_in e = Some (log_new message received origin) -> parsing_error_of_json io (json_of_parsing_error e) = None.
Proof.
  intros io e m r o I L. pose proof (C160_read io e) as R. rewrite L in R. rewrite (C144_new_log_refuted io m r o I) in R. exact R.
Qed.
Print Assumptions C160_new_log_unreadable.
Example C160_nonvacuous : forall io,
  parsing_error_of_json io (json_of_parsing_error (FormatError (mkLog [] [("a", ifield_of (Array ["x"]))] []) "why"))
  = Some (FormatError (mkLog [] [("a", mkI (Text "x") CNone CNone CNone CNone CNone CNone)] []) "why").
Proof. intros io. reflexivity. Qed.

(** * C161 *)

Lemma nil_or_last {A} (l : list A) : l = [] \/ exists y z, l = y ++ [z].
Proof. destruct l as [|a l]; auto. right. destruct (@exists_last _ (a :: l)) as (y & z & E); [discriminate|]. rewrite E. eauto. Qed.

(** While the thread started by the harness runs, the component receives what that thread sent so far, in order, and
    messages of others, in any interleaving. If there is no other stop command and the component took one, then it has
    returned without error, after taking all the messages of the action, in order, interleaved with others, and has given
    them to its handler. *)
Theorem C161_action_is_seen_first : forall P St (C : component P St) comp x name action others tr w sent rest,
  run C (launch C comp x) tr w ->
  harness_sends name action = sent ++ rest -> interleaves [sent; others] (arrived_msgs tr) ->
  Forall (fun m => ~ is_stop m) action -> Forall (fun m => ~ is_stop m) others ->
  (exists m, In (TakeMsg m) tr /\ is_stop m) ->
  ph w = Returned (Ok tt)
  /\ exists before seen unseen, taken_msgs tr = before ++ [MCommand (Header "kernel" 0 0) (C_STOP_COMPONENT name)] /\ others = seen ++ unseen /\ interleaves [action; seen] before.
Proof.
  intros P St C comp x name action others tr w sent rest R HS IL NA NO (m & IM & SM).
  apply in_split in IM. destruct IM as (tr1 & tr2 & ->).
  destruct (C41_stop_stops P St C comp x tr1 m tr2 w R SM) as [E F]. split; [exact E|].
  destruct (inv_run C comp x _ w R) as (_ & _ & _ & _ & M).
  assert (T : taken_msgs (tr1 ++ TakeMsg m :: tr2) = taken_msgs tr1 ++ [m]).
  { unfold taken_msgs. rewrite flat_map_app. cbn [flat_map]. f_equal. cbn [app]. f_equal.
    clear - F. induction F as [|a l H _ IH]; [reflexivity|]. cbn [flat_map]. rewrite IH. destruct a; auto. exfalso. apply H. exact I. }
  rewrite M, T in IL. rewrite T.
  destruct (interleaves_prefix _ _ _ IL) as (pre & F1 & I1).
  inversion F1 as [|p0 s0 pre' r0 [q1 Q1] F1']; subst; clear F1.
  inversion F1' as [|o0 s0 pre'' r0 [q2 Q2] F1]; subst; clear F1'. inversion F1; subst; clear F1.
  assert (NM : ~ In m o0). { intros K. rewrite Forall_app in NO. destruct NO as [NO _]. rewrite Forall_forall in NO. exact (NO m K SM). }
  destruct (interleaves_last _ _ _ _ I1 NM) as (p1 & -> & I2).
  (* [p1 ++ [m]] starts what the harness sends: it is all of it *)
  unfold harness_sends in HS. rewrite <- !app_assoc in HS. cbn [app] in HS.
  assert (L : q1 ++ rest = []).
  { destruct (@nil_or_last _ (q1 ++ rest)) as [N|(y & z & N)]; auto. exfalso. rewrite N in HS.
    change (p1 ++ m :: y ++ [z]) with (p1 ++ (m :: y) ++ [z]) in HS. rewrite app_assoc in HS. apply app_inj_tail in HS. destruct HS as [-> _].
    rewrite Forall_app in NA. destruct NA as [_ NA]. inversion NA. contradiction. }
  rewrite L in HS. apply app_inj_tail in HS. destruct HS as [-> <-]. exists (taken_msgs tr1), o0, q2. splits; auto.
Qed.
Print Assumptions C161_action_is_seen_first.

(** The steps left to a component with a stop command waiting *)
Definition left {P St} (w : world P St) : nat :=
  match ph w with Starting _ | Sending _ _ _ | Waiting _ _ => 3 | Polling _ _ => 2 | Returned _ => 0 end
  + 4 * (length (msgs w) + length (queued_in (logs w))).

Lemma stop_step P St (C : component P St) w a w' m : is_wired w -> step C w a w' -> by_component a -> In m (msgs w) -> is_stop m ->
  left w' < left w /\ (In m (msgs w') \/ has_returned w').
Proof.
  unfold is_wired, left, has_returned. intros W S B I SM. inversion S; subst; cbn [ph msgs logs] in *; simpl in B; try tauto.
  - destruct (after_tick_cases C s t) as [(d0 & -> & _)|(e & -> & _)]; split; eauto; lia.
  - exfalso. unfold ready in H. cbn [msgs] in H. destruct ms; [destruct I|discriminate].
  - destruct (after_tick_cases C s t) as [(d0 & -> & _)|(e & -> & _)]; split; eauto; lia.
  - apply selecting_phase in H. simpl in H. pose proof (phase_weight_msg C s d m0). split.
    + assert (E : process_message C s d m0 <> Waiting s d).
      { destruct (process_message_cases C s d m0) as [(X & E & R)|[(X & s' & E & R)|(X & s' & l' & E & R)]]; rewrite E; discriminate. }
      destruct (process_message_cases C s d m0) as [(X & E0 & R)|[(X & s' & E0 & R)|(X & s' & l' & E0 & R)]]; rewrite E0;
        destruct H as [->| ->]; simpl length; lia.
    + destruct I as [->|I]; auto. right. destruct (process_message_cases C s d m) as [(X & E0 & R)|[(X & _)|(X & _)]]; try contradiction. eauto.
  - apply selecting_phase in H. simpl in H.
    destruct x as [|q i o c r]; [destruct W|]. apply pop_wired in H0. destruct H0 as (q' & -> & ->). cbn [queued_in length]. split; auto.
    destruct (process_log_cases C s d l) as [(s' & E & _)|(s' & l' & E & _)]; rewrite E; destruct H as [->| ->]; lia.
  - apply selecting_phase in H. simpl in H. split; eauto. destruct H as [->| ->]; lia.
  - destruct x as [|q i o c r]; [destruct W|]. cbn [push_out queued_in]. split; [lia|auto].
  - split; [lia|eauto].
Qed.

(** The component does stop: once the stop command waits in its channel and nothing else arrives, it does at most so many
    steps, whatever it takes first; and when it can do none it has returned, if its output is unbounded. *)
Theorem C161_stops : forall P St (C : component P St) comp c tr w tr' w' m,
  run C (launch C comp (wired c)) tr w -> In m (msgs w) -> is_stop m ->
  run C w tr' w' -> Forall by_component tr' ->
  length tr' <= 4 * (length (msgs w) + length (queued_in (logs w))) + 3
  /\ (c = None -> (forall a w2, by_component a -> ~ step C w' a w2) -> has_returned w').
Proof.
  intros P St C comp c tr w tr' w' m R I SM R' F.
  assert (W : is_wired w).
  { destruct (wired_run C comp [] true [] c true tr w R) as (q & i & o & c' & r & L & _). unfold is_wired. rewrite L. exact Logic.I. }
  assert (B : left w' + length tr' <= left w /\ is_wired w' /\ (In m (msgs w') \/ has_returned w')).
  { clear R. induction R' as [|w tr' w1 a w2 R' IH S]; [simpl; splits; auto; lia|].
    apply Forall_app in F. destruct F as [F1 F2]. destruct (IH I F1 W) as (B1 & W1 & [I1|[r E]]).
    - inversion F2 as [|? ? Ba]; subst. destruct (stop_step _ _ _ _ _ _ m W1 S Ba I1 SM) as [L K].
      splits; [rewrite app_length; simpl; lia|eapply step_wired; eauto|exact K].
    - exfalso. inversion F2 as [|? ? Ba]; subst. destruct (returned_step C _ _ _ r E S) as [_ N]. contradiction. }
  destruct B as (B & W' & D). split.
  - unfold left in B. destruct (ph w), (ph w'); lia.
  - intros -> ST. destruct D as [D|D]; auto. destruct (C40_progress P St C w' ST) as [H|[(s & d & _ & M & _)|(s & d & l & _ & O)]]; auto.
    + rewrite M in D. destruct D.
    + exfalso. pose proof (run_app C _ _ _ _ _ R R') as RR.
      assert (K : match logs w' with Wired _ _ _ None _ => True | _ => False end).
      { clear - RR. remember (launch C comp (wired None)) as w0 eqn:E0. induction RR as [|w0 tr0 w1 a w2 RR IH S]; [subst; exact Logic.I|].
        specialize (IH E0). destruct S; cbn [logs] in *; auto.
        - destruct x; [destruct IH|]. match goal with H : pop_log _ = Some _ |- _ => apply pop_wired in H; destruct H as (q' & -> & ->) end. exact IH.
        - destruct x; auto. }
      unfold out_room in O. destruct (logs w') as [|? ? ? [|] ?]; try contradiction. discriminate.
Qed.
Print Assumptions C161_stops.

(** A component that was sent two messages by the action, with one of another sender in between *)
Definition wait_then_stop : list (label (Payloads unit unit unit unit)) :=
  let n := fun t => MNotification (Notif 0 0 "" t L_Info) in
  [Tick; ArriveMsg (n "a"); ArriveMsg (n "x"); TakeMsg (n "a"); ArriveMsg (n "b"); ArriveMsg (stop_command "c");
   TakeMsg (n "x"); TakeMsg (n "b"); TakeMsg (stop_command "c")].
Example C161_nonvacuous : let n := fun t => MNotification (Notif 0 0 "" t L_Info) in
  exists w, run (default_component _ unit) (launch (default_component _ unit) tt (wired None)) wait_then_stop w
  /\ interleaves [harness_sends "c" [n "a"; n "b"]; [n "x"]] (arrived_msgs wait_then_stop)
  /\ ph w = Returned (Ok tt).
Proof.
  eexists. splits.
  - repeat (eapply run_cons; [econstructor; try reflexivity; vm_compute; lia|]). apply run_nil.
  - cbn. apply (il_step []). apply (il_step [[_; _]]). apply (il_step []). apply (il_step []). constructor. repeat constructor.
  - reflexivity.
Qed.

(** * C162 *)

Lemma map_pair_inj {K A B} (f : A -> B) (l l' : list (K * A)) : (forall x y, f x = f y -> x = y) ->
  map (fun e => (fst e, f (snd e))) l = map (fun e => (fst e, f (snd e))) l' -> l = l'.
Proof.
  intros I. revert l'. induction l as [|[k a] l IH]; intros [|[k' a'] l'] H; cbn in H; try discriminate; auto.
  injection H as -> E T. f_equal; [f_equal; auto|auto].
Qed.
Lemma map_str_inj l l' : map JStr l = map JStr l' -> l = l'.
Proof. revert l'. induction l as [|a l IH]; intros [|b l'] H; cbn in H; try discriminate; auto. injection H as -> T. f_equal. auto. Qed.
Lemma elems_inj {K} (s s' : bset K) : bset_elems s = bset_elems s' -> s = s'.
Proof.
  revert s'. unfold bset, bset_elems, bt_keys. induction s as [|[k []] s IH]; intros [|[k' []] s'] H; cbn in H; try discriminate; auto.
  injection H as -> T. f_equal. auto.
Qed.
Lemma str_json_inj x y : JStr x = JStr y -> x = y. Proof. congruence. Qed.
Lemma field_type_json_inj t t' : json_of_field_type t = json_of_field_type t' -> t = t'.
Proof.
  destruct t, t'; unfold json_of_field_type, tagged; intros H; try discriminate H; try congruence.
  unfold json_of_map in H. assert (D : doc = doc0) by congruence. subst. f_equal. apply (map_pair_inj JStr); [exact str_json_inj|]. congruence.
Qed.

(** The JSON of a schema says everything about it: the type and the text of each field, the options, which fields are
    protected and how. *)
Theorem C162_schema_json : forall s s', json_of_schema s = json_of_schema s' -> s = s'.
Proof.
  intros [f a g] [f' a' g'] H. unfold json_of_schema, json_of_map in H. cbn [s_fields s_allow_unknown s_gdpr] in H.
  assert (F : f = f') by (apply (map_pair_inj json_of_field_type); [exact field_type_json_inj|congruence]).
  assert (A : a = a') by congruence.
  assert (G : json_of_option json_of_gdpr g = json_of_option json_of_gdpr g') by congruence.
  subst. f_equal. destruct g as [[x m]|], g' as [[x' m']|]; cbn [json_of_option] in G; try discriminate G; auto.
  unfold json_of_gdpr, json_of_strings, json_of_list in G. cbn [g_fields g_method] in G.
  assert (x = x') by (apply elems_inj, map_str_inj; congruence).
  assert (m = m') by (destruct m, m'; unfold json_of_gdpr_method in G; congruence). subst. reflexivity.
Qed.
Print Assumptions C162_schema_json.

(** Where a reader finds it: the value under the key [k] of an object *)
Definition at_key (k : string) (j : json) : option json :=
  match j with JObj l => match filter (fun e => String.eqb (fst e) k) l with [e] => Some (snd e) | _ => None end | _ => None end.
(** The document itself, written out. *)
Definition schema_document (s : schema) : json :=
  let of_type t := match t with
    | FTIp d => JObj [("Ip", JStr d)] | FTArray d => JObj [("Array", JStr d)] | FTText d => JObj [("Text", JStr d)]
    | FTNumeric d => JObj [("Numeric", JStr d)] | FTDecimal d => JObj [("Decimal", JStr d)] | FTDate d => JObj [("Date", JStr d)]
    | FTTextOptions o d => JObj [("TextOptions", JArr [JObj (map (fun e => (fst e, JStr (snd e))) o); JStr d])]
    end in
  JObj [("fields", JObj (map (fun e => (fst e, of_type (snd e))) (s_fields s)));
        ("allow_unknown_fields", JBool (s_allow_unknown s));
        ("gdpr", match s_gdpr s with
                 | None => JNull
                 | Some g => JObj [("fields", JArr (map JStr (bset_elems (g_fields g))));
                                   ("method", JStr match g_method g with GStorage => "Storage" | GApiProtected => "ApiProtected" end)]
                 end)].
Theorem C162_document : forall s, json_of_schema s = schema_document s.
Proof.
  intros s. unfold json_of_schema, schema_document, json_of_map. cbv zeta.
  rewrite (map_ext (fun e => (fst e, json_of_field_type (snd e))) (fun e => (fst e, match snd e with
    | FTIp d => JObj [("Ip", JStr d)] | FTArray d => JObj [("Array", JStr d)] | FTText d => JObj [("Text", JStr d)]
    | FTNumeric d => JObj [("Numeric", JStr d)] | FTDecimal d => JObj [("Decimal", JStr d)] | FTDate d => JObj [("Date", JStr d)]
    | FTTextOptions o d => JObj [("TextOptions", JArr [JObj (map (fun e => (fst e, JStr (snd e))) o); JStr d])]
    end))) by (intros [n t]; destruct t; reflexivity).
  destruct (s_gdpr s) as [[fs []]|]; reflexivity.
Qed.
Print Assumptions C162_document.
Theorem C162_schema_keys : forall s,
  at_key "allow_unknown_fields" (json_of_schema s) = Some (JBool (s_allow_unknown s))
  /\ (exists fs, at_key "fields" (json_of_schema s) = Some (JObj fs) /\ map fst fs = field_names s)
  /\ (forall name, protected_field name s = true <->
        exists g p, at_key "gdpr" (json_of_schema s) = Some g /\ at_key "fields" g = Some (JArr p) /\ In (JStr name) p).
Proof.
  intros s. splits; [reflexivity| |].
  - eexists. split; [reflexivity|]. unfold field_names, bt_keys. rewrite map_map. reflexivity.
  - intros name. unfold protected_field, json_of_schema. destruct (s_gdpr s) as [g|]; cbn [json_of_option].
    + split.
      * intros H. exists (json_of_gdpr g), (map JStr (bset_elems (g_fields g))). splits; [reflexivity|reflexivity|].
        apply in_map. apply mem_elems. exact H.
      * intros (j & p & E & E2 & I). cbn in E. injection E as <-. cbn in E2. injection E2 as <-. apply in_map_iff in I. destruct I as (x & E & I).
        injection E as ->. apply mem_elems. exact I.
    + split; [discriminate|]. intros (j & p & E & E2 & I). cbn in E. injection E as <-. discriminate E2.
Qed.
Print Assumptions C162_schema_keys.
Example C162_nonvacuous : json_of_schema (set_gdpr (Some (mkGdpr [("user.name", tt)] GStorage)) (mkSchema [("a", FTTextOptions [("x", "y")] "d")] true None))
  = JObj [("fields", JObj [("a", JObj [("TextOptions", JArr [JObj [("x", JStr "y")]; JStr "d"])])]); ("allow_unknown_fields", JBool true);
          ("gdpr", JObj [("fields", JArr [JStr "user.name"]); ("method", JStr "Storage")])].
Proof. reflexivity. Qed.

(** * C163 *)

(** The predefined tags can be relied on, unlike others (see C105): each is found under its own name once added, on any
    log, and adding it does not make any other text a tag. *)
Theorem C163_predefined_tags : forall t l, In t predefined_tags ->
  has_tag t (add_tag t l) = true /\ (forall u, u <> t -> has_tag u (add_tag t l) = has_tag u l).
Proof.
  intros t l I. assert (L : to_lower t = t).
  { revert t I. assert (F : forallb (fun t => String.eqb (to_lower t) t) predefined_tags = true) by (vm_compute; reflexivity).
    rewrite forallb_forall in F. intros t I. apply String.eqb_eq. exact (F t I). }
  unfold has_tag, add_tag, bset_mem, bset_add. cbn [l_tags]. rewrite L. split.
  - rewrite bt_has_insert, Ord.keqb_refl. reflexivity.
  - intros u N. rewrite bt_has_insert. destruct (Ord.keqb_spec u t); [contradiction|reflexivity].
Qed.
Print Assumptions C163_predefined_tags.
(** These are the tags, no two of them alike. *)
Theorem C163_distinct : NoDup predefined_tags /\ forall t, In t predefined_tags <->
  t = "vip_user" \/ t = "admin_user" \/ t = "fake_account" \/ t = "honeypot" \/ t = "critical_asset" \/ t = "network_asset"
  \/ t = "security_asset" \/ t = "web_server" \/ t = "dns_server" \/ t = "bastion_host" \/ t = "jump_host"
  \/ t = "maintenance_period" \/ t = "ioc_misp" \/ t = "never_seen_ip" \/ t = "in_block_list".
Proof.
  split; [|intros t; unfold predefined_tags; cbn [In]; intuition congruence].
  assert (D : nodup string_dec predefined_tags = predefined_tags) by (vm_compute; reflexivity). rewrite <- D. apply NoDup_nodup.
Qed.
Print Assumptions C163_distinct.
Example C163_nonvacuous : In "honeypot" predefined_tags /\ has_tag "honeypot" (add_tag "vip_user" (log_new "" 0 "")) = false.
Proof. split; [simpl; tauto|reflexivity]. Qed.

(** * C164 *)

(** The names of the default generators: a fixed word and a number below 65536 that shows the last 16 bits of the clock;
    a user is never called like a host. *)
Theorem C164_default_names : forall nanos,
  exists n, (n < 65536)%N /\ n = (nanos mod 65536)%N
    /\ default_user nanos = String.append "User" (dec n) /\ default_host nanos = String.append "Host" (dec n).
Proof.
  intros nanos. exists (nanos mod 65536)%N. assert (E : N.land nanos 65535 = (nanos mod 65536)%N).
  { change 65535%N with (N.ones 16). rewrite N.land_ones. reflexivity. }
  splits; [apply N.mod_lt; lia|reflexivity|unfold default_user; rewrite E; reflexivity|unfold default_host; rewrite E; reflexivity].
Qed.
Print Assumptions C164_default_names.
Theorem C164_names_differ : forall n m,
  (default_user n = default_user m <-> (n mod 65536 = m mod 65536)%N)
  /\ (default_host n = default_host m <-> (n mod 65536 = m mod 65536)%N)
  /\ default_user n <> default_host m.
Proof.
  intros n m. destruct (C164_default_names n) as (a & _ & -> & U1 & H1). destruct (C164_default_names m) as (b & _ & -> & U2 & H2).
  rewrite U1, U2, H1, H2. splits.
  - split; [|congruence]. intros H. apply dec_inj. cbn [String.append] in H. congruence.
  - split; [|congruence]. intros H. apply dec_inj. cbn [String.append] in H. congruence.
  - cbn [String.append]. congruence.
Qed.
Print Assumptions C164_names_differ.
Example C164_nonvacuous : default_user 123456789 = "User52501" /\ default_host 65536 = "Host0".
Proof. split; vm_compute; reflexivity. Qed.
