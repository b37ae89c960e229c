(** C192, for whole values: written as a text and read again. *)
From Coq Require Import String Ascii NArith ZArith List Bool Lia Floats.SpecFloat.
From Verif Require Import Base.Arith Base.Str Base.Ord Base.BTree Base.Outcome Model.Ip Model.Field Model.Log Model.DatasetTypes Model.Rule Model.Command
  Model.Component Model.Payloads Model.Sigma Model.Schema Model.Events Model.Metrics Model.Json Model.JsonField Model.JsonCommand Model.JsonEvent
  Model.JsonMore Model.JsonRule Model.JsonSigma Model.Testing Model.GeoIp Model.JsonText
  Spec.TextSpec Spec.DepthSpec Spec.JsonSpec Spec.JsonTextSpec Spec.JsonEventSpec Spec.SigmaJsonSpec Proofs.RuleP Proofs.SigmaP Props.PropsDepth Props.PropsJson Props.PropsJsonEvent Props.PropsSigmaJson Props.PropsCanonical Props.PropsJsonText.
Import ListNotations.
Local Open Scope string_scope.
Local Open Scope list_scope.

(** [fl s x]: the text [s] of a number stands for [x]; [ft] prints finite floats as such texts. *)
Definition prints (fl : string -> f64 -> Prop) (ft : f64 -> string) : Prop :=
  (forall s x y, fl s x -> fl s y -> x = y) /\ (forall x, is_finite x = true -> float (ft x) /\ fl (ft x) x).
(** [s] is the text of the tree, on one line or on several. *)
Definition text_of (ft : f64 -> string) (t : json) (s : string) : Prop := s = write_json ft t \/ s = write_pretty ft 0 t.

Lemma text_tree fl ft t s j : prints fl ft -> (forall x, has_float x t -> is_finite x = true) -> text_of ft t s -> document fl s j -> j = t.
Proof.
  intros (F & P) N T D. destruct (C192_text fl ft t F) as (A & B); [intros x X; apply P, N, X|]. destruct T as [-> | ->]; [apply A|apply B]; exact D.
Qed.
Lemma tree_text fl ft t s : prints fl ft -> (forall x, has_float x t -> is_finite x = true) -> text_of ft t s -> document fl s t.
Proof.
  intros (F & P) N T. destruct (C192_text fl ft t F) as (A & B); [intros x X; apply P, N, X|]. destruct T as [-> | ->]; [apply A|apply B]; reflexivity.
Qed.

(** Messages: notifications, tasks, results, responses without rows and commands without addresses arrive as they were sent; their
    text is a JSON document, and every reading of it as one gives the message. *)
Theorem C192_messages : forall io fl ft m, prints fl ft -> message_ok m ->
  match m with
  | MCommand _ c => ~ carries_ip c
  | MResponse _ r => forall q rows, r <> R_LOG_QUERY q (Ok rows)
  | MNotification _ | MTask _ _ | MTaskResult _ _ => True
  | MLog _ | MDataset _ | MAlert _ => False
  end ->
  exists t, json_of_message m = Some t /\ forall s, text_of ft t s ->
    (exists j, document fl s j) /\ forall j, document fl s j -> from_text (message_of_json io) j = Some m.
Proof.
  intros io fl ft m P K N. pose proof (C92_roundtrip io m K N) as R. unfold message_through in R.
  destruct (json_of_message m) as [t|] eqn:E; [|discriminate]. cbn in R. exists t. split; [reflexivity|]. intros s T.
  destruct C192_documents as (FM & _). assert (N' : forall x, has_float x t -> is_finite x = true) by (intros x; exact (FM m t x E)).
  split; [exists t; exact (tree_text fl ft t s P N' T)|]. intros j D. rewrite (text_tree fl ft t s j P N' T D).
  destruct (C187_read io) as (RM & _). rewrite (RM m t E). exact R.
Qed.
Print Assumptions C192_messages.

(** Rules: what is read from the text of a rule with at most 59 operators inside each other is what the rule becomes (C91), so it decides
    every log as before. *)
Theorem C192_rules : forall io compiles fl ft r s j, prints fl ft -> rule_ok r ->
  (forall name sr c, In (name, sr) (ru_subrules r) -> In c (sr_conditions sr) -> op_nesting (rc_op c) <= 59) ->
  text_of ft (json_of_rule r) s -> document fl s j ->
  (forall r', from_text (rule_of_json io compiles) j = Some r' <-> rule_becomes io compiles r r') /\
  (forall r' l ds, from_text (rule_of_json io compiles) j = Some r' -> rule_matches r' l ds = rule_matches r l ds).
Proof.
  intros io compiles fl ft r s j P K N T D.
  destruct C192_documents as (_ & _ & _ & _ & _ & _ & _ & _ & FR & _). rewrite (text_tree fl ft _ s j P (FR r) T D), (C187_rules io compiles r N).
  split; [intros r'; apply C91_becomes, K|]. intros r' l ds E. exact (C91_same_matches io compiles r r' K E l ds).
Qed.
Print Assumptions C192_rules.

(** Logins and the events without payload. *)
Theorem C192_events : forall io fl ft e, prints fl ft -> event_ok (Ev e) -> ~ holds_address (Ev e) ->
  exists t, json_of_event io (Ev e) = Some t /\ forall s, text_of ft t s ->
    (exists j, document fl s j) /\ forall j, document fl s j -> from_text (event_of_json io) j = Some (Ev e).
Proof.
  intros io fl ft e P K N. destruct (C95_roundtrip io (Ev e) K N) as (t & E & R); [discriminate|]. exists t. split; [exact E|]. intros s T.
  destruct C192_documents as (_ & _ & _ & _ & _ & _ & _ & _ & _ & _ & _ & FE).
  assert (N' : forall x, has_float x t -> is_finite x = true) by (intros x; refine (FE io (Ev e) t x _ E); discriminate).
  split; [exists t; exact (tree_text fl ft t s P N' T)|]. intros j D. rewrite (text_tree fl ft t s j P N' T D).
  destruct (C187_events io) as (RE & _). rewrite (RE e t E). exact R.
Qed.
Print Assumptions C192_events.

(** Task definitions, dictionaries and errors. *)
Theorem C192_dictionaries : forall fl ft d s j, prints fl ft -> sorted (language_map d) ->
  (forall lang texts, In (lang, texts) (language_map d) -> sorted texts) ->
  text_of ft (json_of_dictionary d) s -> document fl s j -> from_text dictionary_of_json j = Some d.
Proof.
  intros fl ft d s j P S S' T D. destruct C192_documents as (_ & _ & _ & _ & _ & _ & _ & FD & _).
  rewrite (text_tree fl ft _ s j P (FD d) T D). destruct (C187_read {| reread := Some; big_int := fun _ => None |}) as (_ & _ & _ & _ & _ & _ & _ & _ & _ & _ & RD & _).
  rewrite RD. apply C182_roundtrip; assumption.
Qed.
Print Assumptions C192_dictionaries.

(** Sigma rules, as long as their values are lists at most 123 deep. *)
Theorem C192_sigma : forall io fl ft r s j, prints fl ft -> (forall x, float_reads io x x) -> sigma_fits r ->
  (forall c, ~ In ("condition", c) (search_identifiers (sg_detection r))) -> (forall x, occurs (SFloat x) r -> finite x) ->
  (forall id c, In (id, c) (search_identifiers (sg_detection r)) ->
    (forall m key v, c = SMap m -> In (key, v) m -> value_nesting v <= 123) /\
    (forall l m key v, c = SList l -> In m l -> In (key, v) m -> value_nesting v <= 123)) ->
  text_of ft (json_of_sigma r) s -> document fl s j -> from_text (sigma_of_json io) j = Some r.
Proof.
  intros io fl ft r s j P FR SF C X N T D. destruct C192_documents as (_ & _ & _ & _ & _ & _ & _ & _ & _ & FS & _).
  rewrite (text_tree fl ft _ s j P (FS r) T D). destruct (C188_sigma io r) as (RS & _). rewrite RS.
  - apply (C179_roundtrip io r FR SF). auto.
  - intros id c I. destruct (N id c I) as (A & B). split; [|exact B]. intros m key v E I'. pose proof (A m key v E I'). lia.
Qed.
Print Assumptions C192_sigma.

(** * Cases *)

(** The hypothesis on floats can be met: mantissa and exponent in decimal, as an (odd) example of a printer. *)
Definition odd_text (x : f64) : string :=
  match x with
  | S754_finite b m e => ((if b then "-" else "") ++ dec (Npos m) ++ "e" ++ dec_z e)%string
  | S754_zero b => ((if b then "-" else "") ++ dec 0 ++ "e" ++ dec_z 0)%string
  | _ => ""%string
  end.
Lemma split_at_e a b x y : ~ has_char "e" a -> ~ has_char "e" b -> (a ++ String "e" x)%string = (b ++ String "e" y)%string -> a = b /\ x = y.
Proof.
  revert b. induction a as [|c a IH]; intros [|d b] A B E; cbn in *.
  - injection E as ->. auto.
  - exfalso. apply B. left. congruence.
  - exfalso. apply A. left. congruence.
  - injection E as <- E. destruct (IH b) as (-> & ->); auto.
Qed.
Lemma dec_ten n : all_ten (dec n).
Proof. destruct (dec_numeral n) as (_ & D & _). exact (digits_ten _ _ D). Qed.
Lemma dec_has c n : has_char c (dec n) -> In c ten.
Proof. apply ten_has, dec_ten. Qed.
Lemma dec_inj n m : dec n = dec m -> n = m.
Proof.
  intros E. destruct (dec_numeral n) as (_ & D & _), (dec_numeral m) as (_ & D' & _). rewrite E in D. exact (denotes_same _ _ _ _ _ decimal_same D D').
Qed.
Lemma dec_z_inj x y : dec_z x = dec_z y -> x = y.
Proof. intros E. pose proof (dec_z_ok x) as A. rewrite E in A. exact (integer_same _ _ _ A (dec_z_ok y)). Qed.
Lemma odd_inj (b : bool) n e (b' : bool) n' e' : ((if b then "-" else "") ++ dec n ++ "e" ++ dec_z e)%string = ((if b' then "-" else "") ++ dec n' ++ "e" ++ dec_z e')%string ->
  b = b' /\ n = n' /\ e = e'.
Proof.
  assert (N : forall (b : bool) n, ~ has_char "e" ((if b then "-" else "") ++ dec n)%string).
  { intros c k H. apply has_app in H as [H|H]; [destruct c; cbn in H; [destruct H as [H|[]]; discriminate|exact H]|].
    apply dec_has in H. cbn in H. repeat (destruct H as [H|H]; [discriminate|]). exact H. }
  intros E. change ("e" ++ dec_z e)%string with (String "e" (dec_z e)) in E. change ("e" ++ dec_z e')%string with (String "e" (dec_z e')) in E.
  rewrite <- !str_app_assoc in E. apply split_at_e in E as (E & Z); [|apply N|apply N]. apply dec_z_inj in Z.
  assert (H : forall k, ~ has_char "-" (dec k)).
  { intros k H. apply dec_has in H. cbn in H. repeat (destruct H as [H|H]; [discriminate|]). exact H. }
  destruct b, b'; cbn [String.append] in E.
  - injection E as E. apply dec_inj in E. auto.
  - exfalso. apply (H n'). rewrite <- E. left. reflexivity.
  - exfalso. apply (H n). rewrite E. left. reflexivity.
  - apply dec_inj in E. auto.
Qed.
Lemma odd_float (b : bool) n e : float ((if b then "-" else "") ++ dec n ++ "e" ++ dec_z e)%string.
Proof.
  exists (if b : bool then "-"%string else ""%string), (dec n), ""%string, ("e" ++ dec_z e)%string. cbn [String.append].
  destruct (dec_numeral n) as (A & B & C).
  split; [reflexivity|]. split; [destruct b; [right|left]; reflexivity|]. split; [split; [exact A|split; [exists n; exact B|exact C]]|].
  split; [left; reflexivity|]. split; [|right; left; discriminate].
  right. exists "e"%char. unfold dec_z. destruct (Z.ltb e 0).
  - exists "-"%string, (dec (Z.to_N (- e))). destruct (dec_numeral (Z.to_N (- e))) as (A' & B' & _). splits; auto. exists (Z.to_N (- e)). exact B'.
  - exists ""%string, (dec (Z.to_N e)). destruct (dec_numeral (Z.to_N e)) as (A' & B' & _). splits; auto. exists (Z.to_N e). exact B'.
Qed.
Example C192_prints : prints (fun s x => is_finite x = true /\ s = odd_text x) odd_text.
Proof.
  split.
  - intros s x y (X & ->) (Y & E). destruct x as [b|b| |b m e], y as [b'|b'| |b' m' e']; try discriminate; unfold odd_text in E; apply odd_inj in E as (B & M & Z).
    + congruence.
    + discriminate.
    + discriminate.
    + congruence.
  - intros x X. split; [|auto]. destruct x; try discriminate; apply odd_float.
Qed.
Example C192_message_case : let m := MNotification (Notif 7 5 "c" "it's ""fine""" L_Info) in
  message_ok m /\ exists t, json_of_message m = Some t /\ text_of odd_text t (write_json odd_text t).
Proof. cbv zeta. split; [|eexists; split; [reflexivity|left; reflexivity]]. cbn. unfold notification_ok, u64_ok, i64_ok. cbn. lia. Qed.
