(** C153: JSON objects are read by their keys. *)
From Coq Require Import String Ascii NArith ZArith List Bool Lia Permutation.
From Verif Require Import Base.Arith Base.Ord Base.BTree Model.Ip Model.Field Model.Mitre Model.Rule Model.Command Model.EventEnums Model.Events
  Model.Component Model.Payloads Model.Json Model.JsonField Model.JsonCommand Model.JsonRule Model.JsonEvent Spec.JsonKeysSpec Spec.EventNames Spec.WireSpec.
Import ListNotations.
Local Open Scope string_scope.
Local Open Scope list_scope.

Lemma entries_given k l : entries k l = given k l.
Proof. induction l as [|[k' v] r IH]; [reflexivity|]. unfold entries in *. cbn [filter fst given]. destruct (String.eqb k' k); cbn [map snd]; rewrite IH; reflexivity. Qed.
Lemma fields_same names l l' : (forall k, In k names -> given k l = given k l') -> struct_fields names (JObj l) = struct_fields names (JObj l').
Proof.
  intros H. unfold struct_fields. induction names as [|n ns IH]; [reflexivity|]. cbn [mapM]. rewrite !entries_given, (H n (or_introl eq_refl)).
  destruct (once (given n l')); [|reflexivity]. rewrite IH; [reflexivity|]. intros k I. exact (H k (or_intror I)).
Qed.
Lemma fields_twice names l k v w r : In k names -> given k l = v :: w :: r -> struct_fields names (JObj l) = None.
Proof.
  intros I H. unfold struct_fields. induction names as [|n ns IH]; [destruct I|]. cbn [mapM]. rewrite entries_given.
  destruct I as [->|I].
  - rewrite H. reflexivity.
  - destruct (once (given n l)); [|reflexivity]. rewrite (IH I). reflexivity.
Qed.
Lemma given_cons k k' v l : given k ((k', v) :: l) = if String.eqb k' k then v :: given k l else given k l.
Proof. reflexivity. Qed.

Ltac each_key := repeat match goal with H : In _ (_ :: _) |- _ => destruct H as [<-|H] | H : In _ [] |- _ => destruct H end.
Ltac chain := repeat match goal with
  | |- None = None => reflexivity
  | |- (match ?x with Some _ => _ | None => None end) = None => destruct x; try reflexivity
  end.
Ltac open_fields := unfold struct_fields; cbn [mapM]; rewrite !entries_given.
Ltac keys r := constructor;
  [ intros l l' H; cbn [app] in H; unfold r; rewrite (fields_same _ l l'); [reflexivity|];
    intros k I; apply H; each_key; repeat first [left; reflexivity | right]
  | intros l k v w rest I H; cbn [app] in I; unfold r; rewrite (fields_twice _ l k v w rest); [reflexivity| |exact H];
    each_key; repeat first [left; reflexivity | right]
  | intros l k I H; unfold r; each_key; open_fields; rewrite H; cbn [once];
    repeat match goal with |- context [once ?x] => destruct (once x); try reflexivity end; cbn [req]; chain
  | intros l k I H; unfold r; each_key; open_fields; rewrite !given_cons, !H; cbn [String.eqb Ascii.eqb Bool.eqb once];
    repeat match goal with |- context [once ?x] => destruct (once x); try reflexivity end; reflexivity ].

(** Headers, tasks, their results and definitions, notifications, alerts *)
Theorem C153_messages : forall io,
  by_keys ["user"; "comp_id"; "comm_id"] [] header_of_json
  /\ by_keys ["created_at"; "enqueued_at"; "origin"; "id"; "data"] [] task_of_json
  /\ by_keys ["id"] ["data"] task_result_of_json
  /\ by_keys ["timestamp"; "component"; "component_name"; "log"; "level"] [] notification_of_json
  /\ by_keys ["title"; "description"; "severity"; "date"; "tags"; "techniques"; "rule"; "log"] ["aggregation"] (alert_of_json io)
  /\ by_keys ["limit"; "key"] [] aggregation_of_json.
Proof.
  intros io. splits; [keys header_of_json|keys task_of_json|keys task_result_of_json|keys notification_of_json|keys alert_of_json|keys aggregation_of_json].
Qed.
Print Assumptions C153_messages.
(** The payloads of commands and of their responses *)
Theorem C153_payloads :
  by_keys ["user"; "is_native"; "from"; "to"; "limit"; "offset"; "ttl"; "query"; "fields"] ["query_id"] query_of_json
  /\ by_keys ["offset"; "limit"] [] pagination_of_json
  /\ (forall (A : Type) key (r : json -> option A), key <> "comment" -> by_keys [key; "comment"] [] (commented_of_json key r))
  /\ by_keys ["name"; "description"] [] named_of_json
  /\ by_keys ["name"; "description"; "mitre"; "service"] [] rule_definition_of_json
  /\ by_keys [] ["product"; "service"; "category"] requirements_of_json
  /\ by_keys ["name"; "description"; "case_logic"; "limitations"; "requirements"; "rule"] [] use_case_of_json
  /\ by_keys ["name"; "description"; "required_permission"] [] dataset_definition_of_json
  /\ by_keys ["class"; "name"; "description"; "min_permission"] [] command_definition_of_json
  /\ by_keys ["username"; "role"] [] logged_on_of_json.
Proof.
  splits; [keys query_of_json|keys pagination_of_json| |keys named_of_json|keys rule_definition_of_json|keys requirements_of_json
    |keys use_case_of_json|keys dataset_definition_of_json|keys command_definition_of_json|keys logged_on_of_json].
  intros A key r N. keys (@commented_of_json).
Qed.
Print Assumptions C153_payloads.
(** Rules and their parts *)
Theorem C153_rules : forall io compiles,
  by_keys ["id"; "name"; "description"; "mitre"; "needed_datasets"; "subrules"; "conditions"; "alert"] [] (rule_of_json io compiles)
  /\ by_keys ["conditions"] ["rule_state"] (subrule_of_json io compiles)
  /\ by_keys ["content"; "severity"; "tags"] ["aggregation"] alert_gen_of_json
  /\ by_keys ["tactics"; "techniques"] [] mitre_of_json
  /\ by_keys ["states"] [] state_of_json.
Proof.
  intros io compiles. splits; [keys rule_of_json|keys subrule_of_json|keys alert_gen_of_json|keys mitre_of_json|keys state_of_json].
Qed.
Print Assumptions C153_rules.
(** So reordering the entries of an object with different keys changes nothing. *)
Theorem C153_order : forall (A : Type) required optional (read : json -> option A) l l', by_keys required optional read ->
  NoDup (map fst l) -> Permutation l l' -> read (JObj l) = read (JObj l').
Proof.
  intros A required optional read l l' B N P. apply (other_keys_ignored required optional read B). intros k _. clear B.
  induction P as [|[a v] l l' P IH|[a v] [b w] l|l l' l'' P IH Q IH'].
  - reflexivity.
  - inversion N; subst. cbn [given]. rewrite IH by assumption. reflexivity.
  - cbn [given]. destruct (String.eqb_spec b k) as [->|X], (String.eqb_spec a k) as [->|Y]; try reflexivity.
    cbn [map fst] in N. inversion N as [|? ? F]; subst. destruct F. left. reflexivity.
  - rewrite IH by exact N. apply IH'. eapply Permutation_NoDup; [|exact N]. apply Permutation_map. exact P.
Qed.
Print Assumptions C153_order.
Example C153_case :
  header_of_json (JObj [("comm_id", JInt 2); ("note", JNull); ("user", JStr "u"); ("comp_id", JInt 1)]) = Some (Header "u" 1 2)
  /\ header_of_json (JObj [("comm_id", JInt 2); ("comm_id", JInt 2); ("user", JStr "u"); ("comp_id", JInt 1)]) = None
  /\ task_result_of_json (JObj [("id", JInt 3)]) = Some (TaskResult 3 None).
Proof. vm_compute. splits; reflexivity. Qed.

(** Enumerations are read by the names of their variants, alone or as the only key of an object, over null; nothing else is
    read. *)
Lemma pick_unit {A} (table : list (A * string)) k r : pick k (map (fun e => (snd e, unit_v (fst e))) table) = Some r ->
  exists a, In (a, k) table /\ r = unit_v a.
Proof.
  induction table as [|[a n] t IH]; cbn; [discriminate|]. destruct (String.eqb_spec n k) as [->|].
  - intros E. injection E as <-. eauto.
  - intros E. destruct (IH E) as (b & I & ->). eauto.
Qed.
Lemma pick_unit_in {A} (table : list (A * string)) k a : NoDup (map snd table) -> In (a, k) table ->
  pick k (map (fun e => (snd e, unit_v (fst e))) table) = Some (unit_v a).
Proof.
  induction table as [|[b n] t IH]; cbn; intros N I; [contradiction|]. inversion N as [|? ? F N']; subst. destruct I as [E|I].
  - injection E as -> ->. rewrite String.eqb_refl. reflexivity.
  - destruct (String.eqb_spec n k) as [->|]; [|apply IH; assumption]. destruct F. apply in_map_iff. exists (a, k). auto.
Qed.
Fixpoint distinct (l : list string) : bool := match l with [] => true | x :: r => negb (existsb (String.eqb x) r) && distinct r end.
Lemma distinct_nodup l : distinct l = true -> NoDup l.
Proof.
  induction l as [|x r IH]; cbn; intros E; constructor; apply andb_prop in E as [E F]; [|auto]. intros I. apply negb_true_iff in E.
  assert (X : existsb (String.eqb x) r = true) by (apply existsb_exists; exists x; split; [exact I | apply String.eqb_refl]). congruence.
Qed.
Lemma by_names_table {A} (name : A -> string) all table : map (fun a => (a, name a)) all = table -> distinct (map snd table) = true ->
  by_names table (read_unit_enum name all).
Proof.
  intros <- D. apply distinct_nodup in D. intros j a.
  assert (V : map (fun a => (name a, unit_v a)) all = map (fun e => (snd e, unit_v (fst e))) (map (fun a => (a, name a)) all))
    by (rewrite map_map; reflexivity).
  unfold read_unit_enum, read_enum. rewrite V. split.
  - intros E. destruct (variant j) as [[k p]|] eqn:J; [|discriminate]. cbn [fst snd] in E.
    destruct (pick k _) as [r|] eqn:K; [|discriminate]. apply pick_unit in K as (b & I & ->). exists k.
    destruct j as [| | | |s| |[|[k' v] [|]]]; try discriminate J; cbn in J; injection J as -> <-; cbn [unit_v] in E.
    + injection E as ->. auto.
    + destruct v; try discriminate E. injection E as ->. auto.
  - intros (n & I & [-> | ->]); cbn [variant fst snd]; rewrite (pick_unit_in _ _ _ D I); reflexivity.
Qed.
Theorem C153_enumerations :
  by_names role_names role_of_json /\ by_names level_names level_of_json /\ by_names severity_names severity_of_json
  /\ by_names fw_outcome_names fw_outcome_of_json /\ by_names web_outcome_names web_outcome_of_json
  /\ by_names intrusion_outcome_names intrusion_outcome_of_json /\ by_names [(DO_ANSWER, "ANSWER"); (DO_QUERY, "QUERY")] dns_op_of_json
  /\ by_names dns_type_names dns_type_of_json /\ by_names dhcp_type_names dhcp_type_of_json
  /\ by_names login_outcome_names login_outcome_of_json /\ by_names intrusion_category_names intrusion_category_of_json.
Proof. splits; (apply by_names_table; [reflexivity | vm_compute; reflexivity]). Qed.
Lemma by_names_or_text_table {A} (name : A -> string) all table tag (text : string -> A) : map (fun a => (a, name a)) all = table ->
  distinct (tag :: map snd table) = true ->
  by_names_or_text table tag text (read_enum ((tag, newtype_v read_str text) :: map (fun a => (name a, unit_v a)) all)).
Proof.
  intros E D. cbn [distinct] in D. apply andb_prop in D as [Dt D]. pose proof (by_names_table name all table E D) as X. unfold by_names, read_unit_enum, read_enum in X.
  assert (T : forall b, ~ In (b, tag) table).
  { intros b I. apply negb_true_iff in Dt. assert (Y : existsb (String.eqb tag) (map snd table) = true); [|congruence].
    apply existsb_exists. exists tag. split; [apply in_map_iff; exists (b, tag); auto | apply String.eqb_refl]. }
  intros j a. specialize (X j a). unfold read_enum. destruct (variant j) as [[k p]|] eqn:J; cbn [fst snd pick] in *.
  2:{ split; [discriminate|]. intros [Y|(s & _ & ->)]; [apply X, Y|discriminate J]. }
  destruct (String.eqb_spec tag k) as [<-|K].
  - split.
    + intros R. right. destruct j as [| | | |s| |[|[k' v] [|]]]; try discriminate J; cbn in J; injection J as -> <-; [discriminate R|].
      cbn [newtype_v] in R. destruct v; try discriminate R. cbn in R. injection R as <-. eauto.
    + intros [(n & I & [-> | ->])|(s & -> & ->)]; cbn in J.
      * assert (n = tag) by congruence. subst n. destruct (T _ I).
      * assert (n = tag) by congruence. subst n. destruct (T _ I).
      * assert (p = Some (JStr s)) by congruence. subst p. reflexivity.
  - rewrite X. split; [intros Y; left; exact Y|]. intros [Y|(s & _ & ->)]; [exact Y|]. cbn in J. congruence.
Qed.
Theorem C153_open_enumerations :
  by_names_or_text http_method_names "UNKNOWN" HM_UNKNOWN http_of_json /\ by_names_or_text web_protocol_names "UNKNOWN" WP_UNKNOWN web_protocol_of_json
  /\ by_names_or_text web_category_names "Others" WC_Others web_category_of_json.
Proof. splits; (apply by_names_or_text_table; [reflexivity | vm_compute; reflexivity]). Qed.
Print Assumptions C153_open_enumerations.
Print Assumptions C153_enumerations.
