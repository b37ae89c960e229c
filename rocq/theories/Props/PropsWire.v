(** Property C166: the documents that stand for commands, responses, tasks, alerts, rules and messages. *)
From Coq Require Import String NArith ZArith List Bool.
From Verif Require Import Base.Arith Base.Ord Base.BTree Base.Outcome Model.Ip Model.Field Model.Log Model.DatasetTypes Model.Mitre
  Model.Rule Model.Command Model.Component Model.Payloads Model.Json Model.JsonField Model.JsonCommand Model.JsonRule
  Spec.WireSpec Proofs.RuleP.
Import ListNotations.
Local Open Scope string_scope.

(** ** Enumerations are texts. *)
Ltac in_table := repeat first [left; reflexivity | right].
Ltac by_table := intros a; destruct a; eexists; (split; [in_table|reflexivity]).
Theorem C166_enumerations :
  named_by json_of_role role_names /\ named_by json_of_level level_names /\ named_by json_of_severity severity_names.
Proof. splits; by_table. Qed.
Print Assumptions C166_enumerations.
(** Those with a variant that carries a name write it as an object. *)
Theorem C166_open_enumerations :
  (forall f, (exists name, f = F_OTHER name /\ json_of_function f = JObj [("OTHER", JStr name)]) \/
    exists s, In (f, s) function_names /\ json_of_function f = JStr s) /\
  (forall t, (exists name, t = TT_OTHER name /\ json_of_task_type t = JObj [("OTHER", JStr name)]) \/
    exists s, In (t, s) task_type_names /\ json_of_task_type t = JStr s) /\
  (forall t, (exists make s name, In (make, s) custom_dataset_names /\ t = make name /\ json_of_type t = JObj [(s, JStr name)]) \/
    exists s, In (t, s) dataset_names /\ json_of_type t = JStr s).
Proof.
  splits.
  - intros f; destruct f;
      first [left; eexists; split; reflexivity | right; eexists; split; [in_table|reflexivity]].
  - intros t; destruct t;
      first [left; eexists; split; reflexivity | right; eexists; split; [in_table|reflexivity]].
  - intros t; destruct t;
      first [right; eexists; split; [in_table|reflexivity] | left; do 3 eexists; splits; [|reflexivity|reflexivity]; in_table].
Qed.
Print Assumptions C166_open_enumerations.

(** ** Structs and variants with payloads *)
Lemma wire_task_data_eq d : json_of_task_data d = wire_task_data d.
Proof. destruct d; reflexivity. Qed.
Lemma wire_task_eq t : json_of_task t = wire_task t.
Proof. destruct t. unfold json_of_task. cbn. rewrite wire_task_data_eq. reflexivity. Qed.
Lemma wire_task_result_eq r : json_of_task_result r = wire_task_result r.
Proof. destruct r as [id [[a|e]|]]; reflexivity. Qed.
Lemma wire_query_eq q : json_of_query q = wire_query q.
Proof. destruct q; reflexivity. Qed.
Lemma wire_page_eq p : json_of_pagination p = wire_page p.
Proof. destruct p; reflexivity. Qed.
Theorem C166_commands : forall c, json_of_call c = wire_call c.
Proof.
  destruct c; cbn [json_of_call wire_call]; try reflexivity; try (destruct x; reflexivity);
    rewrite ?wire_query_eq, ?wire_page_eq, ?wire_task_eq; try reflexivity.
  destruct u; reflexivity.
Qed.
Print Assumptions C166_commands.
Theorem C166_headers : forall h, json_of_header h = wire_header h.
Proof. destruct h; reflexivity. Qed.
Print Assumptions C166_headers.
Theorem C166_tasks : (forall t, json_of_task t = wire_task t) /\ (forall r, json_of_task_result r = wire_task_result r) /\
  (forall d, json_of_task_definition d = wire_task_definition d).
Proof.
  splits; [exact wire_task_eq|exact wire_task_result_eq|]. destruct d. unfold json_of_task_definition. cbn. rewrite wire_task_data_eq.
  destruct td_fire_mode; reflexivity.
Qed.
Print Assumptions C166_tasks.
Lemma wire_result_eq {T} (w w' : T -> json) r : (forall a, w a = w' a) -> json_of_command_result w r = wire_result w' r.
Proof. intros E. destruct r as [a|[s|s|s]]; cbn; rewrite ?E; reflexivity. Qed.
Lemma wire_list_eq {T} (w w' : T -> json) l : (forall a, w a = w' a) -> json_of_list w l = wire_list w' l.
Proof. intros E. unfold json_of_list, wire_list. rewrite (map_ext w w' E). reflexivity. Qed.
Lemma wire_use_case_eq u : json_of_use_case u = wire_use_case u.
Proof. destruct u as [? ? ? ? [? ? ?] ?]; reflexivity. Qed.
Lemma wire_rule_definition_eq u : json_of_rule_definition u = wire_rule_definition u.
Proof. destruct u as [? ? [? ?] ?]; reflexivity. Qed.
Lemma wire_dataset_definition_eq u : json_of_dataset_definition u = wire_dataset_definition u.
Proof. destruct u; reflexivity. Qed.
Lemma wire_named_eq u : json_of_named u = wire_named u.
Proof. destruct u; reflexivity. Qed.
Lemma wire_logged_on_eq u : json_of_logged_on u = wire_logged_on u.
Proof. destruct u; reflexivity. Qed.
Theorem C166_definitions :
  (forall u, json_of_use_case u = wire_use_case u) /\ (forall r, json_of_rule_definition r = wire_rule_definition r) /\
  (forall d, json_of_dataset_definition d = wire_dataset_definition d) /\ (forall c, json_of_command_definition c = wire_command_definition c).
Proof.
  splits; [exact wire_use_case_eq|exact wire_rule_definition_eq|exact wire_dataset_definition_eq|]. destruct c; reflexivity.
Qed.
Print Assumptions C166_definitions.
Lemma obj1 k a b : a = b -> JObj [(k, a)] = JObj [(k, b)].
Proof. congruence. Qed.
Lemma obj2 k x a b : a = b -> JObj [(k, JArr [x; a])] = JObj [(k, JArr [x; b])].
Proof. congruence. Qed.
Theorem C166_responses : forall r, json_of_response r = wire_response r.
Proof.
  destruct r; cbn [json_of_response wire_response]; unfold tagged; rewrite ?wire_query_eq;
    first [apply obj2 | apply obj1]; apply wire_result_eq; intros a; try reflexivity;
    first [apply wire_use_case_eq | apply wire_rule_definition_eq | apply wire_logged_on_eq | apply wire_task_result_eq
          | apply wire_list_eq; intros b;
            first [apply wire_use_case_eq | apply wire_rule_definition_eq | apply wire_dataset_definition_eq | apply wire_named_eq | reflexivity]].
Qed.
Print Assumptions C166_responses.
Theorem C166_alerts : (forall a, json_of_alert a = wire_alert a) /\ (forall n, json_of_notification n = wire_notification n).
Proof. split; [intros [? ? ? ? ? ? ? ? [[? ?]|]]; reflexivity|intros []; reflexivity]. Qed.
Print Assumptions C166_alerts.
(** Datasets are not written. *)
Theorem C166_messages : forall m, json_of_message m = wire_message m.
Proof.
  destruct m; cbn [json_of_message wire_message]; unfold tagged; rewrite ?C166_headers, ?C166_commands, ?C166_responses,
    ?wire_task_eq, ?wire_task_result_eq, ?(proj1 C166_alerts), ?(proj2 C166_alerts); reflexivity.
Qed.
Print Assumptions C166_messages.

(** ** Rules *)
Lemma wire_state_eq s : json_of_state s = wire_state s.
Proof. destruct s as [[|]]; reflexivity. Qed.
Lemma wire_op_eq o : op_entry o = wire_op o.
Proof.
  induction o using op_induction; cbn [op_entry wire_op]; try reflexivity; try congruence.
  - do 2 f_equal. apply map_ext_in. intros x I. rewrite Forall_forall in H. rewrite (H x I). reflexivity.
  - do 2 f_equal. apply map_ext_in. intros x I. rewrite Forall_forall in H. rewrite (H x I). reflexivity.
  - destruct o; try match goal with H : forall x, ?c _ <> ?c x |- _ => destruct (H _ eq_refl) end; cbn [op_entry wire_op]; try reflexivity.
    unfold json_of_list. rewrite (map_ext _ _ wire_state_eq). reflexivity.
Qed.
Lemma wire_cond_eq c : json_of_cond c = wire_cond c.
Proof. destruct c. unfold json_of_cond. cbn. rewrite wire_op_eq. reflexivity. Qed.
Lemma wire_subrule_eq s : json_of_subrule s = wire_subrule s.
Proof. destruct s as [l [t|]]; unfold json_of_subrule, json_of_list; cbn; rewrite (map_ext _ _ wire_cond_eq), ?wire_state_eq; reflexivity. Qed.
Lemma wire_alert_gen_eq a : json_of_alert_gen a = wire_alert_gen a.
Proof. destruct a as [c s t [[l k]|]]; reflexivity. Qed.
Theorem C166_operators : forall o, json_of_op o = JObj [wire_op o].
Proof. intros o. unfold json_of_op. rewrite wire_op_eq. reflexivity. Qed.
Print Assumptions C166_operators.
Theorem C166_rules : forall r, json_of_rule r = wire_rule r.
Proof.
  destruct r as [i n d [ta te] ne su co al]. unfold json_of_rule, json_of_map. cbn.
  rewrite (map_ext _ _ (fun e => f_equal (pair (fst e)) (wire_subrule_eq (snd e)))), wire_alert_gen_eq. reflexivity.
Qed.
Print Assumptions C166_rules.
Example C166_case :
  json_of_message (@MTask siem_payloads (Header "u" 1 2) (Task 10 20 "web" 3 (TD_OTHER "scan" [("depth", "2")]))) =
    Some (JObj [("Task", JArr [JObj [("user", JStr "u"); ("comp_id", JInt 1); ("comm_id", JInt 2)];
      JObj [("created_at", JInt 10); ("enqueued_at", JInt 20); ("origin", JStr "web"); ("id", JInt 3);
            ("data", JObj [("OTHER", JArr [JStr "scan"; JObj [("depth", JStr "2")]])])]])]) /\
  json_of_cond (mkCond "source.ip" (ONot (OAny [OIsLocalIp true; OInDataset (T_CustomIpList "lab")]))) =
    JObj [("field", JStr "source.ip"); ("not", JObj [("any", JArr [JObj [("is_local_ip", JBool true)];
      JObj [("in_dataset", JObj [("CustomIpList", JStr "lab")])]])])].
Proof. split; reflexivity. Qed.
