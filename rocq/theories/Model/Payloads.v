(** What the messages of src/components/common.rs carry besides commands: command responses
    (src/components/command.rs, command_types.rs), task definitions and results (src/components/task.rs), alerts
    (src/components/alert.rs), dataset and command definitions (src/components/common.rs). *)
From Coq Require Import String NArith ZArith List.
From Verif Require Import Base.Ord Base.BTree Base.Outcome Model.Field Model.Log Model.DatasetTypes Model.Mitre
  Model.Rule Model.Command Model.Component.
Import ListNotations.
Local Open Scope string_scope.

(** components/common.rs:105-116 *)
Inductive user_role := Compliance | Analyst | Engineer | Administrator.
(** components/common.rs:118-123 *)
Record dataset_definition := DatasetDef { dd_name : dataset_type; dd_description : string; dd_permission : user_role }.
(** command.rs:46-52 *)
Record command_definition := CommandDef { cd_class : siem_function_type; cd_name : string; cd_description : string; cd_permission : user_role }.

(** command.rs:187-193 *)
Inductive command_error := BadParameters (s : string) | SyntaxError (s : string) | NotFound (s : string).
(** command.rs:227-236: [Result] with its own names in JSON *)
Definition command_result (T : Type) := result T command_error.

(** command_types.rs:10-19: [ParserDefinition], [TaskDefinition] *)
Record named := Named { nm_name : string; nm_description : string }.
(** command_types.rs:20-26 *)
Record rule_definition := RuleDef { rd_name : string; rd_description : string; rd_mitre : list tactic * list technique; rd_service : string }.
(** command_types.rs:70-75 and use_case.rs:26-31 *)
Record requirements := Requirements { rq_product : option string; rq_service : option string; rq_category : option string }.
(** command_types.rs:54-68 *)
Record use_case_definition := UseCaseDef { uc_name : string; uc_description : string; uc_case_logic : string;
  uc_limitations : string; uc_requirements : requirements; uc_rule : string }.
(** command_types.rs:91-95 *)
Record logged_on := LoggedOn { lo_username : string; lo_role : user_role }.
(** task.rs:270-274 *)
Record task_result := TaskResult { tr_id : N; tr_data : option (result string string) }.

(** command.rs:196-225 *)
Inductive response :=
| R_START_COMPONENT (r : command_result string)
| R_STOP_COMPONENT (r : command_result string)
| R_LOG_QUERY (q : query_info) (r : command_result (list (bt string field)))
| R_ISOLATE_IP (r : command_result string)
| R_ISOLATE_ENDPOINT (r : command_result string)
| R_FILTER_IP (r : command_result string)
| R_FILTER_DOMAIN (r : command_result string)
| R_FILTER_EMAIL_SENDER (r : command_result string)
| R_LIST_USE_CASES (r : command_result (list use_case_definition))
| R_GET_USE_CASE (r : command_result use_case_definition)
| R_LIST_RULES (r : command_result (list rule_definition))
| R_GET_RULE (r : command_result rule_definition)
| R_LIST_DATASETS (r : command_result (list dataset_definition))
| R_LIST_TASKS (r : command_result (list named))
| R_LIST_PARSERS (r : command_result (list named))
| R_LOGIN_USER (r : command_result logged_on)
| R_START_TASK (r : command_result N)
| R_GET_TASK_RESULT (r : command_result task_result)
| R_OTHER (name : string) (r : command_result params).

(** task.rs:184-194 *)
Inductive fire_mode := Inmediate | Cron (a b c d e : N) | Repetitive (millis : N) | Future (at_ : Z).
(** task.rs:26-37. [td_builder]: what the future built for a task gives. Simplified: the datasets it gets and its
    [SiemResult] are left out. *)
Record task_definition := TaskDef { td_data : siem_task_data; td_name : string; td_description : string;
  td_permission : user_role; td_fire_mode : fire_mode; td_max_duration : N; td_builder : siem_task -> task_result }.

(** alert.rs:14-33 *)
Record siem_alert := Alert { a_title : string; a_description : string; a_severity : severity; a_date : Z;
  a_tags : list string; a_techniques : list technique; a_rule : string; a_log : log; a_aggregation : option aggregation }.

(** The messages with these payloads *)
Definition siem_payloads : payloads := Payloads response siem_dataset siem_alert task_result.
Definition siem_message := message siem_payloads.
