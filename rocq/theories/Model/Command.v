(** Model of src/components/command.rs (function types, calls, headers, queries), of the payloads of the calls
    (src/components/command_types.rs) and of src/components/task.rs (task data, types, tasks). *)
From Coq Require Import String NArith ZArith List.
From Verif Require Import Base.Ord Base.BTree Model.Ip.
Import ListNotations.
Local Open Scope string_scope.

(** * Tasks *)

(** A parameter map, [BTreeMap<LogString, LogString>] *)
Notation params := (bt string string).

(** task.rs:196-211 *)
Inductive siem_task_type :=
| TT_EXECUTE_ENDPOINT_SCRIPT | TT_REMEDIATE_EMAILS | TT_REPORT_ABUSE | TT_UPDATE_GEOIP | TT_UPDATE_CLOUD_PROVIDER
| TT_OTHER (name : string).

(** task.rs:213-224 *)
Definition task_type_str (t : siem_task_type) : string :=
  match t with
  | TT_EXECUTE_ENDPOINT_SCRIPT => "EXECUTE_ENDPOINT_SCRIPT"
  | TT_REMEDIATE_EMAILS => "REMEDIATE_EMAILS"
  | TT_REPORT_ABUSE => "REPORT_ABUSE"
  | TT_UPDATE_GEOIP => "UPDATE_GEOIP"
  | TT_UPDATE_CLOUD_PROVIDER => "UPDATE_CLOUD_PROVIDER"
  | TT_OTHER name => name
  end.

(** task.rs:226-242 *)
Inductive siem_task_data :=
| TD_EXECUTE_ENDPOINT_SCRIPT (name : string) (p : params)
| TD_REMEDIATE_EMAILS (p : params)
| TD_REPORT_ABUSE (p : params)
| TD_UPDATE_GEOIP
| TD_UPDATE_CLOUD_PROVIDER
| TD_OTHER (name : string) (p : params).

(** task.rs:244-255 *)
Definition task_class (d : siem_task_data) : siem_task_type :=
  match d with
  | TD_EXECUTE_ENDPOINT_SCRIPT _ _ => TT_EXECUTE_ENDPOINT_SCRIPT
  | TD_REMEDIATE_EMAILS _ => TT_REMEDIATE_EMAILS
  | TD_REPORT_ABUSE _ => TT_REPORT_ABUSE
  | TD_UPDATE_GEOIP => TT_UPDATE_GEOIP
  | TD_UPDATE_CLOUD_PROVIDER => TT_UPDATE_CLOUD_PROVIDER
  | TD_OTHER v _ => TT_OTHER v
  end.

(** task.rs:261-268 *)
Record siem_task := Task { t_created_at : Z; t_enqueued_at : Z; t_origin : string; t_id : N; t_data : siem_task_data }.

(** * Payloads of the calls *)

(** command.rs:181-185 *)
Record pagination := Pagination { pg_offset : N; pg_limit : N }.
(** command_types.rs:28-54: [FilterEmail], [FilterDomain], [IsolateEndpoint] are a text and a comment,
    [FilterIp] and [IsolateIp] an address and a comment *)
Record commented (A : Type) := Commented { what : A; comment : string }.
Arguments Commented {A} _ _.
(** command_types.rs:78-89 *)
Inductive login_user := LPassword (username password : string) | LApiKey (key : string).

(** command.rs:297-319 *)
Record query_info := QueryInfo { q_user : string; q_is_native : bool; q_query_id : option string; q_from : Z; q_to : Z;
  q_limit : N; q_offset : N; q_ttl : Z; q_query : string; q_fields : list string }.
(** command.rs:322-333 *)
Definition query_new (query : string) : query_info :=
  QueryInfo "" true None 0 (2 ^ 63 - 1) 128 0 3600000 query [].

(** * Calls *)

(** command.rs:22-44 *)
Inductive siem_function_type :=
| F_STOP_COMPONENT | F_START_COMPONENT | F_LOG_QUERY | F_ISOLATE_IP | F_ISOLATE_ENDPOINT | F_FILTER_IP | F_FILTER_DOMAIN
| F_FILTER_EMAIL_SENDER | F_LIST_USE_CASES | F_GET_USE_CASE | F_LIST_RULES | F_GET_RULE | F_LIST_TASKS | F_LIST_DATASETS
| F_DOWNLOAD_QUERY | F_LOGIN_USER | F_LIST_PARSERS | F_START_TASK | F_GET_TASK_RESULT | F_OTHER (name : string).

(** command.rs:117-152 *)
Inductive siem_command_call :=
| C_START_COMPONENT (name : string)
| C_STOP_COMPONENT (name : string)
| C_LOG_QUERY (q : query_info)
| C_ISOLATE_IP (x : commented siem_ip)
| C_ISOLATE_ENDPOINT (x : commented string)
| C_FILTER_IP (x : commented siem_ip)
| C_FILTER_DOMAIN (x : commented string)
| C_FILTER_EMAIL_SENDER (x : commented string)
| C_LIST_USE_CASES (p : pagination)
| C_GET_USE_CASE (name : string)
| C_LIST_RULES (p : pagination)
| C_GET_RULE (name : string)
| C_LIST_DATASETS (p : pagination)
| C_LIST_TASKS (p : pagination)
| C_DOWNLOAD_QUERY
| C_LIST_PARSERS (p : pagination)
| C_LOGIN_USER (u : login_user)
| C_START_TASK (t : siem_task)
| C_GET_TASK_RESULT (id : N)
| C_OTHER (name : string) (p : params).

(** command.rs:155-178 *)
Definition get_type (c : siem_command_call) : siem_function_type :=
  match c with
  | C_START_COMPONENT _ => F_START_COMPONENT
  | C_STOP_COMPONENT _ => F_STOP_COMPONENT
  | C_LOG_QUERY _ => F_LOG_QUERY
  | C_ISOLATE_IP _ => F_ISOLATE_IP
  | C_ISOLATE_ENDPOINT _ => F_ISOLATE_ENDPOINT
  | C_FILTER_IP _ => F_FILTER_IP
  | C_FILTER_DOMAIN _ => F_FILTER_DOMAIN
  | C_FILTER_EMAIL_SENDER _ => F_FILTER_EMAIL_SENDER
  | C_LIST_USE_CASES _ => F_LIST_USE_CASES
  | C_GET_USE_CASE _ => F_GET_USE_CASE
  | C_LIST_RULES _ => F_LIST_RULES
  | C_GET_RULE _ => F_GET_RULE
  | C_LIST_DATASETS _ => F_LIST_DATASETS
  | C_LIST_TASKS _ => F_LIST_TASKS
  | C_DOWNLOAD_QUERY => F_DOWNLOAD_QUERY
  | C_LIST_PARSERS _ => F_LIST_PARSERS
  | C_LOGIN_USER _ => F_LOGIN_USER
  | C_START_TASK _ => F_START_TASK
  | C_GET_TASK_RESULT _ => F_GET_TASK_RESULT
  | C_OTHER v _ => F_OTHER v
  end.

(** command.rs:83-95 *)
Record header := Header { h_user : string; h_comp_id : N; h_comm_id : N }.
(** command.rs:82 [derive(Default)] *)
Definition header_default : header := Header "" 0 0.
(** command.rs:98-104 *)
Definition header_new (user : string) (component command : N) : header := Header user component command.
(** command.rs:105-110 *)
Definition header_for_user (user : string) : header := Header user 0 0.
