(** The JSON of commands, responses, tasks, alerts and messages: src/components/command.rs, command_types.rs, task.rs,
    alert.rs and common.rs. All by derived code, but for [CommandResult] and [TaskDefinition]. *)
From Coq Require Import String NArith ZArith List Bool.
From Verif Require Import Base.Ord Base.BTree Base.Outcome Model.Ip Model.Field Model.Log Model.DatasetTypes Model.Mitre
  Model.Rule Model.Command Model.Component Model.Payloads Model.Json Model.JsonField.
Import ListNotations.
Local Open Scope string_scope.

(** * Enumerations *)

(** A derived enum whose variants carry nothing *)
Definition read_unit_enum {A} (name : A -> string) (all : list A) (j : json) : option A :=
  read_enum (map (fun a => (name a, unit_v a)) all) j.

(** components/common.rs:105-116 *)
Definition role_name (r : user_role) : string :=
  match r with Compliance => "Compliance" | Analyst => "Analyst" | Engineer => "Engineer" | Administrator => "Administrator" end.
Definition json_of_role (r : user_role) : json := JStr (role_name r).
Definition role_of_json : json -> option user_role := read_unit_enum role_name [Compliance; Analyst; Engineer; Administrator].
(** components/common.rs:41-50 *)
Definition level_name (l : level) : string :=
  match l with L_Off => "Off" | L_Error => "Error" | L_Warn => "Warn" | L_Info => "Info" | L_Debug => "Debug" | L_Trace => "Trace" end.
Definition json_of_level (l : level) : json := JStr (level_name l).
Definition level_of_json : json -> option level :=
  read_unit_enum level_name [L_Off; L_Error; L_Warn; L_Info; L_Debug; L_Trace].
(** alert.rs:5-12 *)
Definition severity_name (s : severity) : string :=
  match s with INFORMATIONAL => "INFORMATIONAL" | LOW => "LOW" | MEDIUM => "MEDIUM" | HIGH => "HIGH" | CRITICAL => "CRITICAL" end.
Definition json_of_severity (s : severity) : json := JStr (severity_name s).
Definition severity_of_json : json -> option severity :=
  read_unit_enum severity_name [INFORMATIONAL; LOW; MEDIUM; HIGH; CRITICAL].
(** mitre.rs:32, 892 *)
Definition json_of_tactic (t : tactic) : json := JStr (tactic_name t).
Definition tactic_of_json : json -> option tactic := read_unit_enum tactic_name tactic_all.
Definition json_of_technique (t : technique) : json := JStr (technique_name t).
Definition technique_of_json : json -> option technique := read_unit_enum technique_name technique_all.

(** dataset/mod.rs:748-803 *)
Definition json_of_type (t : dataset_type) : json :=
  match t with
  | T_GeoIp => JStr "GeoIp"
  | T_IpMac => JStr "IpMac"
  | T_IpDNS => JStr "IpDNS"
  | T_MacHost => JStr "MacHost"
  | T_HostUser => JStr "HostUser"
  | T_BlockIp => JStr "BlockIp"
  | T_BlockDomain => JStr "BlockDomain"
  | T_BlockEmailSender => JStr "BlockEmailSender"
  | T_BlockCountry => JStr "BlockCountry"
  | T_UserTag => JStr "UserTag"
  | T_AssetTag => JStr "AssetTag"
  | T_IpCloudService => JStr "IpCloudService"
  | T_IpCloudProvider => JStr "IpCloudProvider"
  | T_UserHeadquarters => JStr "UserHeadquarters"
  | T_IpHeadquarters => JStr "IpHeadquarters"
  | T_HeadquartersWorkingHours => JStr "HeadquartersWorkingHours"
  | T_HostVulnerable => JStr "HostVulnerable"
  | T_CorrelationRules => JStr "CorrelationRules"
  | T_CustomMapIpNet name => tagged "CustomMapIpNet" (JStr name)
  | T_CustomMapText name => tagged "CustomMapText" (JStr name)
  | T_CustomMapTextList name => tagged "CustomMapTextList" (JStr name)
  | T_CustomIpList name => tagged "CustomIpList" (JStr name)
  | T_CustomIpMap name => tagged "CustomIpMap" (JStr name)
  | T_CustomTextList name => tagged "CustomTextList" (JStr name)
  | T_MantainceCalendar => JStr "MantainceCalendar"
  | T_Configuration => JStr "Configuration"
  | T_Secrets name => tagged "Secrets" (JStr name)
  | T_I18n => JStr "I18n"
  end.
Definition type_of_json : json -> option dataset_type :=
  read_enum [
    ("GeoIp", unit_v T_GeoIp); ("IpMac", unit_v T_IpMac); ("IpDNS", unit_v T_IpDNS); ("MacHost", unit_v T_MacHost);
    ("HostUser", unit_v T_HostUser); ("BlockIp", unit_v T_BlockIp); ("BlockDomain", unit_v T_BlockDomain);
    ("BlockEmailSender", unit_v T_BlockEmailSender); ("BlockCountry", unit_v T_BlockCountry);
    ("UserTag", unit_v T_UserTag); ("AssetTag", unit_v T_AssetTag); ("IpCloudService", unit_v T_IpCloudService);
    ("IpCloudProvider", unit_v T_IpCloudProvider); ("UserHeadquarters", unit_v T_UserHeadquarters);
    ("IpHeadquarters", unit_v T_IpHeadquarters); ("HeadquartersWorkingHours", unit_v T_HeadquartersWorkingHours);
    ("HostVulnerable", unit_v T_HostVulnerable); ("CorrelationRules", unit_v T_CorrelationRules);
    ("CustomMapIpNet", newtype_v read_str T_CustomMapIpNet); ("CustomMapText", newtype_v read_str T_CustomMapText);
    ("CustomMapTextList", newtype_v read_str T_CustomMapTextList); ("CustomIpList", newtype_v read_str T_CustomIpList);
    ("CustomIpMap", newtype_v read_str T_CustomIpMap); ("CustomTextList", newtype_v read_str T_CustomTextList);
    ("MantainceCalendar", unit_v T_MantainceCalendar); ("Configuration", unit_v T_Configuration);
    ("Secrets", newtype_v read_str T_Secrets); ("I18n", unit_v T_I18n)].

(** command.rs:19-44 *)
Definition function_name (f : siem_function_type) : string :=
  match f with
  | F_STOP_COMPONENT => "STOP_COMPONENT" | F_START_COMPONENT => "START_COMPONENT" | F_LOG_QUERY => "LOG_QUERY"
  | F_ISOLATE_IP => "ISOLATE_IP" | F_ISOLATE_ENDPOINT => "ISOLATE_ENDPOINT" | F_FILTER_IP => "FILTER_IP"
  | F_FILTER_DOMAIN => "FILTER_DOMAIN" | F_FILTER_EMAIL_SENDER => "FILTER_EMAIL_SENDER" | F_LIST_USE_CASES => "LIST_USE_CASES"
  | F_GET_USE_CASE => "GET_USE_CASE" | F_LIST_RULES => "LIST_RULES" | F_GET_RULE => "GET_RULE" | F_LIST_TASKS => "LIST_TASKS"
  | F_LIST_DATASETS => "LIST_DATASETS" | F_DOWNLOAD_QUERY => "DOWNLOAD_QUERY" | F_LOGIN_USER => "LOGIN_USER"
  | F_LIST_PARSERS => "LIST_PARSERS" | F_START_TASK => "START_TASK" | F_GET_TASK_RESULT => "GET_TASK_RESULT"
  | F_OTHER _ => "OTHER"
  end.
Definition json_of_function (f : siem_function_type) : json :=
  match f with F_OTHER name => tagged "OTHER" (JStr name) | _ => JStr (function_name f) end.
Definition function_of_json : json -> option siem_function_type :=
  read_enum (("OTHER", newtype_v read_str F_OTHER) :: map (fun f => (function_name f, unit_v f))
    [F_STOP_COMPONENT; F_START_COMPONENT; F_LOG_QUERY; F_ISOLATE_IP; F_ISOLATE_ENDPOINT; F_FILTER_IP; F_FILTER_DOMAIN;
     F_FILTER_EMAIL_SENDER; F_LIST_USE_CASES; F_GET_USE_CASE; F_LIST_RULES; F_GET_RULE; F_LIST_TASKS; F_LIST_DATASETS;
     F_DOWNLOAD_QUERY; F_LOGIN_USER; F_LIST_PARSERS; F_START_TASK; F_GET_TASK_RESULT]).

(** task.rs:196-211 *)
Definition json_of_task_type (t : siem_task_type) : json :=
  match t with TT_OTHER name => tagged "OTHER" (JStr name) | _ => JStr (task_type_str t) end.
Definition task_type_of_json : json -> option siem_task_type :=
  read_enum (("OTHER", newtype_v read_str TT_OTHER) :: map (fun t => (task_type_str t, unit_v t))
    [TT_EXECUTE_ENDPOINT_SCRIPT; TT_REMEDIATE_EMAILS; TT_REPORT_ABUSE; TT_UPDATE_GEOIP; TT_UPDATE_CLOUD_PROVIDER]).

(** * Payloads of commands *)

Definition json_of_params (p : params) : json := json_of_map JStr p.
Definition params_of_json : json -> option params := read_map read_str.

(** task.rs:226-242 *)
Definition json_of_task_data (d : siem_task_data) : json :=
  match d with
  | TD_EXECUTE_ENDPOINT_SCRIPT name p => tagged "EXECUTE_ENDPOINT_SCRIPT" (JArr [JStr name; json_of_params p])
  | TD_REMEDIATE_EMAILS p => tagged "REMEDIATE_EMAILS" (json_of_params p)
  | TD_REPORT_ABUSE p => tagged "REPORT_ABUSE" (json_of_params p)
  | TD_UPDATE_GEOIP => JStr "UPDATE_GEOIP"
  | TD_UPDATE_CLOUD_PROVIDER => JStr "UPDATE_CLOUD_PROVIDER"
  | TD_OTHER name p => tagged "OTHER" (JArr [JStr name; json_of_params p])
  end.
Definition task_data_of_json : json -> option siem_task_data :=
  read_enum [
    ("EXECUTE_ENDPOINT_SCRIPT", pair_v read_str params_of_json TD_EXECUTE_ENDPOINT_SCRIPT);
    ("REMEDIATE_EMAILS", newtype_v params_of_json TD_REMEDIATE_EMAILS);
    ("REPORT_ABUSE", newtype_v params_of_json TD_REPORT_ABUSE);
    ("UPDATE_GEOIP", unit_v TD_UPDATE_GEOIP);
    ("UPDATE_CLOUD_PROVIDER", unit_v TD_UPDATE_CLOUD_PROVIDER);
    ("OTHER", pair_v read_str params_of_json TD_OTHER)].

(** task.rs:260-268 *)
Definition json_of_task (t : siem_task) : json :=
  JObj [("created_at", JInt (t_created_at t)); ("enqueued_at", JInt (t_enqueued_at t)); ("origin", JStr (t_origin t));
        ("id", json_of_n (t_id t)); ("data", json_of_task_data (t_data t))].
Definition task_of_json (j : json) : option siem_task :=
  match struct_fields ["created_at"; "enqueued_at"; "origin"; "id"; "data"] j with
  | Some [c; e; o; i; d] =>
      let? c := req read_i64 c in let? e := req read_i64 e in let? o := req read_str o in
      let? i := req (read_uint 64) i in let? d := req task_data_of_json d in
      Some (Task c e o i d)
  | _ => None
  end.

(** command.rs:180-184 *)
Definition json_of_pagination (p : pagination) : json :=
  JObj [("offset", json_of_n (pg_offset p)); ("limit", json_of_n (pg_limit p))].
Definition pagination_of_json (j : json) : option pagination :=
  match struct_fields ["offset"; "limit"] j with
  | Some [o; l] => let? o := req (read_uint 32) o in let? l := req (read_uint 32) l in Some (Pagination o l)
  | _ => None
  end.

(** command_types.rs:27-53: the five structs of a value, under the key [key], and a comment *)
Definition json_of_commented {A} (key : string) (w : A -> json) (c : commented A) : json :=
  JObj [(key, w (what A c)); ("comment", JStr (comment A c))].
Definition commented_of_json {A} (key : string) (r : json -> option A) (j : json) : option (commented A) :=
  match struct_fields [key; "comment"] j with
  | Some [x; c] => let? x := req r x in let? c := req read_str c in Some (Commented x c)
  | _ => None
  end.

(** command_types.rs:77-89 *)
Definition json_of_login (u : login_user) : json :=
  match u with
  | LPassword name password => tagged "Password" (JObj [("username", JStr name); ("password", JStr password)])
  | LApiKey key => tagged "ApiKey" (JStr key)
  end.
Definition login_pass_of_json (j : json) : option (string * string) :=
  match struct_fields ["username"; "password"] j with
  | Some [u; p] => let? u := req read_str u in let? p := req read_str p in Some (u, p)
  | _ => None
  end.
Definition login_of_json : json -> option login_user :=
  read_enum [("Password", newtype_v login_pass_of_json (fun up => LPassword (fst up) (snd up)));
             ("ApiKey", newtype_v read_str LApiKey)].

(** command.rs:296-319; [usize] has 64 bits *)
Definition json_of_query (q : query_info) : json :=
  JObj [("user", JStr (q_user q)); ("is_native", JBool (q_is_native q)); ("query_id", json_of_option JStr (q_query_id q));
        ("from", JInt (q_from q)); ("to", JInt (q_to q)); ("limit", json_of_n (q_limit q)); ("offset", json_of_n (q_offset q));
        ("ttl", JInt (q_ttl q)); ("query", JStr (q_query q)); ("fields", json_of_strings (q_fields q))].
Definition query_of_json (j : json) : option query_info :=
  match struct_fields ["user"; "is_native"; "query_id"; "from"; "to"; "limit"; "offset"; "ttl"; "query"; "fields"] j with
  | Some [u; n; i; f; t; l; o; ttl; q; fs] =>
      let? u := req read_str u in let? n := req read_bool n in let? i := opt read_str i in
      let? f := req read_i64 f in let? t := req read_i64 t in let? l := req (read_uint 64) l in
      let? o := req (read_uint 64) o in let? ttl := req read_i64 ttl in let? q := req read_str q in
      let? fs := req (read_list read_str) fs in
      Some (QueryInfo u n i f t l o ttl q fs)
  | _ => None
  end.

(** command.rs:113-152 *)
Definition json_of_call (c : siem_command_call) : json :=
  match c with
  | C_START_COMPONENT name => tagged "START_COMPONENT" (JStr name)
  | C_STOP_COMPONENT name => tagged "STOP_COMPONENT" (JStr name)
  | C_LOG_QUERY q => tagged "LOG_QUERY" (json_of_query q)
  | C_ISOLATE_IP x => tagged "ISOLATE_IP" (json_of_commented "ip" json_of_ip x)
  | C_ISOLATE_ENDPOINT x => tagged "ISOLATE_ENDPOINT" (json_of_commented "hostname" JStr x)
  | C_FILTER_IP x => tagged "FILTER_IP" (json_of_commented "ip" json_of_ip x)
  | C_FILTER_DOMAIN x => tagged "FILTER_DOMAIN" (json_of_commented "domain" JStr x)
  | C_FILTER_EMAIL_SENDER x => tagged "FILTER_EMAIL_SENDER" (json_of_commented "email" JStr x)
  | C_LIST_USE_CASES p => tagged "LIST_USE_CASES" (json_of_pagination p)
  | C_GET_USE_CASE name => tagged "GET_USE_CASE" (JStr name)
  | C_LIST_RULES p => tagged "LIST_RULES" (json_of_pagination p)
  | C_GET_RULE name => tagged "GET_RULE" (JStr name)
  | C_LIST_DATASETS p => tagged "LIST_DATASETS" (json_of_pagination p)
  | C_LIST_TASKS p => tagged "LIST_TASKS" (json_of_pagination p)
  | C_DOWNLOAD_QUERY => tagged "DOWNLOAD_QUERY" (JArr [])
  | C_LIST_PARSERS p => tagged "LIST_PARSERS" (json_of_pagination p)
  | C_LOGIN_USER u => tagged "LOGIN_USER" (json_of_login u)
  | C_START_TASK t => tagged "START_TASK" (json_of_task t)
  | C_GET_TASK_RESULT id => tagged "GET_TASK_RESULT" (json_of_n id)
  | C_OTHER name p => tagged "OTHER" (JArr [JStr name; json_of_params p])
  end.
Definition call_of_json : json -> option siem_command_call :=
  read_enum [
    ("START_COMPONENT", newtype_v read_str C_START_COMPONENT);
    ("STOP_COMPONENT", newtype_v read_str C_STOP_COMPONENT);
    ("LOG_QUERY", newtype_v query_of_json C_LOG_QUERY);
    ("ISOLATE_IP", newtype_v (commented_of_json "ip" ip_of_json) C_ISOLATE_IP);
    ("ISOLATE_ENDPOINT", newtype_v (commented_of_json "hostname" read_str) C_ISOLATE_ENDPOINT);
    ("FILTER_IP", newtype_v (commented_of_json "ip" ip_of_json) C_FILTER_IP);
    ("FILTER_DOMAIN", newtype_v (commented_of_json "domain" read_str) C_FILTER_DOMAIN);
    ("FILTER_EMAIL_SENDER", newtype_v (commented_of_json "email" read_str) C_FILTER_EMAIL_SENDER);
    ("LIST_USE_CASES", newtype_v pagination_of_json C_LIST_USE_CASES);
    ("GET_USE_CASE", newtype_v read_str C_GET_USE_CASE);
    ("LIST_RULES", newtype_v pagination_of_json C_LIST_RULES);
    ("GET_RULE", newtype_v read_str C_GET_RULE);
    ("LIST_DATASETS", newtype_v pagination_of_json C_LIST_DATASETS);
    ("LIST_TASKS", newtype_v pagination_of_json C_LIST_TASKS);
    ("DOWNLOAD_QUERY", empty_v C_DOWNLOAD_QUERY);
    ("LIST_PARSERS", newtype_v pagination_of_json C_LIST_PARSERS);
    ("LOGIN_USER", newtype_v login_of_json C_LOGIN_USER);
    ("START_TASK", newtype_v task_of_json C_START_TASK);
    ("GET_TASK_RESULT", newtype_v (read_uint 64) C_GET_TASK_RESULT);
    ("OTHER", pair_v read_str params_of_json C_OTHER)].

(** command.rs:81-95 *)
Definition json_of_header (h : header) : json :=
  JObj [("user", JStr (h_user h)); ("comp_id", json_of_n (h_comp_id h)); ("comm_id", json_of_n (h_comm_id h))].
Definition header_of_json (j : json) : option header :=
  match struct_fields ["user"; "comp_id"; "comm_id"] j with
  | Some [u; a; b] =>
      let? u := req read_str u in let? a := req (read_uint 64) a in let? b := req (read_uint 64) b in Some (Header u a b)
  | _ => None
  end.

(** * Responses *)

(** command.rs:186-193 *)
Definition json_of_command_error (e : command_error) : json :=
  match e with
  | BadParameters s => tagged "BadParameters" (JStr s)
  | SyntaxError s => tagged "SyntaxError" (JStr s)
  | NotFound s => tagged "NotFound" (JStr s)
  end.
Definition command_error_of_json : json -> option command_error :=
  read_enum [("BadParameters", newtype_v read_str BadParameters); ("SyntaxError", newtype_v read_str SyntaxError);
             ("NotFound", newtype_v read_str NotFound)].
(** command.rs:227-236 [derive(Serialize)] *)
Definition json_of_command_result {T} (w : T -> json) (r : command_result T) : json :=
  match r with Ok a => tagged "ok" (w a) | Err e => tagged "err" (json_of_command_error e) end.
(** command.rs:238-294: only the first entry is looked at; the reader of serde_json rejects what follows it *)
Definition command_result_of_json {T} (r : json -> option T) (j : json) : option (command_result T) :=
  match j with
  | JObj [(k, v)] =>
      if String.eqb k "ok" then let? a := r v in Some (Ok a)
      else if String.eqb k "err" then let? e := command_error_of_json v in Some (Err e)
      else None
  | _ => None
  end.

(** command_types.rs:9-18 *)
Definition json_of_named (n : named) : json := JObj [("name", JStr (nm_name n)); ("description", JStr (nm_description n))].
Definition named_of_json (j : json) : option named :=
  match struct_fields ["name"; "description"] j with
  | Some [n; d] => let? n := req read_str n in let? d := req read_str d in Some (Named n d)
  | _ => None
  end.
(** command_types.rs:19-25 *)
Definition json_of_rule_definition (d : rule_definition) : json :=
  JObj [("name", JStr (rd_name d)); ("description", JStr (rd_description d));
        ("mitre", JArr [json_of_list json_of_tactic (fst (rd_mitre d)); json_of_list json_of_technique (snd (rd_mitre d))]);
        ("service", JStr (rd_service d))].
Definition rule_definition_of_json (j : json) : option rule_definition :=
  match struct_fields ["name"; "description"; "mitre"; "service"] j with
  | Some [n; d; m; s] =>
      let? n := req read_str n in let? d := req read_str d in
      let? m := req (read_pair (read_list tactic_of_json) (read_list technique_of_json)) m in
      let? s := req read_str s in Some (RuleDef n d m s)
  | _ => None
  end.
(** command_types.rs:70-75 *)
Definition json_of_requirements (r : requirements) : json :=
  JObj [("product", json_of_option JStr (rq_product r)); ("service", json_of_option JStr (rq_service r));
        ("category", json_of_option JStr (rq_category r))].
Definition requirements_of_json (j : json) : option requirements :=
  match struct_fields ["product"; "service"; "category"] j with
  | Some [p; s; c] => let? p := opt read_str p in let? s := opt read_str s in let? c := opt read_str c in Some (Requirements p s c)
  | _ => None
  end.
(** command_types.rs:54-68 *)
Definition json_of_use_case (u : use_case_definition) : json :=
  JObj [("name", JStr (uc_name u)); ("description", JStr (uc_description u)); ("case_logic", JStr (uc_case_logic u));
        ("limitations", JStr (uc_limitations u)); ("requirements", json_of_requirements (uc_requirements u)); ("rule", JStr (uc_rule u))].
Definition use_case_of_json (j : json) : option use_case_definition :=
  match struct_fields ["name"; "description"; "case_logic"; "limitations"; "requirements"; "rule"] j with
  | Some [n; d; c; l; q; r] =>
      let? n := req read_str n in let? d := req read_str d in let? c := req read_str c in let? l := req read_str l in
      let? q := req requirements_of_json q in let? r := req read_str r in Some (UseCaseDef n d c l q r)
  | _ => None
  end.
(** components/common.rs:118-123 *)
Definition json_of_dataset_definition (d : dataset_definition) : json :=
  JObj [("name", json_of_type (dd_name d)); ("description", JStr (dd_description d)); ("required_permission", json_of_role (dd_permission d))].
Definition dataset_definition_of_json (j : json) : option dataset_definition :=
  match struct_fields ["name"; "description"; "required_permission"] j with
  | Some [n; d; p] =>
      let? n := req type_of_json n in let? d := req read_str d in let? p := req role_of_json p in Some (DatasetDef n d p)
  | _ => None
  end.
(** command.rs:46-52 *)
Definition json_of_command_definition (d : command_definition) : json :=
  JObj [("class", json_of_function (cd_class d)); ("name", JStr (cd_name d)); ("description", JStr (cd_description d));
        ("min_permission", json_of_role (cd_permission d))].
Definition command_definition_of_json (j : json) : option command_definition :=
  match struct_fields ["class"; "name"; "description"; "min_permission"] j with
  | Some [c; n; d; p] =>
      let? c := req function_of_json c in let? n := req read_str n in let? d := req read_str d in
      let? p := req role_of_json p in Some (CommandDef c n d p)
  | _ => None
  end.
(** command_types.rs:91-95 *)
Definition json_of_logged_on (l : logged_on) : json := JObj [("username", JStr (lo_username l)); ("role", json_of_role (lo_role l))].
Definition logged_on_of_json (j : json) : option logged_on :=
  match struct_fields ["username"; "role"] j with
  | Some [u; r] => let? u := req read_str u in let? r := req role_of_json r in Some (LoggedOn u r)
  | _ => None
  end.
(** serde's [Result<String, String>] *)
Definition json_of_result (r : result string string) : json :=
  match r with Ok s => tagged "Ok" (JStr s) | Err s => tagged "Err" (JStr s) end.
Definition result_of_json : json -> option (result string string) :=
  read_enum [("Ok", newtype_v read_str Ok); ("Err", newtype_v read_str Err)].
(** task.rs:270-274 *)
Definition json_of_task_result (r : task_result) : json :=
  JObj [("id", json_of_n (tr_id r)); ("data", json_of_option json_of_result (tr_data r))].
Definition task_result_of_json (j : json) : option task_result :=
  match struct_fields ["id"; "data"] j with
  | Some [i; d] => let? i := req (read_uint 64) i in let? d := opt result_of_json d in Some (TaskResult i d)
  | _ => None
  end.

Definition json_of_row (m : bt string field) : json := json_of_map json_of_field m.
Definition row_of_json (io : float_io) : json -> option (bt string field) := read_map (field_of_json io).

(** command.rs:195-225 *)
Definition json_of_response (r : response) : json :=
  match r with
  | R_START_COMPONENT r => tagged "START_COMPONENT" (json_of_command_result JStr r)
  | R_STOP_COMPONENT r => tagged "STOP_COMPONENT" (json_of_command_result JStr r)
  | R_LOG_QUERY q r => tagged "LOG_QUERY" (JArr [json_of_query q; json_of_command_result (json_of_list json_of_row) r])
  | R_ISOLATE_IP r => tagged "ISOLATE_IP" (json_of_command_result JStr r)
  | R_ISOLATE_ENDPOINT r => tagged "ISOLATE_ENDPOINT" (json_of_command_result JStr r)
  | R_FILTER_IP r => tagged "FILTER_IP" (json_of_command_result JStr r)
  | R_FILTER_DOMAIN r => tagged "FILTER_DOMAIN" (json_of_command_result JStr r)
  | R_FILTER_EMAIL_SENDER r => tagged "FILTER_EMAIL_SENDER" (json_of_command_result JStr r)
  | R_LIST_USE_CASES r => tagged "LIST_USE_CASES" (json_of_command_result (json_of_list json_of_use_case) r)
  | R_GET_USE_CASE r => tagged "GET_USE_CASE" (json_of_command_result json_of_use_case r)
  | R_LIST_RULES r => tagged "LIST_RULES" (json_of_command_result (json_of_list json_of_rule_definition) r)
  | R_GET_RULE r => tagged "GET_RULE" (json_of_command_result json_of_rule_definition r)
  | R_LIST_DATASETS r => tagged "LIST_DATASETS" (json_of_command_result (json_of_list json_of_dataset_definition) r)
  | R_LIST_TASKS r => tagged "LIST_TASKS" (json_of_command_result (json_of_list json_of_named) r)
  | R_LIST_PARSERS r => tagged "LIST_PARSERS" (json_of_command_result (json_of_list json_of_named) r)
  | R_LOGIN_USER r => tagged "LOGIN_USER" (json_of_command_result json_of_logged_on r)
  | R_START_TASK r => tagged "START_TASK" (json_of_command_result json_of_n r)
  | R_GET_TASK_RESULT r => tagged "GET_TASK_RESULT" (json_of_command_result json_of_task_result r)
  | R_OTHER name r => tagged "OTHER" (JArr [JStr name; json_of_command_result json_of_params r])
  end.
Definition response_of_json (io : float_io) : json -> option response :=
  let text := command_result_of_json read_str in
  read_enum [
    ("START_COMPONENT", newtype_v text R_START_COMPONENT);
    ("STOP_COMPONENT", newtype_v text R_STOP_COMPONENT);
    ("LOG_QUERY", pair_v query_of_json (command_result_of_json (read_list (row_of_json io))) R_LOG_QUERY);
    ("ISOLATE_IP", newtype_v text R_ISOLATE_IP);
    ("ISOLATE_ENDPOINT", newtype_v text R_ISOLATE_ENDPOINT);
    ("FILTER_IP", newtype_v text R_FILTER_IP);
    ("FILTER_DOMAIN", newtype_v text R_FILTER_DOMAIN);
    ("FILTER_EMAIL_SENDER", newtype_v text R_FILTER_EMAIL_SENDER);
    ("LIST_USE_CASES", newtype_v (command_result_of_json (read_list use_case_of_json)) R_LIST_USE_CASES);
    ("GET_USE_CASE", newtype_v (command_result_of_json use_case_of_json) R_GET_USE_CASE);
    ("LIST_RULES", newtype_v (command_result_of_json (read_list rule_definition_of_json)) R_LIST_RULES);
    ("GET_RULE", newtype_v (command_result_of_json rule_definition_of_json) R_GET_RULE);
    ("LIST_DATASETS", newtype_v (command_result_of_json (read_list dataset_definition_of_json)) R_LIST_DATASETS);
    ("LIST_TASKS", newtype_v (command_result_of_json (read_list named_of_json)) R_LIST_TASKS);
    ("LIST_PARSERS", newtype_v (command_result_of_json (read_list named_of_json)) R_LIST_PARSERS);
    ("LOGIN_USER", newtype_v (command_result_of_json logged_on_of_json) R_LOGIN_USER);
    ("START_TASK", newtype_v (command_result_of_json (read_uint 64)) R_START_TASK);
    ("GET_TASK_RESULT", newtype_v (command_result_of_json task_result_of_json) R_GET_TASK_RESULT);
    ("OTHER", pair_v read_str (command_result_of_json params_of_json) R_OTHER)].

(** * Task definitions *)

(** task.rs:184-194 *)
Definition json_of_fire_mode (m : fire_mode) : json :=
  match m with
  | Inmediate => JStr "Inmediate"
  | Cron a b c d e => tagged "Cron" (json_of_list json_of_n [a; b; c; d; e])
  | Repetitive ms => tagged "Repetitive" (json_of_n ms)
  | Future t => tagged "Future" (JInt t)
  end.
Definition cron_of_json (p : option json) : option fire_mode :=
  match p with
  | Some (JArr [a; b; c; d; e]) =>
      let? l := mapM (read_uint 32) [a; b; c; d; e] in
      match l with [a; b; c; d; e] => Some (Cron a b c d e) | _ => None end
  | _ => None
  end.
Definition fire_mode_of_json : json -> option fire_mode :=
  read_enum [("Inmediate", unit_v Inmediate); ("Cron", cron_of_json); ("Repetitive", newtype_v (read_uint 64) Repetitive);
             ("Future", newtype_v read_i64 Future)].

(** task.rs:26-37 [derive(Serialize)] *)
Definition json_of_task_definition (d : task_definition) : json :=
  JObj [("data", json_of_task_data (td_data d)); ("name", JStr (td_name d)); ("description", JStr (td_description d));
        ("min_permission", json_of_role (td_permission d)); ("fire_mode", json_of_fire_mode (td_fire_mode d));
        ("max_duration", json_of_n (td_max_duration d))].
(** task.rs:166-173: the builder of a definition that was read *)
Definition stub_builder (t : siem_task) : task_result := TaskResult (t_id t) (Some (Ok "OK")).
(** task.rs:137-142: what the reader starts with *)
Definition task_definition_start : task_definition := TaskDef TD_UPDATE_GEOIP "" "" Administrator Inmediate 0 stub_builder.
(** task.rs:143-157: one entry. The value of an unknown key is not consumed, which serde_json's reader rejects. *)
Definition task_definition_entry (d : task_definition) (e : string * json) : option task_definition :=
  let (k, v) := e in
  let (dt, n, ds, p, f, m, b) := d in
  if String.eqb k "name" then let? n := read_str v in Some (TaskDef dt n ds p f m b)
  else if String.eqb k "description" then let? ds := read_str v in Some (TaskDef dt n ds p f m b)
  else if String.eqb k "min_permission" then let? p := role_of_json v in Some (TaskDef dt n ds p f m b)
  else if String.eqb k "fire_mode" then let? f := fire_mode_of_json v in Some (TaskDef dt n ds p f m b)
  else if String.eqb k "max_duration" then let? m := read_uint 64 v in Some (TaskDef dt n ds p f m b)
  else if String.eqb k "data" then let? dt := task_data_of_json v in Some (TaskDef dt n ds p f m b)
  else None.
(** task.rs:108-181 *)
Definition task_definition_of_json (j : json) : option task_definition :=
  match j with
  | JObj l => fold_left (fun o e => let? d := o in task_definition_entry d e) l (Some task_definition_start)
  | _ => None
  end.

(** * Alerts and messages *)

(** alert.rs:34-39 *)
Definition json_of_aggregation (a : aggregation) : json := JObj [("limit", JInt (ag_limit a)); ("key", JStr (ag_key a))].
Definition aggregation_of_json (j : json) : option aggregation :=
  match struct_fields ["limit"; "key"] j with
  | Some [l; k] => let? l := req read_i64 l in let? k := req read_str k in Some (mkAgg l k)
  | _ => None
  end.
(** alert.rs:14-33 *)
Definition json_of_alert (a : siem_alert) : json :=
  JObj [("title", JStr (a_title a)); ("description", JStr (a_description a)); ("severity", json_of_severity (a_severity a));
        ("date", JInt (a_date a)); ("tags", json_of_strings (a_tags a)); ("techniques", json_of_list json_of_technique (a_techniques a));
        ("rule", JStr (a_rule a)); ("log", json_of_log (a_log a)); ("aggregation", json_of_option json_of_aggregation (a_aggregation a))].
Definition alert_of_json (io : float_io) (j : json) : option siem_alert :=
  match struct_fields ["title"; "description"; "severity"; "date"; "tags"; "techniques"; "rule"; "log"; "aggregation"] j with
  | Some [t; d; s; da; ts; te; r; l; a] =>
      let? t := req read_str t in let? d := req read_str d in let? s := req severity_of_json s in
      let? da := req read_i64 da in let? ts := req (read_list read_str) ts in let? te := req (read_list technique_of_json) te in
      let? r := req read_str r in let? l := req (log_of_json io) l in let? a := opt aggregation_of_json a in
      Some (Alert t d s da ts te r l a)
  | _ => None
  end.

(** components/common.rs:31-39 *)
Definition json_of_notification (n : notification) : json :=
  JObj [("timestamp", JInt (n_timestamp n)); ("component", json_of_n (n_component n)); ("component_name", JStr (n_component_name n));
        ("log", JStr (n_log n)); ("level", json_of_level (n_level n))].
Definition notification_of_json (j : json) : option notification :=
  match struct_fields ["timestamp"; "component"; "component_name"; "log"; "level"] j with
  | Some [t; c; n; l; v] =>
      let? t := req read_i64 t in let? c := req (read_uint 64) c in let? n := req read_str n in
      let? l := req read_str l in let? v := req level_of_json v in Some (Notif t c n l v)
  | _ => None
  end.

(** components/common.rs:11-29 [derive(Serialize)]: [None] is the error of a variant marked [skip] *)
Definition json_of_message (m : siem_message) : option json :=
  match m with
  | MCommand h c => Some (tagged "Command" (JArr [json_of_header h; json_of_call c]))
  | MResponse h r => Some (tagged "Response" (JArr [json_of_header h; json_of_response r]))
  | MLog l => Some (tagged "Log" (json_of_log l))
  | MNotification n => Some (tagged "Notification" (json_of_notification n))
  | MDataset _ => None
  | MAlert a => Some (tagged "Alert" (json_of_alert a))
  | MTask h t => Some (tagged "Task" (JArr [json_of_header h; json_of_task t]))
  | MTaskResult h r => Some (tagged "TaskResult" (JArr [json_of_header h; json_of_task_result r]))
  end.
(** components/common.rs:11-29 [derive(Deserialize)] *)
Definition message_of_json (io : float_io) : json -> option siem_message :=
  read_enum [
    ("Command", pair_v header_of_json call_of_json MCommand);
    ("Response", pair_v header_of_json (response_of_json io) (@MResponse siem_payloads));
    ("Log", newtype_v (log_of_json io) MLog);
    ("Notification", newtype_v notification_of_json MNotification);
    ("Alert", newtype_v (alert_of_json io) (@MAlert siem_payloads));
    ("Task", pair_v header_of_json task_of_json MTask);
    ("TaskResult", pair_v header_of_json task_result_of_json (@MTaskResult siem_payloads))].
