(** The documents that stand for commands, responses, tasks, alerts, rules and messages, written out: an object for a
    struct, with its members under their names; an object with one entry, the name of the variant, for a variant with a
    payload; a text for a variant without. *)
From Coq Require Import String NArith ZArith List.
From Verif Require Import Base.BTree Base.Outcome Model.Ip Model.Field Model.Log Model.DatasetTypes Model.Mitre Model.Rule
  Model.Command Model.Component Model.Payloads Model.Json Model.JsonField Model.JsonCommand.
Import ListNotations.
Local Open Scope string_scope.

Definition num (n : N) : json := JInt (Z.of_N n).
Definition texts (l : list string) : json := JArr (map JStr l).
Definition or_null {A} (w : A -> json) (o : option A) : json := match o with Some a => w a | None => JNull end.
Definition text_map (m : list (string * string)) : json := JObj (map (fun e => (fst e, JStr (snd e))) m).

(** ** Enumerations *)
Definition role_names : list (user_role * string) :=
  [(Compliance, "Compliance"); (Analyst, "Analyst"); (Engineer, "Engineer"); (Administrator, "Administrator")].
Definition level_names : list (level * string) :=
  [(L_Off, "Off"); (L_Error, "Error"); (L_Warn, "Warn"); (L_Info, "Info"); (L_Debug, "Debug"); (L_Trace, "Trace")].
Definition severity_names : list (severity * string) :=
  [(INFORMATIONAL, "INFORMATIONAL"); (LOW, "LOW"); (MEDIUM, "MEDIUM"); (HIGH, "HIGH"); (CRITICAL, "CRITICAL")].
Definition function_names : list (siem_function_type * string) :=
  [(F_STOP_COMPONENT, "STOP_COMPONENT"); (F_START_COMPONENT, "START_COMPONENT"); (F_LOG_QUERY, "LOG_QUERY");
   (F_ISOLATE_IP, "ISOLATE_IP"); (F_ISOLATE_ENDPOINT, "ISOLATE_ENDPOINT"); (F_FILTER_IP, "FILTER_IP");
   (F_FILTER_DOMAIN, "FILTER_DOMAIN"); (F_FILTER_EMAIL_SENDER, "FILTER_EMAIL_SENDER"); (F_LIST_USE_CASES, "LIST_USE_CASES");
   (F_GET_USE_CASE, "GET_USE_CASE"); (F_LIST_RULES, "LIST_RULES"); (F_GET_RULE, "GET_RULE"); (F_LIST_TASKS, "LIST_TASKS");
   (F_LIST_DATASETS, "LIST_DATASETS"); (F_DOWNLOAD_QUERY, "DOWNLOAD_QUERY"); (F_LOGIN_USER, "LOGIN_USER");
   (F_LIST_PARSERS, "LIST_PARSERS"); (F_START_TASK, "START_TASK"); (F_GET_TASK_RESULT, "GET_TASK_RESULT")].
Definition task_type_names : list (siem_task_type * string) :=
  [(TT_EXECUTE_ENDPOINT_SCRIPT, "EXECUTE_ENDPOINT_SCRIPT"); (TT_REMEDIATE_EMAILS, "REMEDIATE_EMAILS"); (TT_REPORT_ABUSE, "REPORT_ABUSE");
   (TT_UPDATE_GEOIP, "UPDATE_GEOIP"); (TT_UPDATE_CLOUD_PROVIDER, "UPDATE_CLOUD_PROVIDER")].
Definition dataset_names : list (dataset_type * string) :=
  [(T_GeoIp, "GeoIp"); (T_IpMac, "IpMac"); (T_IpDNS, "IpDNS"); (T_MacHost, "MacHost"); (T_HostUser, "HostUser"); (T_BlockIp, "BlockIp");
   (T_BlockDomain, "BlockDomain"); (T_BlockEmailSender, "BlockEmailSender"); (T_BlockCountry, "BlockCountry"); (T_UserTag, "UserTag");
   (T_AssetTag, "AssetTag"); (T_IpCloudService, "IpCloudService"); (T_IpCloudProvider, "IpCloudProvider");
   (T_UserHeadquarters, "UserHeadquarters"); (T_IpHeadquarters, "IpHeadquarters");
   (T_HeadquartersWorkingHours, "HeadquartersWorkingHours"); (T_HostVulnerable, "HostVulnerable"); (T_CorrelationRules, "CorrelationRules");
   (T_MantainceCalendar, "MantainceCalendar"); (T_Configuration, "Configuration"); (T_I18n, "I18n")].
Definition custom_dataset_names : list ((string -> dataset_type) * string) :=
  [(T_CustomMapIpNet, "CustomMapIpNet"); (T_CustomMapText, "CustomMapText"); (T_CustomMapTextList, "CustomMapTextList");
   (T_CustomIpList, "CustomIpList"); (T_CustomIpMap, "CustomIpMap"); (T_CustomTextList, "CustomTextList"); (T_Secrets, "Secrets")].

(** [w] writes every value as the text the table has for it. *)
Definition named_by {A} (w : A -> json) (table : list (A * string)) : Prop :=
  forall a, exists s, In (a, s) table /\ w a = JStr s.

(** ** Tasks *)
Definition wire_task_data (d : siem_task_data) : json :=
  match d with
  | TD_EXECUTE_ENDPOINT_SCRIPT name p => JObj [("EXECUTE_ENDPOINT_SCRIPT", JArr [JStr name; text_map p])]
  | TD_REMEDIATE_EMAILS p => JObj [("REMEDIATE_EMAILS", text_map p)]
  | TD_REPORT_ABUSE p => JObj [("REPORT_ABUSE", text_map p)]
  | TD_UPDATE_GEOIP => JStr "UPDATE_GEOIP"
  | TD_UPDATE_CLOUD_PROVIDER => JStr "UPDATE_CLOUD_PROVIDER"
  | TD_OTHER name p => JObj [("OTHER", JArr [JStr name; text_map p])]
  end.
Definition wire_task (t : siem_task) : json :=
  let '(Task created_at enqueued_at origin id data) := t in
  JObj [("created_at", JInt created_at); ("enqueued_at", JInt enqueued_at); ("origin", JStr origin); ("id", num id); ("data", wire_task_data data)].
Definition wire_task_result (r : task_result) : json :=
  let '(TaskResult id data) := r in
  JObj [("id", num id); ("data", or_null (fun r => match r with Ok s => JObj [("Ok", JStr s)] | Err s => JObj [("Err", JStr s)] end) data)].
Definition wire_fire_mode (m : fire_mode) : json :=
  match m with
  | Inmediate => JStr "Inmediate"
  | Cron a b c d e => JObj [("Cron", JArr [num a; num b; num c; num d; num e])]
  | Repetitive millis => JObj [("Repetitive", num millis)]
  | Future time => JObj [("Future", JInt time)]
  end.

(** ** Commands *)
Definition wire_query (q : query_info) : json :=
  let '(QueryInfo user is_native query_id from to limit offset ttl query fields) := q in
  JObj [("user", JStr user); ("is_native", JBool is_native); ("query_id", or_null JStr query_id); ("from", JInt from); ("to", JInt to);
        ("limit", num limit); ("offset", num offset); ("ttl", JInt ttl); ("query", JStr query); ("fields", texts fields)].
Definition wire_page (p : pagination) : json := let '(Pagination offset limit) := p in JObj [("offset", num offset); ("limit", num limit)].
Definition wire_call (c : siem_command_call) : json :=
  match c with
  | C_START_COMPONENT name => JObj [("START_COMPONENT", JStr name)]
  | C_STOP_COMPONENT name => JObj [("STOP_COMPONENT", JStr name)]
  | C_LOG_QUERY q => JObj [("LOG_QUERY", wire_query q)]
  | C_ISOLATE_IP (Commented ip comment) => JObj [("ISOLATE_IP", JObj [("ip", json_of_ip ip); ("comment", JStr comment)])]
  | C_ISOLATE_ENDPOINT (Commented host comment) => JObj [("ISOLATE_ENDPOINT", JObj [("hostname", JStr host); ("comment", JStr comment)])]
  | C_FILTER_IP (Commented ip comment) => JObj [("FILTER_IP", JObj [("ip", json_of_ip ip); ("comment", JStr comment)])]
  | C_FILTER_DOMAIN (Commented domain comment) => JObj [("FILTER_DOMAIN", JObj [("domain", JStr domain); ("comment", JStr comment)])]
  | C_FILTER_EMAIL_SENDER (Commented email comment) => JObj [("FILTER_EMAIL_SENDER", JObj [("email", JStr email); ("comment", JStr comment)])]
  | C_LIST_USE_CASES p => JObj [("LIST_USE_CASES", wire_page p)]
  | C_GET_USE_CASE name => JObj [("GET_USE_CASE", JStr name)]
  | C_LIST_RULES p => JObj [("LIST_RULES", wire_page p)]
  | C_GET_RULE name => JObj [("GET_RULE", JStr name)]
  | C_LIST_DATASETS p => JObj [("LIST_DATASETS", wire_page p)]
  | C_LIST_TASKS p => JObj [("LIST_TASKS", wire_page p)]
  | C_DOWNLOAD_QUERY => JObj [("DOWNLOAD_QUERY", JArr [])]
  | C_LIST_PARSERS p => JObj [("LIST_PARSERS", wire_page p)]
  | C_LOGIN_USER (LPassword username password) => JObj [("LOGIN_USER", JObj [("Password", JObj [("username", JStr username); ("password", JStr password)])])]
  | C_LOGIN_USER (LApiKey key) => JObj [("LOGIN_USER", JObj [("ApiKey", JStr key)])]
  | C_START_TASK t => JObj [("START_TASK", wire_task t)]
  | C_GET_TASK_RESULT id => JObj [("GET_TASK_RESULT", num id)]
  | C_OTHER name p => JObj [("OTHER", JArr [JStr name; text_map p])]
  end.
Definition wire_header (h : header) : json :=
  let '(Header user comp_id comm_id) := h in JObj [("user", JStr user); ("comp_id", num comp_id); ("comm_id", num comm_id)].

(** ** Responses *)
Definition wire_result {T} (w : T -> json) (r : command_result T) : json :=
  match r with
  | Ok a => JObj [("ok", w a)]
  | Err (BadParameters s) => JObj [("err", JObj [("BadParameters", JStr s)])]
  | Err (SyntaxError s) => JObj [("err", JObj [("SyntaxError", JStr s)])]
  | Err (NotFound s) => JObj [("err", JObj [("NotFound", JStr s)])]
  end.
Definition wire_list {T} (w : T -> json) (l : list T) : json := JArr (map w l).
Definition wire_use_case (u : use_case_definition) : json :=
  let '(UseCaseDef name description case_logic limitations (Requirements product service category) rule) := u in
  JObj [("name", JStr name); ("description", JStr description); ("case_logic", JStr case_logic); ("limitations", JStr limitations);
        ("requirements", JObj [("product", or_null JStr product); ("service", or_null JStr service); ("category", or_null JStr category)]);
        ("rule", JStr rule)].
Definition wire_rule_definition (d : rule_definition) : json :=
  let '(RuleDef name description (tactics, techniques) service) := d in
  JObj [("name", JStr name); ("description", JStr description);
        ("mitre", JArr [JArr (map json_of_tactic tactics); JArr (map json_of_technique techniques)]); ("service", JStr service)].
Definition wire_dataset_definition (d : dataset_definition) : json :=
  let '(DatasetDef name description permission) := d in
  JObj [("name", json_of_type name); ("description", JStr description); ("required_permission", json_of_role permission)].
Definition wire_command_definition (d : command_definition) : json :=
  let '(CommandDef class name description permission) := d in
  JObj [("class", json_of_function class); ("name", JStr name); ("description", JStr description); ("min_permission", json_of_role permission)].
Definition wire_task_definition (d : task_definition) : json :=
  let '(TaskDef data name description permission mode max_duration _) := d in
  JObj [("data", wire_task_data data); ("name", JStr name); ("description", JStr description); ("min_permission", json_of_role permission);
        ("fire_mode", wire_fire_mode mode); ("max_duration", num max_duration)].
Definition wire_named (n : named) : json := let '(Named name description) := n in JObj [("name", JStr name); ("description", JStr description)].
Definition wire_logged_on (l : logged_on) : json := let '(LoggedOn username role) := l in JObj [("username", JStr username); ("role", json_of_role role)].
Definition wire_row (m : list (string * field)) : json := JObj (map (fun e => (fst e, json_of_field (snd e))) m).
Definition wire_response (r : response) : json :=
  match r with
  | R_START_COMPONENT r => JObj [("START_COMPONENT", wire_result JStr r)]
  | R_STOP_COMPONENT r => JObj [("STOP_COMPONENT", wire_result JStr r)]
  | R_LOG_QUERY q r => JObj [("LOG_QUERY", JArr [wire_query q; wire_result (wire_list wire_row) r])]
  | R_ISOLATE_IP r => JObj [("ISOLATE_IP", wire_result JStr r)]
  | R_ISOLATE_ENDPOINT r => JObj [("ISOLATE_ENDPOINT", wire_result JStr r)]
  | R_FILTER_IP r => JObj [("FILTER_IP", wire_result JStr r)]
  | R_FILTER_DOMAIN r => JObj [("FILTER_DOMAIN", wire_result JStr r)]
  | R_FILTER_EMAIL_SENDER r => JObj [("FILTER_EMAIL_SENDER", wire_result JStr r)]
  | R_LIST_USE_CASES r => JObj [("LIST_USE_CASES", wire_result (wire_list wire_use_case) r)]
  | R_GET_USE_CASE r => JObj [("GET_USE_CASE", wire_result wire_use_case r)]
  | R_LIST_RULES r => JObj [("LIST_RULES", wire_result (wire_list wire_rule_definition) r)]
  | R_GET_RULE r => JObj [("GET_RULE", wire_result wire_rule_definition r)]
  | R_LIST_DATASETS r => JObj [("LIST_DATASETS", wire_result (wire_list wire_dataset_definition) r)]
  | R_LIST_TASKS r => JObj [("LIST_TASKS", wire_result (wire_list wire_named) r)]
  | R_LIST_PARSERS r => JObj [("LIST_PARSERS", wire_result (wire_list wire_named) r)]
  | R_LOGIN_USER r => JObj [("LOGIN_USER", wire_result wire_logged_on r)]
  | R_START_TASK r => JObj [("START_TASK", wire_result num r)]
  | R_GET_TASK_RESULT r => JObj [("GET_TASK_RESULT", wire_result wire_task_result r)]
  | R_OTHER name r => JObj [("OTHER", JArr [JStr name; wire_result text_map r])]
  end.

(** ** Alerts, notifications, messages *)
Definition wire_aggregation (a : aggregation) : json := let '(mkAgg limit key) := a in JObj [("limit", JInt limit); ("key", JStr key)].
Definition wire_alert (a : siem_alert) : json :=
  let '(Alert title description severity date tags techniques rule log aggregation) := a in
  JObj [("title", JStr title); ("description", JStr description); ("severity", json_of_severity severity); ("date", JInt date);
        ("tags", texts tags); ("techniques", JArr (map json_of_technique techniques)); ("rule", JStr rule); ("log", json_of_log log);
        ("aggregation", or_null wire_aggregation aggregation)].
Definition wire_notification (n : notification) : json :=
  let '(Notif timestamp component component_name log level) := n in
  JObj [("timestamp", JInt timestamp); ("component", num component); ("component_name", JStr component_name); ("log", JStr log);
        ("level", json_of_level level)].
Definition wire_message (m : siem_message) : option json :=
  match m with
  | MCommand h c => Some (JObj [("Command", JArr [wire_header h; wire_call c])])
  | MResponse h r => Some (JObj [("Response", JArr [wire_header h; wire_response r])])
  | MLog l => Some (JObj [("Log", json_of_log l)])
  | MNotification n => Some (JObj [("Notification", wire_notification n)])
  | MDataset _ => None
  | MAlert a => Some (JObj [("Alert", wire_alert a)])
  | MTask h t => Some (JObj [("Task", JArr [wire_header h; wire_task t])])
  | MTaskResult h r => Some (JObj [("TaskResult", JArr [wire_header h; wire_task_result r])])
  end.

(** ** Rules *)
Definition wire_state (s : rule_state) : json :=
  match states s with
  | SV_Text t => JObj [("states", JObj [("Text", JStr t)])]
  | SV_Field f => JObj [("states", JObj [("Field", JStr f)])]
  end.
(** the name of the operator and its argument; a nested operator is an object with its one entry *)
Fixpoint wire_op (o : rule_op) : string * json :=
  match o with
  | OAll l => ("all", JArr (map (fun o => JObj [wire_op o]) l))
  | OAny l => ("any", JArr (map (fun o => JObj [wire_op o]) l))
  | ONot o => ("not", JObj [wire_op o])
  | OB64 o => ("b64", JObj [wire_op o])
  | OEquals f => ("equals", json_of_field f)
  | OGT f => ("g_t", json_of_field f)
  | OLT f => ("l_t", json_of_field f)
  | OGTE f => ("g_t_e", json_of_field f)
  | OLTE f => ("l_t_e", json_of_field f)
  | OStartsWith s => ("starts_with", JStr s)
  | OEndsWith s => ("ends_with", JStr s)
  | OContains s => ("contains", JStr s)
  | OMatches re => ("matches", JStr re)
  | OInCountry s => ("in_country", JStr s)
  | OSameNet ip bits => ("same_net", JArr [json_of_ip ip; num bits])
  | OIsLocalIp b => ("is_local_ip", JBool b)
  | OIsExternalIp b => ("is_external_ip", JBool b)
  | OExists b => ("exists", JBool b)
  | OIsNull b => ("is_null", JBool b)
  | OInDataset t => ("in_dataset", json_of_type t)
  | OExistsRuleState l => ("exists_rule_state", JArr (map wire_state l))
  end.
Definition wire_cond (c : rule_cond) : json := let '(mkCond field op) := c in JObj [("field", JStr field); wire_op op].
(** an absent state or aggregation has no entry *)
Definition wire_subrule (s : subrule) : json :=
  match s with
  | mkSub conditions None => JObj [("conditions", JArr (map wire_cond conditions))]
  | mkSub conditions (Some state) => JObj [("conditions", JArr (map wire_cond conditions)); ("rule_state", wire_state state)]
  end.
Definition wire_content (c : alert_content) : json :=
  match c with AText s => JObj [("Text", JStr s)] | AField s => JObj [("Field", JStr s)] | AMatchedRules s => JObj [("MatchedRules", JStr s)] end.
Definition wire_alert_gen (a : alert_gen) : json :=
  let '(mkAlert content severity tags aggregation) := a in
  let entries := [("content", JArr (map wire_content content)); ("severity", json_of_severity severity); ("tags", texts tags)] in
  match aggregation with None => JObj entries | Some g => JObj (entries ++ [("aggregation", wire_aggregation g)]) end.
Definition wire_rule (r : siem_rule) : json :=
  let '(mkRule id name description (mkMitre tactics techniques) needed subrules conditions alert) := r in
  JObj [("id", JStr id); ("name", JStr name); ("description", JStr description);
        ("mitre", JObj [("tactics", JArr (map json_of_tactic tactics)); ("techniques", JArr (map json_of_technique techniques))]);
        ("needed_datasets", JArr (map json_of_type needed));
        ("subrules", JObj (map (fun e => (fst e, wire_subrule (snd e))) subrules));
        ("conditions", JArr (map texts conditions)); ("alert", wire_alert_gen alert)].
