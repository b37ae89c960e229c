(** What the [Serialize] impls of metrics, datasets, use cases and component capabilities write. Of these types only
    [Requirements] and the definitions of datasets, commands and tasks can be read again (Model/JsonCommand.v). *)
From Coq Require Import String NArith ZArith List Bool.
From Verif Require Import Base.Outcome Model.Field Model.Metrics Model.Datasets Model.DatasetTypes Model.Command Model.Component
  Model.Payloads Model.Json Model.JsonCommand.
Import ListNotations.
Local Open Scope string_scope.

(** * Metrics. The cells are read one after the other; here they are those of one moment. *)

(** a [Vec<(LogString, LogString)>] *)
Definition json_of_labels (ls : labels) : json := json_of_list (fun p => JArr [JStr (fst p); JStr (snd p)]) ls.
(** counter.rs:194-204 *)
Definition json_of_counter (ls : labels) (v : Z) : json := JObj [("labels", json_of_labels ls); ("value", JInt v)].
(** counter.rs:182-193 *)
Definition json_of_counter_vec (m : mvec) : json :=
  JArr (map (fun p => json_of_counter (fst p) (snd p)) (combine (mv_labels m) (mv_cells m))).
(** gauge.rs:210-220 *)
Definition json_of_gauge (ls : labels) (v : f64) : json := JObj [("labels", json_of_labels ls); ("value", json_of_f64 v)].
(** gauge.rs:198-209 *)
Definition json_of_gauge_vec (m : mvec) : json :=
  JArr (map (fun p => json_of_gauge (fst p) (normalize_i64 (snd p))) (combine (mv_labels m) (mv_cells m))).
(** histogram.rs:284-294 *)
Definition json_of_bucket (b : f64 * N) : json := JObj [("v", json_of_n (snd b)); ("le", json_of_f64 (fst b))].
(** histogram.rs:257-269; [counters] by histogram.rs:271-282 *)
Definition json_of_hist (ls : labels) (h : hist) : json :=
  JObj [("labels", json_of_labels ls); ("count", json_of_n (get_sample_count h)); ("sum", json_of_f64 (get_sample_sum h));
        ("buckets", json_of_list json_of_bucket (h_buckets h))].
(** histogram.rs:244-255 *)
Definition json_of_hist_vec (ms : list (labels * hist)) : json := json_of_list (fun p => json_of_hist (fst p) (snd p)) ms.
(** metrics/mod.rs:101-127 *)
Definition json_of_metric (m : metric) : json :=
  match m with
  | MCounter v => JObj [("metric_type", JStr "Counter"); ("valuess", json_of_counter_vec v)]
  | MGauge v => JObj [("metric_type", JStr "Gauge"); ("values", json_of_gauge_vec v)]
  | MHistogram v => JObj [("type", JStr "Histogram"); ("value", json_of_hist_vec v)]
  end.
(** metrics/mod.rs:43-48 [derive(Serialize)] *)
Definition json_of_metric_def (d : metric_def) : json :=
  JObj [("metric", json_of_metric (d_metric d)); ("name", JStr (d_name d)); ("description", JStr (d_description d))].

(** * Datasets: dataset/mod.rs:866-922 *)
Definition json_of_dataset (d : siem_dataset) : json :=
  let plain typ := JObj [("type", JStr typ)] in
  let custom name typ := JObj [("name", JStr name); ("type", JStr typ)] in
  match d with
  | D_CorrelationRules _ => plain "CorrelationRules"
  | D_GeoIp _ => plain "GeoIp"
  | D_IpMac _ => plain "IpMac"
  | D_IpDNS _ => plain "IpDNS"
  | D_MacHost _ => plain "MacHost"
  | D_HostUser _ => plain "HostUser"
  | D_BlockIp _ => plain "BlockIp"
  | D_BlockDomain _ => plain "BlockDomain"
  | D_BlockEmailSender _ => plain "BlockEmailSender"
  | D_BlockCountry _ => plain "BlockCountry"
  | D_UserTag _ => plain "UserTag"
  | D_AssetTag _ => plain "AssetTag"
  | D_IpCloudService _ => plain "IpCloudService"
  | D_IpCloudProvider _ => plain "IpCloudProvider"
  | D_UserHeadquarters _ => plain "UserHeadquarters"
  | D_IpHeadquarters _ => plain "IpHeadquarters"
  | D_HeadquartersWorkingHours => plain "HeadquartersWorkingHours"
  | D_MantainceCalendar _ => plain "MantainceCalendar"
  | D_Configuration _ => plain "Configuration"
  | D_HostVulnerable _ => plain "HostVulnerable"
  | D_I18n _ => plain "I18n"
  | D_CustomMapIpNet name _ => custom name "CustomMapIpNet"
  | D_CustomMapText name _ => custom name "CustomMapText"
  | D_CustomIpList name _ => custom name "CustomIpList"
  | D_CustomIpMap name _ => custom name "CustomIpMap"
  | D_CustomTextList name _ => custom name "CustomTextList"
  | D_CustomMapTextList name _ => custom name "CustomMapTextList"
  | D_Secrets name _ => custom name "Secrets"
  end.

(** * Use cases *)

(** use_case.rs:65-75 *)
Record automated_step := AutoStep { as_min_role : user_role; as_action : string; as_name : string; as_description : string }.
(** use_case.rs:57-63 *)
Inductive playbook_step := Manual (name description : string) | Automated (s : automated_step).
(** use_case.rs:8-24 *)
Record siem_use_case := UseCase { u_name : string; u_description : string; u_case_logic : string; u_limitations : string;
  u_requirements : requirements; u_rule : string; u_actions : list playbook_step }.
(** use_case.rs:77-88: the action is not written *)
Definition json_of_automated (s : automated_step) : json :=
  JObj [("min_role", json_of_role (as_min_role s)); ("name", JStr (as_name s)); ("description", JStr (as_description s))].
(** use_case.rs:57 [derive(Serialize)] *)
Definition json_of_step (s : playbook_step) : json :=
  match s with
  | Manual n d => tagged "Manual" (JArr [JStr n; JStr d])
  | Automated a => tagged "Automated" (json_of_automated a)
  end.
(** use_case.rs:40-56 *)
Definition json_of_siem_use_case (u : siem_use_case) : json :=
  JObj [("name", JStr (u_name u)); ("description", JStr (u_description u)); ("case_logic", JStr (u_case_logic u));
        ("limitations", JStr (u_limitations u)); ("rule", JStr (u_rule u)); ("actions", json_of_list json_of_step (u_actions u));
        ("requirements", json_of_requirements (u_requirements u))].

(** * Component capabilities *)

(** components/common.rs:52-62 *)
Record capabilities := Capabilities { cap_name : string; cap_description : string; cap_view : string;
  cap_datasets : list dataset_definition; cap_commands : list command_definition; cap_tasks : list task_definition;
  cap_metrics : list metric_def }.
(** components/common.rs:52 [derive(Serialize)] *)
Definition json_of_capabilities (c : capabilities) : json :=
  JObj [("name", JStr (cap_name c)); ("description", JStr (cap_description c)); ("view", JStr (cap_view c));
        ("datasets", json_of_list json_of_dataset_definition (cap_datasets c));
        ("commands", json_of_list json_of_command_definition (cap_commands c));
        ("tasks", json_of_list json_of_task_definition (cap_tasks c));
        ("metrics", json_of_list json_of_metric_def (cap_metrics c))].
