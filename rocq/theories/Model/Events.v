(** Model of the structured events: src/events/{common,firewall,dns,dhcp,webproxy,webserver,intrusion,auth,event}.rs.
    [dbg] is std's [Debug] form of a text (used only for the variants that carry one). *)
From Coq Require Import String NArith ZArith List Bool.
From Verif Require Import Base.Ord Base.BTree Base.Str Base.Outcome Model.Mac Model.Ip Model.Field Model.Log Model.Schema Model.BaseSchema Model.EventEnums.
Import ListNotations.
Local Open Scope string_scope.

(** A sequence of [log.add_field(name, value)] statements. *)
Definition adds (l : list (string * field)) (g : log) : log :=
  fold_left (fun g p => add_field (fst p) (snd p) g) l g.
Definition empty_log : log := log_new "" 0 "".

(** events/common.rs:4-15 *)
Inductive http_method := HM_UNKNOWN (s : string) | HM_GET | HM_POST | HM_PUT | HM_PATCH | HM_OPTIONS | HM_CONNECT | HM_HEAD | HM_UNDEFINED.
(** events/common.rs:62-68 *)
Definition http_method_str (dbg : string -> string) (m : http_method) : string :=
  match m with HM_UNKNOWN s => "UNKNOWN(" ++ dbg s ++ ")" | HM_GET => "GET" | HM_POST => "POST" | HM_PUT => "PUT" | HM_PATCH => "PATCH"
  | HM_OPTIONS => "OPTIONS" | HM_CONNECT => "CONNECT" | HM_HEAD => "HEAD" | HM_UNDEFINED => "UNDEFINED" end.
(** events/common.rs:34-45. [to_uppercase] is modelled on ASCII letters. *)
Definition http_from_str (val : string) : http_method :=
  let u := to_upper val in
  if String.eqb u "GET" then HM_GET else if String.eqb u "POST" then HM_POST else if String.eqb u "PATCH" then HM_PATCH
  else if String.eqb u "OPTIONS" then HM_OPTIONS else if String.eqb u "CONNECT" then HM_CONNECT else if String.eqb u "HEAD" then HM_HEAD
  else if String.eqb u "UNDEFINED" then HM_UNDEFINED else HM_UNKNOWN u.
(** events/common.rs:47-60 *)
Definition http_equals (m : http_method) (val : string) : bool :=
  match m with
  | HM_GET => String.eqb val "GET" | HM_POST => String.eqb val "POST" | HM_PUT => String.eqb val "PUT" | HM_PATCH => String.eqb val "PATCH"
  | HM_UNKNOWN _ => String.eqb val "UNKNOWN" | HM_OPTIONS => String.eqb val "OPTIONS" | HM_CONNECT => String.eqb val "CONNECT"
  | HM_HEAD => String.eqb val "HEAD" | HM_UNDEFINED => String.eqb val "UNDEFINED"
  end.
(** events/common.rs:17-25 *)
Inductive web_protocol := WP_UNKNOWN (s : string) | WP_HTTP | WP_HTTPS | WP_FTP | WP_WS | WP_WSS.
(** events/common.rs:26-32 *)
Definition web_protocol_str (dbg : string -> string) (p : web_protocol) : string :=
  match p with WP_UNKNOWN s => "UNKNOWN(" ++ dbg s ++ ")" | WP_HTTP => "HTTP" | WP_HTTPS => "HTTPS" | WP_FTP => "FTP" | WP_WS => "WS" | WP_WSS => "WSS" end.

(** firewall.rs:52-66 *)
Inductive fw_outcome := FO_BLOCK | FO_ALLOW | FO_END | FO_STATS | FO_OPEN | FO_UNKNOWN.
(** firewall.rs:82-88 *)
Definition fw_outcome_str (o : fw_outcome) : string :=
  match o with FO_BLOCK => "BLOCK" | FO_ALLOW => "ALLOW" | FO_END => "END" | FO_STATS => "STATS" | FO_OPEN => "OPEN" | FO_UNKNOWN => "UNKNOWN" end.
(** firewall.rs:69-79 *)
Definition fw_outcome_equals (o : fw_outcome) (val : string) : bool :=
  match o with
  | FO_BLOCK => String.eqb val "BLOCK" | FO_ALLOW => String.eqb val "ALLOW" | FO_END => String.eqb val "END"
  | FO_STATS => String.eqb val "STATS" | FO_OPEN => String.eqb val "OPEN" | FO_UNKNOWN => String.eqb val "UNKNOWN"
  end.
(** firewall.rs:8-30 *)
Record firewall_event := mkFw { fw_source_ip : siem_ip; fw_destination_ip : siem_ip; fw_source_port : N; fw_destination_port : N;
  fw_network_protocol : net_protocol; fw_out : fw_outcome; fw_in_bytes : N; fw_out_bytes : N; fw_in_interface : string; fw_out_interface : string }.
(** firewall.rs:90-120 *)
Definition fw_log (dbg : string -> string) (e : firewall_event) : log :=
  adds [
    (SOURCE_IP, IP (fw_source_ip e));
    (DESTINATION_IP, IP (fw_destination_ip e));
    (SOURCE_PORT, U64 (fw_source_port e));
    (DESTINATION_PORT, U64 (fw_destination_port e));
    (EVENT_OUTCOME, Text (fw_outcome_str (fw_out e)));
    (IN_INTERFACE, Text (fw_in_interface e));
    (OUT_INTERFACE, Text (fw_out_interface e));
    (SOURCE_BYTES, U64 (fw_out_bytes e));
    (DESTINATION_BYTES, U64 (fw_in_bytes e));
    (NETWORK_TRANSPORT, Text (net_protocol_str dbg (fw_network_protocol e)))] empty_log.

(** dns.rs:42-46 *)
Inductive dns_op := DO_ANSWER | DO_QUERY.
(** dns.rs:56-68 *)
Inductive dns_type := DT_A | DT_AAAA | DT_CNAME | DT_MX | DT_NS | DT_PTR | DT_CERT | DT_SRV | DT_TXT | DT_SOA.
(** dns.rs:79-92 *)
Definition dns_type_str (t : dns_type) : string :=
  match t with DT_A => "A" | DT_AAAA => "AAAA" | DT_CNAME => "CNAME" | DT_MX => "MX" | DT_NS => "NS" | DT_PTR => "PTR"
  | DT_CERT => "CERT" | DT_SRV => "SRV" | DT_TXT => "TXT" | DT_SOA => "SOA" end.
(** dns.rs:6-19 *)
Record dns_event := mkDns { dns_source_ip : siem_ip; dns_destination_ip : siem_ip; dns_op_code : dns_op; dns_record_type : dns_type;
  dns_record_name : string; dns_data : option string }.
(** dns.rs:94-117 *)
Definition dns_log (e : dns_event) : log :=
  let g := adds [(SOURCE_IP, IP (dns_source_ip e)); (DESTINATION_IP, IP (dns_destination_ip e))] empty_log in
  match dns_op_code e with
  | DO_ANSWER =>
      let g := adds [(DNS_OP_CODE, Text "ANSWER"); (DNS_ANSWER_NAME, Text (dns_record_name e))] g in
      let g := match dns_data e with Some d => add_field DNS_ANSWER_DATA (Text d) g | None => g end in
      adds [(DNS_ANSWER_TYPE, Text (dns_type_str (dns_record_type e)))] g
  | DO_QUERY =>
      adds [(DNS_OP_CODE, Text "QUERY"); (DNS_QUESTION_NAME, Text (dns_record_name e));
            (DNS_QUESTION_TYPE, Text (dns_type_str (dns_record_type e)))] g
  end.

(** dhcp.rs:38-43 *)
Inductive dhcp_type := DR_Request | DR_Assign | DR_Release.
(** dhcp.rs:45-49 *)
Definition dhcp_type_str (t : dhcp_type) : string := match t with DR_Request => "Request" | DR_Assign => "Assign" | DR_Release => "Release" end.
(** dhcp.rs:6-18 *)
Record dhcp_event := mkDhcp { dh_source_ip : siem_ip; dh_source_mac : N; dh_record_type : dhcp_type; dh_source_hostname : string; dh_hostname : string }.
(** dhcp.rs:61-85 *)
Definition dhcp_log (e : dhcp_event) : log :=
  let g := adds [
    ("host.hostname", Text (dh_hostname e));
    ("server.hostname", Text (dh_hostname e));
    ("client.hostname", Text (dh_source_hostname e));
    ("client.ip", IP (dh_source_ip e));
    ("client.mac", Text (mac_u128_to_str (dh_source_mac e)));
    (DHCP_RECORD_TYPE, Text (dhcp_type_str (dh_record_type e)))] empty_log in
  match dh_record_type e with
  | DR_Assign => g
  | DR_Release => g
  | DR_Request => add_field "requested_ip" (IP (dh_source_ip e)) g
  end.

(** webproxy.rs:65-73, webserver.rs:88-96: both have these three variants; webproxy.rs:74-80, webserver.rs:97-103 *)
Inductive web_outcome := WO_BLOCK | WO_ALLOW | WO_UNKNOWN.
Definition web_outcome_str (o : web_outcome) : string := match o with WO_BLOCK => "BLOCK" | WO_ALLOW => "ALLOW" | WO_UNKNOWN => "UNKNOWN" end.
(** webproxy.rs:8-28 *)
Record webproxy_event := mkWp { wp_source_ip : siem_ip; wp_destination_ip : siem_ip; wp_destination_port : N; wp_in_bytes : N; wp_out_bytes : N;
  wp_http_code : N; wp_http_method : http_method; wp_url : string; wp_domain : string; wp_protocol : web_protocol; wp_user_name : string;
  wp_mime_type : string; wp_outcome : web_outcome; wp_rule_name : option string; wp_rule_category : option web_category }.
(** webproxy.rs:186-231 *)
Definition webproxy_log (dbg : string -> string) (e : webproxy_event) : log :=
  let g := adds [
    (SOURCE_IP, IP (wp_source_ip e));
    (DESTINATION_IP, IP (wp_destination_ip e));
    (DESTINATION_PORT, U64 (wp_destination_port e));
    (EVENT_OUTCOME, Text (web_outcome_str (wp_outcome e)));
    (SOURCE_BYTES, U64 (wp_out_bytes e));
    (DESTINATION_BYTES, U64 (wp_in_bytes e));
    (NETWORK_PROTOCOL, Text (web_protocol_str dbg (wp_protocol e)));
    (HTTP_RESPONSE_STATUS_CODE, U64 (wp_http_code e));
    (HTTP_REQUEST_METHOD, Text (http_method_str dbg (wp_http_method e)));
    (URL_FULL, Text (wp_url e));
    (URL_DOMAIN, Text (wp_domain e));
    (USER_NAME, User (wp_user_name e));
    (HTTP_RESPONSE_MIME_TYPE, Text (wp_mime_type e))] empty_log in
  let g := match wp_rule_category e with Some c => add_field RULE_CATEGORY (Text (web_category_str dbg c)) g | None => g end in
  match wp_rule_name e with Some r => add_field RULE_NAME (Text r) g | None => g end.

(** webserver.rs:10-30. The f32 duration is held as the f64 it converts to (an exact widening). *)
Record webserver_event := mkWs { ws_source_ip : siem_ip; ws_destination_ip : option siem_ip; ws_destination_port : N; ws_in_bytes : N; ws_out_bytes : N;
  ws_http_code : N; ws_duration : f64; ws_http_method : http_method; ws_user_agent : string; ws_url_full : string; ws_url_domain : string;
  ws_url_path : string; ws_url_query : string; ws_url_extension : string; ws_protocol : web_protocol; ws_user_name : string; ws_mime_type : string;
  ws_outcome : web_outcome }.
(** webserver.rs:105-146 *)
Definition webserver_log (dbg : string -> string) (e : webserver_event) : log :=
  let g := adds [(SOURCE_IP, IP (ws_source_ip e))] empty_log in
  let g := match ws_destination_ip e with Some ip => add_field DESTINATION_IP (IP ip) g | None => g end in
  adds [
    (DESTINATION_PORT, U64 (ws_destination_port e));
    (EVENT_OUTCOME, Text (web_outcome_str (ws_outcome e)));
    (SOURCE_BYTES, U64 (ws_out_bytes e));
    (DESTINATION_BYTES, U64 (ws_in_bytes e));
    (NETWORK_PROTOCOL, Text (web_protocol_str dbg (ws_protocol e)));
    (HTTP_RESPONSE_STATUS_CODE, U64 (ws_http_code e));
    (HTTP_REQUEST_METHOD, Text (http_method_str dbg (ws_http_method e)));
    (URL_FULL, Text (ws_url_full e));
    (URL_DOMAIN, Text (ws_url_domain e));
    (URL_PATH, Text (ws_url_path e));
    (URL_QUERY, Text (ws_url_query e));
    ("url.extension", Text (ws_url_extension e));
    (USER_NAME, User (ws_user_name e));
    (HTTP_RESPONSE_MIME_TYPE, Text (ws_mime_type e));
    (NETWORK_DURATION, F64 (ws_duration e));
    ("user_agent.original", Text (ws_user_agent e))] g.

(** intrusion.rs:44-54 *)
Inductive intrusion_outcome := IO_DETECTED | IO_BLOCKED | IO_MONITOR | IO_IMPACTED.
(** intrusion.rs:55-61 *)
Definition intrusion_outcome_str (o : intrusion_outcome) : string :=
  match o with IO_DETECTED => "DETECTED" | IO_BLOCKED => "BLOCKED" | IO_MONITOR => "MONITOR" | IO_IMPACTED => "IMPACTED" end.
(** intrusion.rs:6-21 *)
Record intrusion_event := mkIntr { in_source_ip : siem_ip; in_destination_ip : siem_ip; in_source_port : N; in_destination_port : N;
  in_network_protocol : net_protocol; in_outcome : intrusion_outcome; in_rule_name : string; in_rule_category : intrusion_category; in_rule_id : N }.
(** intrusion.rs:137-160 *)
Definition intrusion_log (dbg : string -> string) (e : intrusion_event) : log :=
  adds [
    (SOURCE_IP, IP (in_source_ip e));
    (SOURCE_PORT, U64 (in_source_port e));
    (DESTINATION_IP, IP (in_destination_ip e));
    (DESTINATION_PORT, U64 (in_destination_port e));
    (EVENT_OUTCOME, Text (intrusion_outcome_str (in_outcome e)));
    (NETWORK_PROTOCOL, Text (net_protocol_str dbg (in_network_protocol e)));
    (RULE_CATEGORY, Text (intrusion_category_str dbg (in_rule_category e)));
    (RULE_NAME, Text (in_rule_name e));
    (RULE_ID, U64 (in_rule_id e))] empty_log.

(** auth.rs:37-47 *)
Inductive login_outcome := LO_SUCCESS | LO_FAIL | LO_LOCKOUT | LO_ESTABLISH.
(** auth.rs:177-183 *)
Definition login_outcome_str (o : login_outcome) : string :=
  match o with LO_SUCCESS => "SUCCESS" | LO_FAIL => "FAIL" | LO_LOCKOUT => "LOCKOUT" | LO_ESTABLISH => "ESTABLISH" end.
(** auth.rs:28-35 with the payload structs of auth.rs:49-168 *)
Inductive login_type :=
| LT_Local (user_name domain : string)
| LT_Remote (user_name domain source_address : string)
| LT_Upgrade (source_user destination_user destination_domain : string)
| LT_Validation (user_name source_address : string)
| LT_Delegation (source_user source_domain destination_user destination_domain : string).
(** auth.rs:6-14 *)
Record auth_event := mkAuth { au_login_type : login_type; au_outcome : login_outcome; au_hostname : string }.
(** auth.rs:201-203, 222-224: [if let Ok(ip) = SiemIp::from_ip_str(..) { log.add_field(..) }] *)
Definition add_parsed_ip (name addr : string) (g : log) : outcome log :=
  let! r := from_ip_str addr in
  Val (match r with Ok ip => add_field name (IP ip) g | Err _ => g end).
(** auth.rs:185-248 *)
Definition auth_log (e : auth_event) : outcome log :=
  let g := adds [("host.hostname", Text (au_hostname e)); (EVENT_OUTCOME, Text (login_outcome_str (au_outcome e)))] empty_log in
  match au_login_type e with
  | LT_Local user_name domain => Val (adds [(USER_NAME, User user_name); (USER_DOMAIN, Domain domain)] g)
  | LT_Remote user_name domain source_address =>
      let! g := add_parsed_ip SOURCE_IP source_address (adds [(USER_NAME, User user_name); (USER_DOMAIN, Domain domain)] g) in
      Val (adds [("source.address", Text source_address)] g)
  | LT_Upgrade source_user destination_user destination_domain =>
      Val (adds [(USER_NAME, User destination_user); ("source.user.name", User source_user); (USER_DOMAIN, Domain destination_domain)] g)
  | LT_Validation user_name source_address =>
      let! g := add_parsed_ip "source.ip" source_address (adds [(USER_NAME, User user_name)] g) in
      Val (adds [("source.address", Text source_address)] g)
  | LT_Delegation source_user source_domain destination_user destination_domain =>
      Val (adds [(USER_NAME, User destination_user); ("source.user.name", User source_user); (USER_DOMAIN, Domain destination_domain);
                 ("source.user.domain", Domain source_domain)] g)
  end.

(** event.rs:14-74: the seven variants with a structure, and all the others *)
Inductive siem_event :=
| EvFirewall (e : firewall_event) | EvIntrusion (e : intrusion_event) | EvWebProxy (e : webproxy_event) | EvWebServer (e : webserver_event)
| EvDNS (e : dns_event) | EvDHCP (e : dhcp_event) | EvAuth (e : auth_event)
| EvOther (variant : string).
(** event.rs:76-89 *)
Definition event_log (dbg : string -> string) (e : siem_event) : outcome log :=
  match e with
  | EvFirewall e => Val (fw_log dbg e)
  | EvWebProxy e => Val (webproxy_log dbg e)
  | EvDNS e => Val (dns_log e)
  | EvIntrusion e => Val (intrusion_log dbg e)
  | EvWebServer e => Val (webserver_log dbg e)
  | EvAuth e => auth_log e
  | EvDHCP e => Val (dhcp_log e)
  | EvOther _ => Val empty_log
  end.
