(** The JSON of structured events: src/events/{event,firewall,dns,dhcp,webproxy,webserver,intrusion,auth,common,protocol}.rs.
    [SiemEvent] and [NetworkProtocol] are internally tagged, the rest is derived in the usual way. Trusted reading of
    serde: writing an internally tagged variant puts the tag in front of the entries of its payload, which must be a
    struct, an object or nothing (anything else is an error); reading one collects everything first, so that its parts are
    read from buffered content, where 128-bit integers are not supported. *)
From Coq Require Import String NArith ZArith List Bool.
From Verif Require Import Base.Ord Base.BTree Base.Outcome Model.Ip Model.Field Model.EventEnums Model.Events Model.Json Model.JsonField Model.JsonCommand.
Import ListNotations.
Local Open Scope string_scope.

(** Floats of 32 bits: the number whose shortest text is written, and rounding what is read *)
Record event_io := { eio : float_io; f32_write : f64 -> f64; f32_read : f64 -> f64 }.

(** * Enums. A variant is written with its name, which is also its [Debug] form. *)

Definition no_dbg (_ : string) : string := "".
(** events/common.rs:4-15 *)
Definition json_of_http (m : http_method) : json :=
  match m with HM_UNKNOWN s => tagged "UNKNOWN" (JStr s) | m => JStr (http_method_str no_dbg m) end.
Definition http_of_json : json -> option http_method :=
  read_enum (("UNKNOWN", newtype_v read_str HM_UNKNOWN) :: map (fun m => (http_method_str no_dbg m, unit_v m))
    [HM_GET; HM_POST; HM_PUT; HM_PATCH; HM_OPTIONS; HM_CONNECT; HM_HEAD; HM_UNDEFINED]).
(** events/common.rs:17-25 *)
Definition json_of_web_protocol (p : web_protocol) : json :=
  match p with WP_UNKNOWN s => tagged "UNKNOWN" (JStr s) | p => JStr (web_protocol_str no_dbg p) end.
Definition web_protocol_of_json : json -> option web_protocol :=
  read_enum (("UNKNOWN", newtype_v read_str WP_UNKNOWN) :: map (fun p => (web_protocol_str no_dbg p, unit_v p))
    [WP_HTTP; WP_HTTPS; WP_FTP; WP_WS; WP_WSS]).
(** webproxy.rs:83-176 *)
Definition json_of_web_category (c : web_category) : json :=
  match c with WC_Others s => tagged "Others" (JStr s) | c => JStr (web_category_str no_dbg c) end.
Definition web_category_of_json : json -> option web_category :=
  read_enum (("Others", newtype_v read_str WC_Others) :: map (fun c => (web_category_str no_dbg c, unit_v c)) web_category_all).
(** intrusion.rs:63-128 *)
Definition json_of_intrusion_category (c : intrusion_category) : json := JStr (intrusion_category_str no_dbg c).
Definition intrusion_category_of_json : json -> option intrusion_category :=
  read_unit_enum (intrusion_category_str no_dbg) intrusion_category_all.
(** firewall.rs:52-66, webproxy.rs:65-73 and webserver.rs:88-96, intrusion.rs:44-54, dns.rs:42-46, 56-68, dhcp.rs:38-43, auth.rs:37-47 *)
Definition fw_outcome_of_json := read_unit_enum fw_outcome_str [FO_BLOCK; FO_ALLOW; FO_END; FO_STATS; FO_OPEN; FO_UNKNOWN].
Definition web_outcome_of_json := read_unit_enum web_outcome_str [WO_BLOCK; WO_ALLOW; WO_UNKNOWN].
Definition intrusion_outcome_of_json := read_unit_enum intrusion_outcome_str [IO_DETECTED; IO_BLOCKED; IO_MONITOR; IO_IMPACTED].
Definition dns_op_name (o : dns_op) : string := match o with DO_ANSWER => "ANSWER" | DO_QUERY => "QUERY" end.
Definition dns_op_of_json := read_unit_enum dns_op_name [DO_ANSWER; DO_QUERY].
Definition dns_type_of_json := read_unit_enum dns_type_str [DT_A; DT_AAAA; DT_CNAME; DT_MX; DT_NS; DT_PTR; DT_CERT; DT_SRV; DT_TXT; DT_SOA].
Definition dhcp_type_of_json := read_unit_enum dhcp_type_str [DR_Request; DR_Assign; DR_Release].
Definition login_outcome_of_json := read_unit_enum login_outcome_str [LO_SUCCESS; LO_FAIL; LO_LOCKOUT; LO_ESTABLISH].

(** An internally tagged value: the tag and the rest. The tag is an entry given once, or the first element. *)
Definition tag_and_rest (tag : string) (j : json) : option (string * json) :=
  match j with
  | JObj l =>
      match entries tag l with
      | [JStr v] => Some (v, JObj (filter (fun e => negb (String.eqb (fst e) tag)) l))
      | _ => None
      end
  | JArr (JStr v :: r) => Some (v, JArr r)
  | _ => None
  end.
(** protocol.rs:4-152; the text of [OTHER] cannot be written *)
Definition json_of_net_protocol (p : net_protocol) : option json :=
  match p with NP_OTHER _ => None | p => Some (JObj [("np_type", JStr (net_protocol_str no_dbg p))]) end.
(** what may be left of a variant without payload: an object, or an empty list *)
Definition unit_rest (j : json) : bool := match j with JArr (_ :: _) => false | _ => true end.
(** the rest of [OTHER] is never a text *)
Definition net_protocol_of_json (j : json) : option net_protocol :=
  let? tr := tag_and_rest "np_type" j in
  if negb (unit_rest (snd tr)) then None else
  pick (fst tr) (map (fun p => (net_protocol_str no_dbg p, p)) net_protocol_all).

(** * Structs: the entries of each; reading from buffered content *)

(** firewall.rs:8-30 *)
Definition fw_entries (e : firewall_event) : option (list (string * json)) :=
  let? np := json_of_net_protocol (fw_network_protocol e) in
  Some [("source_ip", json_of_ip (fw_source_ip e)); ("destination_ip", json_of_ip (fw_destination_ip e));
        ("source_port", json_of_n (fw_source_port e)); ("destination_port", json_of_n (fw_destination_port e));
        ("network_protocol", np); ("outcome", JStr (fw_outcome_str (fw_out e)));
        ("in_bytes", json_of_n (fw_in_bytes e)); ("out_bytes", json_of_n (fw_out_bytes e));
        ("in_interface", JStr (fw_in_interface e)); ("out_interface", JStr (fw_out_interface e))].
Definition fw_of_json (j : json) : option firewall_event :=
  match struct_fields ["source_ip"; "destination_ip"; "source_port"; "destination_port"; "network_protocol"; "outcome"; "in_bytes"; "out_bytes";
                       "in_interface"; "out_interface"] j with
  | Some [si; di; sp; dp; np; o; ib; ob; ii; oi] =>
      let? si := req ip_of_content si in let? di := req ip_of_content di in let? sp := req (read_uint 16) sp in let? dp := req (read_uint 16) dp in
      let? np := req net_protocol_of_json np in let? o := req fw_outcome_of_json o in let? ib := req (read_uint 32) ib in
      let? ob := req (read_uint 32) ob in let? ii := req read_str ii in let? oi := req read_str oi in Some (mkFw si di sp dp np o ib ob ii oi)
  | _ => None
  end.
(** dns.rs:6-19 *)
Definition dns_entries (e : dns_event) : list (string * json) :=
  [("source_ip", json_of_ip (dns_source_ip e)); ("destination_ip", json_of_ip (dns_destination_ip e)); ("op_code", JStr (dns_op_name (dns_op_code e)));
   ("record_type", JStr (dns_type_str (dns_record_type e))); ("record_name", JStr (dns_record_name e)); ("data", json_of_option JStr (dns_data e))].
Definition dns_of_json (j : json) : option dns_event :=
  match struct_fields ["source_ip"; "destination_ip"; "op_code"; "record_type"; "record_name"; "data"] j with
  | Some [si; di; o; t; n; d] =>
      let? si := req ip_of_content si in let? di := req ip_of_content di in let? o := req dns_op_of_json o in let? t := req dns_type_of_json t in
      let? n := req read_str n in let? d := opt read_str d in Some (mkDns si di o t n d)
  | _ => None
  end.
(** dhcp.rs:6-18 *)
Definition dhcp_entries (e : dhcp_event) : list (string * json) :=
  [("source_ip", json_of_ip (dh_source_ip e)); ("source_mac", json_of_n (dh_source_mac e)); ("record_type", JStr (dhcp_type_str (dh_record_type e)));
   ("source_hostname", JStr (dh_source_hostname e)); ("hostname", JStr (dh_hostname e))].
(** a [u128] in buffered content *)
Definition read_u128_content (j : json) : option N := None.
Definition dhcp_of_json (j : json) : option dhcp_event :=
  match struct_fields ["source_ip"; "source_mac"; "record_type"; "source_hostname"; "hostname"] j with
  | Some [si; m; t; sh; h] =>
      let? si := req ip_of_content si in let? m := req read_u128_content m in let? t := req dhcp_type_of_json t in
      let? sh := req read_str sh in let? h := req read_str h in Some (mkDhcp si m t sh h)
  | _ => None
  end.
(** webproxy.rs:8-28 *)
Definition webproxy_entries (e : webproxy_event) : list (string * json) :=
  [("source_ip", json_of_ip (wp_source_ip e)); ("destination_ip", json_of_ip (wp_destination_ip e)); ("destination_port", json_of_n (wp_destination_port e));
   ("in_bytes", json_of_n (wp_in_bytes e)); ("out_bytes", json_of_n (wp_out_bytes e)); ("http_code", json_of_n (wp_http_code e));
   ("http_method", json_of_http (wp_http_method e)); ("url", JStr (wp_url e)); ("domain", JStr (wp_domain e));
   ("protocol", json_of_web_protocol (wp_protocol e)); ("user_name", JStr (wp_user_name e)); ("mime_type", JStr (wp_mime_type e));
   ("outcome", JStr (web_outcome_str (wp_outcome e))); ("rule_name", json_of_option JStr (wp_rule_name e));
   ("rule_category", json_of_option json_of_web_category (wp_rule_category e))].
Definition webproxy_of_json (j : json) : option webproxy_event :=
  match struct_fields ["source_ip"; "destination_ip"; "destination_port"; "in_bytes"; "out_bytes"; "http_code"; "http_method"; "url"; "domain"; "protocol";
                       "user_name"; "mime_type"; "outcome"; "rule_name"; "rule_category"] j with
  | Some [si; di; dp; ib; ob; hc; hm; u; d; p; un; mt; o; rn; rc] =>
      let? si := req ip_of_content si in let? di := req ip_of_content di in let? dp := req (read_uint 16) dp in let? ib := req (read_uint 32) ib in
      let? ob := req (read_uint 32) ob in let? hc := req (read_uint 32) hc in let? hm := req http_of_json hm in let? u := req read_str u in
      let? d := req read_str d in let? p := req web_protocol_of_json p in let? un := req read_str un in let? mt := req read_str mt in
      let? o := req web_outcome_of_json o in let? rn := opt read_str rn in let? rc := opt web_category_of_json rc in
      Some (mkWp si di dp ib ob hc hm u d p un mt o rn rc)
  | _ => None
  end.
(** webserver.rs:10-30 *)
Definition webserver_entries (io : event_io) (e : webserver_event) : list (string * json) :=
  [("source_ip", json_of_ip (ws_source_ip e)); ("destination_ip", json_of_option json_of_ip (ws_destination_ip e));
   ("destination_port", json_of_n (ws_destination_port e)); ("in_bytes", json_of_n (ws_in_bytes e)); ("out_bytes", json_of_n (ws_out_bytes e));
   ("http_code", json_of_n (ws_http_code e)); ("duration", json_of_f64 (f32_write io (ws_duration e))); ("http_method", json_of_http (ws_http_method e));
   ("user_agent", JStr (ws_user_agent e)); ("url_full", JStr (ws_url_full e)); ("url_domain", JStr (ws_url_domain e)); ("url_path", JStr (ws_url_path e));
   ("url_query", JStr (ws_url_query e)); ("url_extension", JStr (ws_url_extension e)); ("protocol", json_of_web_protocol (ws_protocol e));
   ("user_name", JStr (ws_user_name e)); ("mime_type", JStr (ws_mime_type e)); ("outcome", JStr (web_outcome_str (ws_outcome e)))].
Definition read_f32 (io : event_io) (j : json) : option f64 :=
  let? n := read_number (eio io) j in
  Some (f32_read io (match n with NUnsigned n => int_as_f64 (Z.of_N n) | NSigned z => int_as_f64 z | NFloat x => x end)).
Definition webserver_of_json (io : event_io) (j : json) : option webserver_event :=
  match struct_fields ["source_ip"; "destination_ip"; "destination_port"; "in_bytes"; "out_bytes"; "http_code"; "duration"; "http_method"; "user_agent";
                       "url_full"; "url_domain"; "url_path"; "url_query"; "url_extension"; "protocol"; "user_name"; "mime_type"; "outcome"] j with
  | Some [si; di; dp; ib; ob; hc; du; hm; ua; uf; ud; up; uq; ue; p; un; mt; o] =>
      let? si := req ip_of_content si in let? di := opt ip_of_content di in let? dp := req (read_uint 16) dp in let? ib := req (read_uint 32) ib in
      let? ob := req (read_uint 32) ob in let? hc := req (read_uint 32) hc in let? du := req (read_f32 io) du in let? hm := req http_of_json hm in
      let? ua := req read_str ua in let? uf := req read_str uf in let? ud := req read_str ud in let? up := req read_str up in
      let? uq := req read_str uq in let? ue := req read_str ue in let? p := req web_protocol_of_json p in let? un := req read_str un in
      let? mt := req read_str mt in let? o := req web_outcome_of_json o in Some (mkWs si di dp ib ob hc du hm ua uf ud up uq ue p un mt o)
  | _ => None
  end.
(** intrusion.rs:6-21 *)
Definition intrusion_entries (e : intrusion_event) : option (list (string * json)) :=
  let? np := json_of_net_protocol (in_network_protocol e) in
  Some [("source_ip", json_of_ip (in_source_ip e)); ("destination_ip", json_of_ip (in_destination_ip e)); ("source_port", json_of_n (in_source_port e));
        ("destination_port", json_of_n (in_destination_port e)); ("network_protocol", np); ("outcome", JStr (intrusion_outcome_str (in_outcome e)));
        ("rule_name", JStr (in_rule_name e)); ("rule_category", json_of_intrusion_category (in_rule_category e)); ("rule_id", json_of_n (in_rule_id e))].
Definition intrusion_of_json (j : json) : option intrusion_event :=
  match struct_fields ["source_ip"; "destination_ip"; "source_port"; "destination_port"; "network_protocol"; "outcome"; "rule_name"; "rule_category"; "rule_id"] j with
  | Some [si; di; sp; dp; np; o; rn; rc; ri] =>
      let? si := req ip_of_content si in let? di := req ip_of_content di in let? sp := req (read_uint 16) sp in let? dp := req (read_uint 16) dp in
      let? np := req net_protocol_of_json np in let? o := req intrusion_outcome_of_json o in let? rn := req read_str rn in
      let? rc := req intrusion_category_of_json rc in let? ri := req (read_uint 32) ri in Some (mkIntr si di sp dp np o rn rc ri)
  | _ => None
  end.
(** auth.rs:28-35 with the payload structs of auth.rs:49-168 *)
Definition json_of_login_type (t : login_type) : json :=
  match t with
  | LT_Local u d => tagged "Local" (JObj [("user_name", JStr u); ("domain", JStr d)])
  | LT_Remote u d a => tagged "Remote" (JObj [("user_name", JStr u); ("domain", JStr d); ("source_address", JStr a)])
  | LT_Upgrade s d dd => tagged "Upgrade" (JObj [("source_user", JStr s); ("destination_user", JStr d); ("destination_domain", JStr dd)])
  | LT_Validation u a => tagged "Validation" (JObj [("user_name", JStr u); ("source_address", JStr a)])
  | LT_Delegation s sd d dd => tagged "Delegation" (JObj [("source_user", JStr s); ("source_domain", JStr sd); ("destination_user", JStr d);
                                                          ("destination_domain", JStr dd)])
  end.
(** a struct whose fields are texts *)
Definition text_fields (names : list string) (j : json) : option (list string) :=
  let? fs := struct_fields names j in mapM (req read_str) fs.
Definition login_type_of_json : json -> option login_type :=
  read_enum [
    ("Local", newtype_v (text_fields ["user_name"; "domain"]) (fun l => LT_Local (nth 0 l "") (nth 1 l "")));
    ("Remote", newtype_v (text_fields ["user_name"; "domain"; "source_address"]) (fun l => LT_Remote (nth 0 l "") (nth 1 l "") (nth 2 l "")));
    ("Upgrade", newtype_v (text_fields ["source_user"; "destination_user"; "destination_domain"])
                  (fun l => LT_Upgrade (nth 0 l "") (nth 1 l "") (nth 2 l "")));
    ("Validation", newtype_v (text_fields ["user_name"; "source_address"]) (fun l => LT_Validation (nth 0 l "") (nth 1 l "")));
    ("Delegation", newtype_v (text_fields ["source_user"; "source_domain"; "destination_user"; "destination_domain"])
                     (fun l => LT_Delegation (nth 0 l "") (nth 1 l "") (nth 2 l "") (nth 3 l "")))].
(** auth.rs:6-14 *)
Definition auth_entries (e : auth_event) : list (string * json) :=
  [("login_type", json_of_login_type (au_login_type e)); ("outcome", JStr (login_outcome_str (au_outcome e))); ("hostname", JStr (au_hostname e))].
Definition auth_of_json (j : json) : option auth_event :=
  match struct_fields ["login_type"; "outcome"; "hostname"] j with
  | Some [t; o; h] =>
      let? t := req login_type_of_json t in let? o := req login_outcome_of_json o in let? h := req read_str h in Some (mkAuth t o h)
  | _ => None
  end.

(** * [serde_json::Value] *)

(** what reading a tree gives: an object is a map, of two entries with one key the last one counts *)
Fixpoint value_of_json (io : float_io) (j : json) : option json :=
  match j with
  | JNull => Some JNull
  | JBool b => Some (JBool b)
  | JStr s => Some (JStr s)
  | JInt _ | JFloat _ =>
      let? n := read_number io j in
      match n with NUnsigned n => Some (JInt (Z.of_N n)) | NSigned z => Some (JInt z) | NFloat x => Some (json_of_f64 x) end
  | JArr l =>
      let? l := (fix go l := match l with [] => Some [] | x :: r => let? y := value_of_json io x in let? ys := go r in Some (y :: ys) end) l in
      Some (JArr l)
  | JObj l =>
      let? l := (fix go l := match l with [] => Some [] | (k, x) :: r => let? y := value_of_json io x in let? ys := go r in Some ((k, y) :: ys) end) l in
      Some (JObj (bt_of_list l))
  end.

(** * Events: event.rs:12-74 *)

(** the variants without payload *)
Definition unit_events : list string :=
  ["Assessment"; "Sandbox"; "Antivirus"; "DLP"; "Partitioned"; "EDR"; "Mail"; "Endpoint"; "Unknown"; "Artifacts"].
(** [EvJson v] is the variant [Json]; in [Model/Events.v] it is one of those without a conversion of their own *)
Inductive any_event := Ev (e : siem_event) | EvJson (v : json).
Definition tagged_event (tag : string) (l : list (string * json)) : json := JObj (("event_type", JStr tag) :: l).
Definition json_of_event (io : event_io) (e : any_event) : option json :=
  match e with
  | Ev (EvFirewall e) => let? l := fw_entries e in Some (tagged_event "Firewall" l)
  | Ev (EvIntrusion e) => let? l := intrusion_entries e in Some (tagged_event "Intrusion" l)
  | Ev (EvWebProxy e) => Some (tagged_event "WebProxy" (webproxy_entries e))
  | Ev (EvWebServer e) => Some (tagged_event "WebServer" (webserver_entries io e))
  | Ev (EvDNS e) => Some (tagged_event "DNS" (dns_entries e))
  | Ev (EvDHCP e) => Some (tagged_event "DHCP" (dhcp_entries e))
  | Ev (EvAuth e) => Some (tagged_event "Auth" (auth_entries e))
  | Ev (EvOther v) => Some (tagged_event v [])
  | EvJson (JObj l) => Some (tagged_event "Json" l)
  | EvJson JNull => Some (tagged_event "Json" [])
  | EvJson _ => None
  end.
Definition event_of_json (io : event_io) (j : json) : option any_event :=
  let? tr := tag_and_rest "event_type" j in
  let (tag, rest) := tr in
  if String.eqb tag "Firewall" then let? e := fw_of_json rest in Some (Ev (EvFirewall e))
  else if String.eqb tag "Intrusion" then let? e := intrusion_of_json rest in Some (Ev (EvIntrusion e))
  else if String.eqb tag "WebProxy" then let? e := webproxy_of_json rest in Some (Ev (EvWebProxy e))
  else if String.eqb tag "WebServer" then let? e := webserver_of_json io rest in Some (Ev (EvWebServer e))
  else if String.eqb tag "DNS" then let? e := dns_of_json rest in Some (Ev (EvDNS e))
  else if String.eqb tag "DHCP" then let? e := dhcp_of_json rest in Some (Ev (EvDHCP e))
  else if String.eqb tag "Auth" then let? e := auth_of_json rest in Some (Ev (EvAuth e))
  else if String.eqb tag "Json" then let? v := value_of_json (eio io) rest in Some (EvJson v)
  else if existsb (String.eqb tag) unit_events && unit_rest rest then Some (Ev (EvOther tag))
  else None.
