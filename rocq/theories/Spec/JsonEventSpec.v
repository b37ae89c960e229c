(** Events in JSON. *)
From Coq Require Import String NArith ZArith List Bool Floats.SpecFloat.
From Verif Require Import Base.Ord Base.BTree Model.Ip Model.Field Model.EventEnums Model.Events Model.Json Model.JsonEvent Spec.FieldSpec Spec.JsonSpec.
Import ListNotations.
Local Open Scope string_scope.

(** A value that [serde_json::Value] can hold and that [io] reads as it was: integers of 64 bits, finite floats,
    objects with different keys, which are kept sorted *)
Inductive value_ok (io : float_io) : json -> Prop :=
| VO_null : value_ok io JNull
| VO_bool b : value_ok io (JBool b)
| VO_str s : value_ok io (JStr s)
| VO_int z : (- 2 ^ 63 <= z < 2 ^ 64)%Z -> value_ok io (JInt z)
| VO_float x : finite x -> float_reads io x x -> value_ok io (JFloat x)
| VO_arr l : (forall x, In x l -> value_ok io x) -> value_ok io (JArr l)
| VO_obj (l : bt string json) : sorted l -> (forall k x, In (k, x) l -> value_ok io x) -> value_ok io (JObj l).

(** The events that hold an address *)
Definition holds_address (e : any_event) : Prop :=
  match e with
  | Ev (EvFirewall _) | Ev (EvIntrusion _) | Ev (EvWebProxy _) | Ev (EvWebServer _) | Ev (EvDNS _) | Ev (EvDHCP _) => True
  | Ev (EvAuth _) | Ev (EvOther _) | EvJson _ => False
  end.
(** The events that hold a protocol given by a text of its own *)
Definition other_protocol (e : any_event) : Prop :=
  match e with
  | Ev (EvFirewall e) => exists s, fw_network_protocol e = NP_OTHER s
  | Ev (EvIntrusion e) => exists s, in_network_protocol e = NP_OTHER s
  | _ => False
  end.
(** The events the type can hold: a variant without payload is one of those there are *)
Definition event_ok (e : any_event) : Prop :=
  match e with
  | Ev (EvOther v) => In v ["Assessment"; "Sandbox"; "Antivirus"; "DLP"; "Partitioned"; "EDR"; "Mail"; "Endpoint"; "Unknown"; "Artifacts"]
  | _ => True
  end.

(** What the JSON of an event holds, key by key; [addr] is how an address is given and [dur] how the duration of a request is given. *)
Section Values.
  Context (addr : siem_ip -> json) (dur : f64 -> json).
  Definition num (n : N) : json := JInt (Z.of_N n).
  Definition option_shown {A} (w : A -> json) (o : option A) : json := match o with Some a => w a | None => JNull end.
  (** A method, protocol or category of its own is given with its text, any other by its name. *)
  Definition http_shown (m : http_method) : json :=
    match m with HM_UNKNOWN s => JObj [("UNKNOWN", JStr s)] | m => JStr (http_method_str (fun s => s) m) end.
  Definition web_protocol_shown (p : web_protocol) : json :=
    match p with WP_UNKNOWN s => JObj [("UNKNOWN", JStr s)] | p => JStr (web_protocol_str (fun s => s) p) end.
  Definition category_shown (c : web_category) : json :=
    match c with WC_Others s => JObj [("Others", JStr s)] | c => JStr (web_category_str (fun s => s) c) end.
  Definition login_shown (t : login_type) : json :=
    match t with
    | LT_Local u d => JObj [("Local", JObj [("user_name", JStr u); ("domain", JStr d)])]
    | LT_Remote u d a => JObj [("Remote", JObj [("user_name", JStr u); ("domain", JStr d); ("source_address", JStr a)])]
    | LT_Upgrade s d dd => JObj [("Upgrade", JObj [("source_user", JStr s); ("destination_user", JStr d); ("destination_domain", JStr dd)])]
    | LT_Validation u a => JObj [("Validation", JObj [("user_name", JStr u); ("source_address", JStr a)])]
    | LT_Delegation s sd d dd => JObj [("Delegation", JObj [("source_user", JStr s); ("source_domain", JStr sd);
                                                            ("destination_user", JStr d); ("destination_domain", JStr dd)])]
    end.
  Definition protocol_shown (p : net_protocol) : json := JObj [("np_type", JStr (net_protocol_str (fun s => s) p))].
  Definition event_values (e : siem_event) : list (string * json) :=
    match e with
    | EvFirewall e =>
        [("event_type", JStr "Firewall"); ("source_ip", addr (fw_source_ip e)); ("destination_ip", addr (fw_destination_ip e));
         ("source_port", num (fw_source_port e)); ("destination_port", num (fw_destination_port e));
         ("network_protocol", protocol_shown (fw_network_protocol e)); ("outcome", JStr (fw_outcome_str (fw_out e)));
         ("in_bytes", num (fw_in_bytes e)); ("out_bytes", num (fw_out_bytes e));
         ("in_interface", JStr (fw_in_interface e)); ("out_interface", JStr (fw_out_interface e))]
    | EvIntrusion e =>
        [("event_type", JStr "Intrusion"); ("source_ip", addr (in_source_ip e)); ("destination_ip", addr (in_destination_ip e));
         ("source_port", num (in_source_port e)); ("destination_port", num (in_destination_port e));
         ("network_protocol", protocol_shown (in_network_protocol e)); ("outcome", JStr (intrusion_outcome_str (in_outcome e)));
         ("rule_name", JStr (in_rule_name e)); ("rule_category", JStr (intrusion_category_str (fun s => s) (in_rule_category e)));
         ("rule_id", num (in_rule_id e))]
    | EvWebProxy e =>
        [("event_type", JStr "WebProxy"); ("source_ip", addr (wp_source_ip e)); ("destination_ip", addr (wp_destination_ip e));
         ("destination_port", num (wp_destination_port e)); ("in_bytes", num (wp_in_bytes e)); ("out_bytes", num (wp_out_bytes e));
         ("http_code", num (wp_http_code e)); ("http_method", http_shown (wp_http_method e)); ("url", JStr (wp_url e));
         ("domain", JStr (wp_domain e)); ("protocol", web_protocol_shown (wp_protocol e)); ("user_name", JStr (wp_user_name e));
         ("mime_type", JStr (wp_mime_type e)); ("outcome", JStr (web_outcome_str (wp_outcome e)));
         ("rule_name", option_shown JStr (wp_rule_name e)); ("rule_category", option_shown category_shown (wp_rule_category e))]
    | EvWebServer e =>
        [("event_type", JStr "WebServer"); ("source_ip", addr (ws_source_ip e)); ("destination_ip", option_shown addr (ws_destination_ip e));
         ("destination_port", num (ws_destination_port e)); ("in_bytes", num (ws_in_bytes e)); ("out_bytes", num (ws_out_bytes e));
         ("http_code", num (ws_http_code e)); ("duration", dur (ws_duration e)); ("http_method", http_shown (ws_http_method e));
         ("user_agent", JStr (ws_user_agent e)); ("url_full", JStr (ws_url_full e)); ("url_domain", JStr (ws_url_domain e));
         ("url_path", JStr (ws_url_path e)); ("url_query", JStr (ws_url_query e)); ("url_extension", JStr (ws_url_extension e));
         ("protocol", web_protocol_shown (ws_protocol e)); ("user_name", JStr (ws_user_name e)); ("mime_type", JStr (ws_mime_type e));
         ("outcome", JStr (web_outcome_str (ws_outcome e)))]
    | EvDNS e =>
        [("event_type", JStr "DNS"); ("source_ip", addr (dns_source_ip e)); ("destination_ip", addr (dns_destination_ip e));
         ("op_code", JStr (match dns_op_code e with DO_ANSWER => "ANSWER" | DO_QUERY => "QUERY" end));
         ("record_type", JStr (dns_type_str (dns_record_type e))); ("record_name", JStr (dns_record_name e)); ("data", option_shown JStr (dns_data e))]
    | EvDHCP e =>
        [("event_type", JStr "DHCP"); ("source_ip", addr (dh_source_ip e)); ("source_mac", num (dh_source_mac e));
         ("record_type", JStr (dhcp_type_str (dh_record_type e))); ("source_hostname", JStr (dh_source_hostname e)); ("hostname", JStr (dh_hostname e))]
    | EvAuth e =>
        [("event_type", JStr "Auth"); ("login_type", login_shown (au_login_type e)); ("outcome", JStr (login_outcome_str (au_outcome e)));
         ("hostname", JStr (au_hostname e))]
    | EvOther v => [("event_type", JStr v)]
    end.
End Values.
(** The duration as written: a number, or [null] if it is not finite *)
Definition duration_shown (io : event_io) (x : f64) : json :=
  match f32_write io x with S754_nan | S754_infinity _ => JNull | y => JFloat y end.
(** The only form of an address that is read in an event: its family and number, and only of family 4 *)
Definition v4_form (a : siem_ip) : json := match a with V4 n => JObj [("V4", num n)] | V6 n => JObj [("V6", num n)] end.
Definition is_v4 (a : siem_ip) : Prop := exists n, a = V4 n /\ (n < 2 ^ 32)%N.
Definition u16 (n : N) : Prop := (n < 2 ^ 16)%N.
Definition u32 (n : N) : Prop := (n < 2 ^ 32)%N.
Definition named_protocol (p : net_protocol) : Prop := forall s, p <> NP_OTHER s.
(** the duration is read as it was *)
Definition duration_reads (io : event_io) (x : f64) : Prop :=
  finite (f32_write io x) /\ exists y, reread (eio io) (f32_write io x) = Some y /\ f32_read io y = x.
(** The events that can be read: values in range, addresses of family 4, a protocol with a name *)
Definition readable (io : event_io) (e : siem_event) : Prop :=
  match e with
  | EvFirewall e => is_v4 (fw_source_ip e) /\ is_v4 (fw_destination_ip e) /\ u16 (fw_source_port e) /\ u16 (fw_destination_port e)
      /\ named_protocol (fw_network_protocol e) /\ u32 (fw_in_bytes e) /\ u32 (fw_out_bytes e)
  | EvIntrusion e => is_v4 (in_source_ip e) /\ is_v4 (in_destination_ip e) /\ u16 (in_source_port e) /\ u16 (in_destination_port e)
      /\ named_protocol (in_network_protocol e) /\ u32 (in_rule_id e)
  | EvWebProxy e => is_v4 (wp_source_ip e) /\ is_v4 (wp_destination_ip e) /\ u16 (wp_destination_port e) /\ u32 (wp_in_bytes e)
      /\ u32 (wp_out_bytes e) /\ u32 (wp_http_code e)
  | EvWebServer e => is_v4 (ws_source_ip e) /\ (forall a, ws_destination_ip e = Some a -> is_v4 a) /\ u16 (ws_destination_port e)
      /\ u32 (ws_in_bytes e) /\ u32 (ws_out_bytes e) /\ u32 (ws_http_code e) /\ duration_reads io (ws_duration e)
  | EvDNS e => is_v4 (dns_source_ip e) /\ is_v4 (dns_destination_ip e)
  | EvDHCP _ => False
  | EvAuth _ => True
  | EvOther v => In v ["Assessment"; "Sandbox"; "Antivirus"; "DLP"; "Partitioned"; "EDR"; "Mail"; "Endpoint"; "Unknown"; "Artifacts"]
  end.
