(** The values the Rust types can hold: events, rules, alerts and messages. *)
From Coq Require Import String NArith ZArith List Bool.
From Verif Require Import Base.Ord Base.BTree Base.Outcome Model.Ip Model.Field Model.Log Model.Rule Model.Command Model.EventEnums Model.Events
  Model.Component Model.Payloads Model.Json Model.JsonEvent Spec.JsonSpec.
Import ListNotations.

Definition u8_ok (n : N) : Prop := (n < 2 ^ 8)%N.
Definition u16_ok (n : N) : Prop := (n < 2 ^ 16)%N.
Definition u128_ok (n : N) : Prop := (n < 2 ^ 128)%N.

Definition log_fits (l : log) : Prop := sorted (l_fields l) /\ forall name i, In (name, i) (l_fields l) -> field_ok (original i).

(** A tree that [serde_json::Value] can hold *)
Inductive value_fits : json -> Prop :=
| VF_null : value_fits JNull
| VF_bool b : value_fits (JBool b)
| VF_str s : value_fits (JStr s)
| VF_int z : (- 2 ^ 63 <= z < 2 ^ 64)%Z -> value_fits (JInt z)
| VF_float x : finite x -> value_fits (JFloat x)
| VF_arr l : (forall x, In x l -> value_fits x) -> value_fits (JArr l)
| VF_obj (l : bt string json) : sorted l -> (forall k x, In (k, x) l -> value_fits x) -> value_fits (JObj l).

(** Ports have 16 bits, byte counts, codes and identifiers 32. *)
Definition event_fits (e : any_event) : Prop :=
  match e with
  | Ev (EvFirewall e) => ip_ok (fw_source_ip e) /\ ip_ok (fw_destination_ip e) /\ u16_ok (fw_source_port e) /\ u16_ok (fw_destination_port e) /\
      u32_ok (fw_in_bytes e) /\ u32_ok (fw_out_bytes e)
  | Ev (EvIntrusion e) => ip_ok (in_source_ip e) /\ ip_ok (in_destination_ip e) /\ u16_ok (in_source_port e) /\ u16_ok (in_destination_port e) /\
      u32_ok (in_rule_id e)
  | Ev (EvWebProxy e) => ip_ok (wp_source_ip e) /\ ip_ok (wp_destination_ip e) /\ u16_ok (wp_destination_port e) /\
      u32_ok (wp_in_bytes e) /\ u32_ok (wp_out_bytes e) /\ u32_ok (wp_http_code e)
  | Ev (EvWebServer e) => ip_ok (ws_source_ip e) /\ (forall a, ws_destination_ip e = Some a -> ip_ok a) /\ u16_ok (ws_destination_port e) /\
      u32_ok (ws_in_bytes e) /\ u32_ok (ws_out_bytes e) /\ u32_ok (ws_http_code e)
  | Ev (EvDNS e) => ip_ok (dns_source_ip e) /\ ip_ok (dns_destination_ip e)
  | Ev (EvDHCP e) => ip_ok (dh_source_ip e) /\ u128_ok (dh_source_mac e)
  | Ev (EvAuth _) => True
  | Ev (EvOther v) => In v ["Assessment"; "Sandbox"; "Antivirus"; "DLP"; "Partitioned"; "EDR"; "Mail"; "Endpoint"; "Unknown"; "Artifacts"]%string
  | EvJson v => value_fits v
  end.

Definition op_fits (o : rule_op) : Prop := forall p, inside p o ->
  compares_ok p /\ forall a bits, p = OSameNet a bits -> ip_ok a /\ u8_ok bits.
Definition rule_fits (r : siem_rule) : Prop :=
  sorted (ru_subrules r)
  /\ (forall e c, In e (ru_subrules r) -> In c (sr_conditions (snd e)) -> op_fits (rc_op c))
  /\ (forall a, al_aggregation (ru_alert r) = Some a -> aggregation_ok a).

Definition alert_fits (a : siem_alert) : Prop :=
  i64_ok (a_date a) /\ log_fits (a_log a) /\ forall g, a_aggregation a = Some g -> aggregation_ok g.
Definition message_fits (m : siem_message) : Prop :=
  match m with
  | MCommand h c => header_ok h /\ call_ok c
  | MResponse h r => header_ok h /\ response_ok r
  | MLog l => log_fits l
  | MNotification n => notification_ok n
  | MDataset _ => True
  | MAlert a => alert_fits a
  | MTask h t => header_ok h /\ task_ok t
  | MTaskResult h r => header_ok h /\ task_result_ok r
  end.

(** *** What is the same after it was written and read again *)
(** [kept_value f]: no address, and no float that is not a number *)
Definition kept_value (f : field) : Prop := (forall a, f <> IP a) /\ (forall x, f = F64 x -> finite x).
Definition message_kept (m : siem_message) : Prop :=
  match m with
  | MCommand _ c => ~ carries_ip c
  | MResponse _ (R_LOG_QUERY _ (Ok rows)) => forall row name f, In row rows -> In (name, f) row -> kept_value f
  | MResponse _ _ | MNotification _ | MTask _ _ | MTaskResult _ _ => True
  | MLog _ | MAlert _ | MDataset _ => False
  end.
(** Rules: unless one compares with an address, a float that is not a number, or a network. *)
Definition op_kept (o : rule_op) : Prop := forall p, inside p o ->
  match p with OEquals f | OGT f | OLT f | OGTE f | OLTE f => kept_value f | OSameNet _ _ => False | _ => True end.
