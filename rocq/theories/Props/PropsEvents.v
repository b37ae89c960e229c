(** Properties C22, C54, C55, C62: structured events and their enumerations (src/events).
    [dbg] is std's [Debug] form of a text, assumed injective only where stated. *)
From Coq Require Import String Ascii NArith ZArith List Bool.
From Verif Require Import Base.Arith Base.Ord Base.BTree Base.Str Base.Outcome Model.Mac Model.Ip Model.Field Model.Log Model.Schema Model.BaseSchema
  Model.EventEnums Model.Events Spec.IanaSpec Spec.EventNames Proofs.IpPrintP Proofs.SchemaP Proofs.EventsP.
Import ListNotations.
Local Open Scope string_scope.

(** C22, the texts used below for enumerations: a variant is shown under its own name (tables in Spec/EventNames.v);
    one that carries a text shows it in std's Debug form. *)
Theorem C22_names : forall dbg : string -> string,
  (forall x, In (x, net_protocol_str dbg x) net_protocol_names \/ exists t, x = NP_OTHER t /\ net_protocol_str dbg x = "OTHER(" ++ dbg t ++ ")") /\
  (forall x, In (x, web_category_str dbg x) web_category_names \/ exists t, x = WC_Others t /\ web_category_str dbg x = "Others(" ++ dbg t ++ ")") /\
  (forall x, In (x, intrusion_category_str dbg x) intrusion_category_names) /\
  (forall x, In (x, http_method_str dbg x) http_method_names \/ exists t, x = HM_UNKNOWN t /\ http_method_str dbg x = "UNKNOWN(" ++ dbg t ++ ")") /\
  (forall x, In (x, web_protocol_str dbg x) web_protocol_names \/ exists t, x = WP_UNKNOWN t /\ web_protocol_str dbg x = "UNKNOWN(" ++ dbg t ++ ")") /\
  (forall x, In (x, fw_outcome_str x) fw_outcome_names) /\
  (forall x, In (x, dns_type_str x) dns_type_names) /\
  (forall x, In (x, dhcp_type_str x) dhcp_type_names) /\
  (forall x, In (x, web_outcome_str x) web_outcome_names) /\
  (forall x, In (x, intrusion_outcome_str x) intrusion_outcome_names) /\
  (forall x, In (x, login_outcome_str x) login_outcome_names).
Proof.
  intros dbg.
  assert (M : forall (A : Type) (f : A -> string) all names x, map (fun x => (x, f x)) all = names -> In x all -> In (x, f x) names).
  { intros A f all names x <- I. apply in_map_iff. eauto. }
  splits.
  - intros x. destruct (net_protocol_cases x) as [I|(t & ->)]; [left|right; eauto].
    apply (M _ (net_protocol_str dbg) net_protocol_all); [reflexivity|exact I].
  - intros x. destruct (web_category_cases x) as [I|(t & ->)]; [left|right; eauto].
    apply (M _ (web_category_str dbg) web_category_all); [reflexivity|exact I].
  - intros x. apply (M _ (intrusion_category_str dbg) intrusion_category_all); [reflexivity|apply intrusion_category_cases].
  - intros x; destruct x; first [left; solve [in_all] | right; eexists; split; reflexivity].
  - intros x; destruct x; first [left; solve [in_all] | right; eexists; split; reflexivity].
  - intros x; destruct x; solve [in_all].
  - intros x; destruct x; solve [in_all].
  - intros x; destruct x; solve [in_all].
  - intros x; destruct x; solve [in_all].
  - intros x; destruct x; solve [in_all].
  - intros x; destruct x; solve [in_all].
Qed.
Print Assumptions C22_names.

(** C22. The log has the four fields of a fresh log and one field per component, with its value. *)
Theorem C22_firewall : forall dbg e, log_iter (fw_log dbg e) = [
  ("destination.bytes", U64 (fw_in_bytes e)); ("destination.ip", IP (fw_destination_ip e)); ("destination.port", U64 (fw_destination_port e));
  ("event.created", Date 0); ("event.outcome", Text (fw_outcome_str (fw_out e))); ("event.received", Date 0); ("message", Text "");
  ("network.transport", Text (net_protocol_str dbg (fw_network_protocol e)));
  ("observer.egress.interface", Text (fw_out_interface e)); ("observer.ingress.interface", Text (fw_in_interface e)); ("origin", Text "");
  ("source.bytes", U64 (fw_out_bytes e)); ("source.ip", IP (fw_source_ip e)); ("source.port", U64 (fw_source_port e))].
Proof. reflexivity. Qed.
Print Assumptions C22_firewall.
Theorem C22_intrusion : forall dbg e, log_iter (intrusion_log dbg e) = [
  ("destination.ip", IP (in_destination_ip e)); ("destination.port", U64 (in_destination_port e)); ("event.created", Date 0);
  ("event.outcome", Text (intrusion_outcome_str (in_outcome e))); ("event.received", Date 0); ("message", Text "");
  ("network.protocol", Text (net_protocol_str dbg (in_network_protocol e))); ("origin", Text "");
  ("rule.category", Text (intrusion_category_str dbg (in_rule_category e))); ("rule.id", U64 (in_rule_id e)); ("rule.name", Text (in_rule_name e));
  ("source.ip", IP (in_source_ip e)); ("source.port", U64 (in_source_port e))].
Proof. reflexivity. Qed.
Print Assumptions C22_intrusion.
Definition opt {A} (n : string) (f : A -> field) (o : option A) : list (string * field) := match o with Some x => [(n, f x)] | None => [] end.
Theorem C22_webproxy : forall dbg e, log_iter (webproxy_log dbg e) = ([
  ("destination.bytes", U64 (wp_in_bytes e)); ("destination.ip", IP (wp_destination_ip e)); ("destination.port", U64 (wp_destination_port e));
  ("event.created", Date 0); ("event.outcome", Text (web_outcome_str (wp_outcome e))); ("event.received", Date 0);
  ("http.request.method", Text (http_method_str dbg (wp_http_method e))); ("http.response.mime_type", Text (wp_mime_type e));
  ("http.response.status_code", U64 (wp_http_code e)); ("message", Text ""); ("network.protocol", Text (web_protocol_str dbg (wp_protocol e)));
  ("origin", Text "")] ++ opt "rule.category" (fun c => Text (web_category_str dbg c)) (wp_rule_category e) ++ opt "rule.name" Text (wp_rule_name e) ++ [
  ("source.bytes", U64 (wp_out_bytes e)); ("source.ip", IP (wp_source_ip e)); ("url.domain", Text (wp_domain e)); ("url.full", Text (wp_url e));
  ("user.name", User (wp_user_name e))])%list.
Proof. intros dbg e. unfold webproxy_log. destruct (wp_rule_category e), (wp_rule_name e); reflexivity. Qed.
Print Assumptions C22_webproxy.
Theorem C22_webserver : forall dbg e, log_iter (webserver_log dbg e) = ([
  ("destination.bytes", U64 (ws_in_bytes e))] ++ opt "destination.ip" IP (ws_destination_ip e) ++ [("destination.port", U64 (ws_destination_port e));
  ("event.created", Date 0); ("event.outcome", Text (web_outcome_str (ws_outcome e))); ("event.received", Date 0);
  ("http.request.method", Text (http_method_str dbg (ws_http_method e))); ("http.response.mime_type", Text (ws_mime_type e));
  ("http.response.status_code", U64 (ws_http_code e)); ("message", Text ""); ("network.duration", F64 (ws_duration e));
  ("network.protocol", Text (web_protocol_str dbg (ws_protocol e))); ("origin", Text "");
  ("source.bytes", U64 (ws_out_bytes e)); ("source.ip", IP (ws_source_ip e)); ("url.domain", Text (ws_url_domain e));
  ("url.extension", Text (ws_url_extension e)); ("url.full", Text (ws_url_full e)); ("url.path", Text (ws_url_path e)); ("url.query", Text (ws_url_query e));
  ("user.name", User (ws_user_name e)); ("user_agent.original", Text (ws_user_agent e))])%list.
Proof. intros dbg e. unfold webserver_log. destruct (ws_destination_ip e); reflexivity. Qed.
Print Assumptions C22_webserver.
Theorem C22_dhcp : forall e, log_iter (dhcp_log e) = ([
  ("client.hostname", Text (dh_source_hostname e)); ("client.ip", IP (dh_source_ip e)); ("client.mac", Text (mac_u128_to_str (dh_source_mac e)));
  ("dhcp.type", Text (dhcp_type_str (dh_record_type e))); ("event.created", Date 0); ("event.received", Date 0);
  ("host.hostname", Text (dh_hostname e)); ("message", Text ""); ("origin", Text "")] ++
  match dh_record_type e with DR_Request => [("requested_ip", IP (dh_source_ip e))] | _ => [] end ++
  [("server.hostname", Text (dh_hostname e))])%list.
Proof. intros e. unfold dhcp_log. destruct (dh_record_type e); reflexivity. Qed.
Print Assumptions C22_dhcp.
Theorem C22_dns : forall e, log_iter (dns_log e) = ([("destination.ip", IP (dns_destination_ip e))] ++
  match dns_op_code e with
  | DO_ANSWER => opt "dns.answer.data" Text (dns_data e) ++ [("dns.answer.name", Text (dns_record_name e)); 
                 ("dns.answer.type", Text (dns_type_str (dns_record_type e))); ("dns.op_code", Text "ANSWER")]
  | DO_QUERY => [("dns.op_code", Text "QUERY"); ("dns.question.name", Text (dns_record_name e)); ("dns.question.type", Text (dns_type_str (dns_record_type e)))]
  end ++
  [("event.created", Date 0); ("event.received", Date 0); ("message", Text ""); ("origin", Text ""); ("source.ip", IP (dns_source_ip e))])%list.
Proof. intros e. unfold dns_log. destruct (dns_op_code e), (dns_data e); reflexivity. Qed.
Print Assumptions C22_dns.
(** Auth: the address of a remote login is kept as text and, when it parses, also as an IP. Never aborts. *)
Definition parsed (addr : string) (ip : option siem_ip) : Prop :=
  (exists a, ip = Some a /\ from_ip_str addr = Val (Ok a)) \/ (ip = None /\ exists m, from_ip_str addr = Val (Err m)).
Theorem C22_auth : forall e, exists g, auth_log e = Val g /\
  match au_login_type e with
  | LT_Local u d => log_iter g = [("event.created", Date 0); ("event.outcome", Text (login_outcome_str (au_outcome e))); ("event.received", Date 0);
      ("host.hostname", Text (au_hostname e)); ("message", Text ""); ("origin", Text ""); ("user.domain", Domain d); ("user.name", User u)]
  | LT_Remote u d addr => exists ip, parsed addr ip /\
      log_iter g = ([("event.created", Date 0); ("event.outcome", Text (login_outcome_str (au_outcome e))); ("event.received", Date 0);
      ("host.hostname", Text (au_hostname e)); ("message", Text ""); ("origin", Text ""); ("source.address", Text addr)] ++ opt "source.ip" IP ip ++
      [("user.domain", Domain d); ("user.name", User u)])%list
  | LT_Upgrade su du dd => log_iter g = [("event.created", Date 0); ("event.outcome", Text (login_outcome_str (au_outcome e))); ("event.received", Date 0);
      ("host.hostname", Text (au_hostname e)); ("message", Text ""); ("origin", Text ""); ("source.user.name", User su); ("user.domain", Domain dd); ("user.name", User du)]
  | LT_Validation u addr => exists ip, parsed addr ip /\
      log_iter g = ([("event.created", Date 0); ("event.outcome", Text (login_outcome_str (au_outcome e))); ("event.received", Date 0);
      ("host.hostname", Text (au_hostname e)); ("message", Text ""); ("origin", Text ""); ("source.address", Text addr)] ++ opt "source.ip" IP ip ++
      [("user.name", User u)])%list
  | LT_Delegation su sd du dd => log_iter g = [("event.created", Date 0); ("event.outcome", Text (login_outcome_str (au_outcome e))); ("event.received", Date 0);
      ("host.hostname", Text (au_hostname e)); ("message", Text ""); ("origin", Text ""); ("source.user.domain", Domain sd); ("source.user.name", User su);
      ("user.domain", Domain dd); ("user.name", User du)]
  end.
Proof.
  intros [t o h]. unfold auth_log. cbn [au_login_type au_outcome au_hostname].
  destruct t as [u d|u d addr|su du dd|u addr|su sd du dd]; try (eexists; split; reflexivity).
  - edestruct add_parsed_ip_total as (r & E & ->). cbn [obind]. eexists. split; [reflexivity|].
    destruct r as [a|m].
    + exists (Some a). split; [left; eauto|reflexivity].
    + exists None. split; [right; eauto|reflexivity].
  - edestruct add_parsed_ip_total as (r & E & ->). cbn [obind]. eexists. split; [reflexivity|].
    destruct r as [a|m].
    + exists (Some a). split; [left; eauto|reflexivity].
    + exists None. split; [right; eauto|reflexivity].
Qed.
Print Assumptions C22_auth.
Fixpoint fget (n : string) (l : list (string * field)) : option field :=
  match l with [] => None | (k, v) :: r => if String.eqb n k then Some v else fget n r end.
Lemma webproxy_gets dbg e : map (fun n => fget n (log_iter (webproxy_log dbg e)))
  ["destination.bytes"; "destination.ip"; "destination.port"; "event.outcome"; "http.request.method"; "http.response.mime_type"; "http.response.status_code";
   "network.protocol"; "source.bytes"; "source.ip"; "url.domain"; "url.full"; "user.name"; "rule.category"; "rule.name"] =
  [Some (U64 (wp_in_bytes e)); Some (IP (wp_destination_ip e)); Some (U64 (wp_destination_port e)); Some (Text (web_outcome_str (wp_outcome e)));
   Some (Text (http_method_str dbg (wp_http_method e))); Some (Text (wp_mime_type e)); Some (U64 (wp_http_code e)); Some (Text (web_protocol_str dbg (wp_protocol e)));
   Some (U64 (wp_out_bytes e)); Some (IP (wp_source_ip e)); Some (Text (wp_domain e)); Some (Text (wp_url e)); Some (User (wp_user_name e));
   option_map (fun c => Text (web_category_str dbg c)) (wp_rule_category e); option_map Text (wp_rule_name e)].
Proof. rewrite C22_webproxy. destruct (wp_rule_category e), (wp_rule_name e); reflexivity. Qed.
Lemma webserver_gets dbg e : map (fun n => fget n (log_iter (webserver_log dbg e)))
  ["destination.bytes"; "destination.ip"; "destination.port"; "event.outcome"; "http.request.method"; "http.response.mime_type"; "http.response.status_code";
   "network.protocol"; "source.bytes"; "source.ip"; "url.domain"; "url.full"; "url.path"; "url.query"; "url.extension"; "user.name"; "network.duration"; "user_agent.original"] =
  [Some (U64 (ws_in_bytes e)); option_map IP (ws_destination_ip e); Some (U64 (ws_destination_port e)); Some (Text (web_outcome_str (ws_outcome e)));
   Some (Text (http_method_str dbg (ws_http_method e))); Some (Text (ws_mime_type e)); Some (U64 (ws_http_code e)); Some (Text (web_protocol_str dbg (ws_protocol e)));
   Some (U64 (ws_out_bytes e)); Some (IP (ws_source_ip e)); Some (Text (ws_url_domain e)); Some (Text (ws_url_full e)); Some (Text (ws_url_path e));
   Some (Text (ws_url_query e)); Some (Text (ws_url_extension e)); Some (User (ws_user_name e)); Some (F64 (ws_duration e)); Some (Text (ws_user_agent e))].
Proof. rewrite C22_webserver. destruct (ws_destination_ip e); reflexivity. Qed.
Lemma option_map_inj {A B} (f : A -> B) a b : (forall x y, f x = f y -> x = y) -> option_map f a = option_map f b -> a = b.
Proof. intros I. destruct a, b; cbn; intros [=]; f_equal; auto. Qed.
(** Nothing is lost: different events give different logs. *)
Theorem C22_no_loss : forall dbg, (forall x y, dbg x = dbg y -> x = y) ->
  (forall a b, fw_log dbg a = fw_log dbg b -> a = b) /\
  (forall a b, intrusion_log dbg a = intrusion_log dbg b -> a = b) /\
  (forall a b, webproxy_log dbg a = webproxy_log dbg b -> a = b) /\
  (forall a b, webserver_log dbg a = webserver_log dbg b -> a = b).
Proof.
  intros dbg I. splits; intros a b E; apply (f_equal log_iter) in E.
  - rewrite !C22_firewall in E. injection E as E1 E2 E3 E4 E5 E6 E7 E8 E9 E10. apply fw_outcome_inj in E4. apply net_protocol_inj in E5; [|exact I].
    destruct a, b; cbn in *; congruence.
  - rewrite !C22_intrusion in E. injection E as E1 E2 E3 E4 E5 E6 E7 E8 E9. apply intrusion_outcome_inj in E3. apply net_protocol_inj in E4; [|exact I].
    apply intrusion_category_inj in E5. destruct a, b; cbn in *; congruence.
  - pose proof (webproxy_gets dbg a) as Ga. rewrite E, webproxy_gets in Ga. clear E.
    injection Ga as E1 E2 E3 E4 E5 E6 E7 E8 E9 E10 E11 E12 E13 E14 E15.
    apply web_outcome_inj in E4. apply http_method_inj in E5; [|exact I]. apply web_protocol_inj in E8; [|exact I].
    apply option_map_inj in E14; [|intros x y [= H]; exact (web_category_inj dbg x y I H)].
    apply option_map_inj in E15; [|intros x y [= H]; exact H].
    destruct a as [a0 a1 a2 a3 a4 a5 a6 a7 a8 a9 a10 a11 a12 a13 a14], b as [b0 b1 b2 b3 b4 b5 b6 b7 b8 b9 b10 b11 b12 b13 b14]; cbn [wp_source_ip wp_destination_ip wp_destination_port wp_in_bytes wp_out_bytes wp_http_code wp_http_method wp_url wp_domain wp_protocol wp_user_name wp_mime_type wp_outcome wp_rule_name wp_rule_category] in *. subst. reflexivity.
  - pose proof (webserver_gets dbg a) as Ga. rewrite E, webserver_gets in Ga. clear E.
    injection Ga as E1 E2 E3 E4 E5 E6 E7 E8 E9 E10 E11 E12 E13 E14 E15 E16 E17 E18.
    apply web_outcome_inj in E4. apply http_method_inj in E5; [|exact I]. apply web_protocol_inj in E8; [|exact I].
    apply option_map_inj in E2; [|intros x y [= H]; exact H].
    destruct a as [a0 a1 a2 a3 a4 a5 a6 a7 a8 a9 a10 a11 a12 a13 a14 a15 a16 a17], b as [b0 b1 b2 b3 b4 b5 b6 b7 b8 b9 b10 b11 b12 b13 b14 b15 b16 b17]; cbn [ws_source_ip ws_destination_ip ws_destination_port ws_in_bytes ws_out_bytes ws_http_code ws_duration ws_http_method ws_user_agent ws_url_full ws_url_domain ws_url_path ws_url_query ws_url_extension ws_protocol ws_user_name ws_mime_type ws_outcome] in *. subst. reflexivity.
Qed.
Print Assumptions C22_no_loss.
Theorem C22_auth_no_loss : forall a b g, auth_log a = Val g -> auth_log b = Val g -> a = b.
Proof.
  intros a b g Ha Hb. destruct (C22_auth a) as (g1 & E1 & H1), (C22_auth b) as (g2 & E2 & H2).
  assert (g1 = g) by congruence. assert (g2 = g) by congruence. subst g1 g2. clear Ha Hb E1 E2.
  destruct a as [[?|?|?|?|?] o1 h1], b as [[?|?|?|?|?] o2 h2]; cbn [au_login_type au_outcome au_hostname] in *;
    repeat match goal with H : exists ip, _ |- _ => destruct H as ([?|] & _ & H) end;
    rewrite H1 in H2; cbn [opt app] in H2; try discriminate H2; injection H2; intros;
    repeat match goal with H : login_outcome_str _ = _ |- _ => apply login_outcome_inj in H end; congruence.
Qed.
Print Assumptions C22_auth_no_loss.
(** Exceptions: the data of a DNS query is dropped, and MAC addresses of different widths can look alike (C08). *)
Theorem C108_dns_query_data_refuted : exists a b, a <> b /\ dns_log a = dns_log b.
Proof.
  exists (mkDns (V4 0%N) (V4 0%N) DO_QUERY DT_A "x" (Some "d")), (mkDns (V4 0%N) (V4 0%N) DO_QUERY DT_A "x" None).
  split; [discriminate|reflexivity].
Qed.
Print Assumptions C108_dns_query_data_refuted.
Theorem C22_dns_no_loss : forall a b, (dns_op_code a = DO_QUERY -> dns_data a = None) -> (dns_op_code b = DO_QUERY -> dns_data b = None) ->
  dns_log a = dns_log b -> a = b.
Proof.
  intros a b Ka Kb E. apply (f_equal log_iter) in E. rewrite !C22_dns in E.
  destruct a as [a1 a2 [] a4 a5 [a6|]], b as [b1 b2 [] b4 b5 [b6|]]; cbn [dns_source_ip dns_destination_ip dns_op_code dns_record_type dns_record_name dns_data opt app] in *;
    try discriminate E; try (specialize (Ka eq_refl); discriminate Ka); try (specialize (Kb eq_refl); discriminate Kb); injection E; intros;
    repeat match goal with H : dns_type_str _ = _ |- _ => apply dns_type_inj in H end; congruence.
Qed.
Print Assumptions C22_dns_no_loss.
Theorem C22_dhcp_no_loss : forall a b, dhcp_log a = dhcp_log b ->
  mac_u128_to_str (dh_source_mac a) = mac_u128_to_str (dh_source_mac b) /\ dh_source_ip a = dh_source_ip b /\
  dh_record_type a = dh_record_type b /\ dh_source_hostname a = dh_source_hostname b /\ dh_hostname a = dh_hostname b.
Proof.
  intros a b E. apply (f_equal log_iter) in E. rewrite !C22_dhcp in E.
  destruct a as [a1 a2 [] a4 a5], b as [b1 b2 [] b4 b5]; cbn [dh_source_ip dh_source_mac dh_record_type dh_source_hostname dh_hostname app] in *;
    try discriminate E; injection E; intros; splits; congruence.
Qed.
Print Assumptions C22_dhcp_no_loss.
(** The whole-event conversion never aborts, and events without structure give a blank log. *)
Theorem C22_event : forall dbg e, exists g, event_log dbg e = Val g /\ (forall v, e = EvOther v -> log_iter g = log_iter (log_new "" 0 "")).
Proof.
  intros dbg []; cbn [event_log]; try (eexists; split; [reflexivity|discriminate]).
  - destruct (C22_auth e) as (g & E & _). exists g. split; [exact E|discriminate].
  - eexists. split; reflexivity.
Qed.
Print Assumptions C22_event.
Example C22_nonvacuous : dns_op_code (mkDns (V4 1%N) (V4 2%N) DO_ANSWER DT_MX "a.b" (Some "c")) = DO_QUERY -> dns_data (mkDns (V4 1%N) (V4 2%N) DO_ANSWER DT_MX "a.b" (Some "c")) = None.
Proof. discriminate. Qed.

(** C126. Full property: every field of a converted event is declared by the default schema, so applying it loses nothing. *)
Theorem C126_dns_data_refuted : let g := dns_log (mkDns (V4 1%N) (V4 2%N) DO_ANSWER DT_A "a" (Some "10.0.0.1")) in
  log_field "dns.answer.data" g = Some (Text "10.0.0.1") /\ log_field "dns.answer.data" (apply_schema get_default_schema g) = None.
Proof. split; vm_compute; reflexivity. Qed.
Print Assumptions C126_dns_data_refuted.
Theorem C126_dhcp_requested_ip_refuted : let g := dhcp_log (mkDhcp (V4 1%N) 5%N DR_Request "c" "s") in
  log_field "requested_ip" g = Some (IP (V4 1%N)) /\ log_field "requested_ip" (apply_schema get_default_schema g) = None /\
  get_field "dhcp.requested_ip" get_default_schema <> None.
Proof. intros g. splits; [vm_compute; reflexivity|vm_compute; reflexivity|vm_compute; discriminate]. Qed.
Print Assumptions C126_dhcp_requested_ip_refuted.
(** Exactly those two fields (and the two timestamps, C20) are lost. *)
Theorem C62_all_but_two : forall dbg e g n v, event_log dbg e = Val g -> In (n, v) (log_iter g) ->
  n <> "event.created" -> n <> "event.received" -> n <> "dns.answer.data" -> n <> "requested_ip" ->
  get_field n get_default_schema <> None.
Proof.
  intros dbg e g n v E Hin N1 N2 N3 N4.
  assert (F : forallb (fun p => (bt_has (fst p) (s_fields get_default_schema) || existsb (String.eqb (fst p)) ["event.created"; "event.received"; "dns.answer.data"; "requested_ip"])%bool) (log_iter g) = true).
  { destruct e as [e|e|e|e|e|e|e|v0]; cbn [event_log] in E.
    - injection E as <-. rewrite C22_firewall. reflexivity.
    - injection E as <-. rewrite C22_intrusion. reflexivity.
    - injection E as <-. rewrite C22_webproxy. destruct (wp_rule_category e), (wp_rule_name e); reflexivity.
    - injection E as <-. rewrite C22_webserver. destruct (ws_destination_ip e); reflexivity.
    - injection E as <-. rewrite C22_dns. destruct (dns_op_code e), (dns_data e); reflexivity.
    - injection E as <-. rewrite C22_dhcp. destruct (dh_record_type e); reflexivity.
    - destruct (C22_auth e) as (g' & E' & H). assert (g' = g) by congruence. subst g'.
      destruct (au_login_type e); try (destruct H as ([?|] & _ & H)); rewrite H; reflexivity.
    - injection E as <-. reflexivity. }
  rewrite forallb_forall in F. specialize (F _ Hin). cbn [fst] in F. apply orb_true_iff in F as [F|F].
  - apply has_declared, F.
  - exfalso. apply existsb_exists in F as (x & Hx & Ex). apply String.eqb_eq in Ex. subst x.
    destruct Hx as [H|[H|[H|[H|[]]]]]; symmetry in H; contradiction.
Qed.
Print Assumptions C62_all_but_two.

Lemma lookup_big id m l : (m <= id)%N -> forallb (fun p => (fst p <? m)%N) l = true -> lookup id l = None.
Proof.
  intros H. induction l as [|[k v] l IH]; cbn [forallb lookup fst]; [reflexivity|]. intros F. apply andb_true_iff in F as [F1 F2].
  destruct (N.eqb_spec id k); [lia|auto].
Qed.
(** C54. *)
Theorem C54_protocol_ids : forall dbg id, to_upper (net_protocol_str dbg (parse_protocol_id id)) =
  match lookup id iana with Some keyword => ident keyword | None => "UNKNOWN" end.
Proof.
  intros dbg id. destruct (N.ltb_spec id 256) as [H|H].
  - assert (S : forallb (fun k => let id := N.of_nat k in String.eqb (to_upper (net_protocol_str dbg (parse_protocol_id id)))
        (match lookup id iana with Some keyword => ident keyword | None => "UNKNOWN" end)) (seq 0 256) = true) by (vm_compute; reflexivity).
    rewrite forallb_forall in S. specialize (S (N.to_nat id)). rewrite N2Nat.id in S. apply String.eqb_eq, S. apply in_seq. lia.
  - assert (E : parse_protocol_id id = NP_UNKNOWN).
    { destruct id as [|p]; [lia|]. do 8 (destruct p as [p|p|]; try lia; try reflexivity). }
    rewrite E. assert (L : lookup id iana = None); [|rewrite L; reflexivity].
    apply lookup_big with (m := 256%N); [exact H|vm_compute; reflexivity].
Qed.
Print Assumptions C54_protocol_ids.
(** Distinct assigned numbers give distinct protocols, except the two "Use" ones. *)
Theorem C54_distinct : forall i j, parse_protocol_id i = parse_protocol_id j -> parse_protocol_id i <> NP_UNKNOWN -> i <> j ->
  (i = 253 \/ i = 254)%N /\ (j = 253 \/ j = 254)%N.
Proof.
  intros i j E NU Hij.
  assert (B : forall k, parse_protocol_id k <> NP_UNKNOWN -> (k < 256)%N).
  { intros k Hk. destruct (N.ltb_spec k 256) as [H|H]; [exact H|]. exfalso. apply Hk.
    destruct k as [|p]; [lia|]. do 8 (destruct p as [p|p|]; try lia; try reflexivity). }
  assert (Hi := B i NU). assert (Hj : (j < 256)%N) by (apply B; congruence).
  assert (S : (fun t => forallb (fun p => forallb (fun q =>
     (negb (String.eqb (snd p) (snd q)) || String.eqb (snd p) "UNKNOWN" || N.eqb (fst p) (fst q)
      || (N.ltb 252 (fst p) && N.ltb (fst p) 255 && N.ltb 252 (fst q) && N.ltb (fst q) 255))%bool) t) t)
     (map (fun a => (N.of_nat a, net_protocol_str id (parse_protocol_id (N.of_nat a)))) (seq 0 256)) = true) by (vm_compute; reflexivity).
  assert (T : forall k, (k < 256)%N -> In (k, net_protocol_str id (parse_protocol_id k))
     (map (fun a => (N.of_nat a, net_protocol_str id (parse_protocol_id (N.of_nat a)))) (seq 0 256))).
  { intros k Hk. apply in_map_iff. exists (N.to_nat k). rewrite N2Nat.id. split; [reflexivity|]. apply in_seq. lia. }
  cbv beta in S. rewrite forallb_forall in S. specialize (S _ (T i Hi)).
  rewrite forallb_forall in S. specialize (S _ (T j Hj)). cbn [fst snd] in S.
  rewrite <- E, String.eqb_refl in S. cbn [negb orb] in S.
  destruct (String.eqb_spec (net_protocol_str id (parse_protocol_id i)) "UNKNOWN") as [U|U].
  - exfalso. apply NU. apply (net_protocol_inj id); [auto|exact U].
  - cbn [orb] in S. lia.
Qed.
Print Assumptions C54_distinct.
Example C54_nonvacuous : parse_protocol_id 17 = NP_UDP /\ parse_protocol_id 61 = NP_UNKNOWN /\ parse_protocol_id 65535 = NP_UNKNOWN.
Proof. splits; reflexivity. Qed.

(** C55. The standard methods, each with its variant. *)
Definition standard : list (string * http_method) :=
  [("GET", HM_GET); ("POST", HM_POST); ("PUT", HM_PUT); ("PATCH", HM_PATCH); ("OPTIONS", HM_OPTIONS); ("CONNECT", HM_CONNECT); ("HEAD", HM_HEAD)].
(** C122. Full property: [In (n, m) standard -> to_upper s = n -> http_from_str s = m]. *)
Theorem C122_put_refuted : forall s, to_upper s = "PUT" -> http_from_str s = HM_UNKNOWN "PUT".
Proof. intros s H. unfold http_from_str. rewrite H. reflexivity. Qed.
Print Assumptions C122_put_refuted.
Theorem C55_methods : forall s n m, In (n, m) standard -> n <> "PUT" -> to_upper s = n -> http_from_str s = m /\ http_equals m n = true.
Proof.
  intros s n m H Hn Hs. unfold http_from_str. rewrite Hs. cbn [standard In] in H.
  repeat destruct H as [[= <- <-]|H]; try (split; reflexivity); [contradiction|destruct H].
Qed.
Print Assumptions C55_methods.
(** Any other text is kept (in upper case) as unknown; and no text parses to a method of another name. *)
Theorem C55_unknown : forall s, (forall m, ~ In (to_upper s, m) standard) -> to_upper s <> "UNDEFINED" -> http_from_str s = HM_UNKNOWN (to_upper s).
Proof.
  intros s H Hu. unfold http_from_str. cbv zeta.
  repeat match goal with |- context [String.eqb (to_upper s) ?k] => destruct (String.eqb_spec (to_upper s) k) as [E|_];
     [exfalso; try contradiction; rewrite E in H; eapply H; cbn [standard In]; intuition reflexivity|] end.
  reflexivity.
Qed.
Print Assumptions C55_unknown.
Theorem C55_sound : forall s m, http_from_str s = m -> match m with HM_UNKNOWN t => t = to_upper s | _ => http_equals m (to_upper s) = true end.
Proof.
  intros s m <-. unfold http_from_str. cbv zeta.
  repeat match goal with |- context [if String.eqb (to_upper s) ?k then _ else _] => destruct (String.eqb_spec (to_upper s) k) as [E|_]; [rewrite E; reflexivity|] end.
  reflexivity.
Qed.
Print Assumptions C55_sound.
(** [equals] holds of exactly one text: the method's name, which for the others is UNKNOWN or UNDEFINED; firewall outcomes
    likewise. *)
Theorem C55_equals : (forall n m v, In (n, m) standard -> (http_equals m v = true <-> v = n)) /\
  (forall u v, http_equals (HM_UNKNOWN u) v = true <-> v = "UNKNOWN") /\
  (forall v, http_equals HM_UNDEFINED v = true <-> v = "UNDEFINED") /\
  (forall o v, fw_outcome_equals o v = true <-> v = fw_outcome_str o).
Proof.
  splits.
  - intros n m v H. cbn in H. repeat (destruct H as [H|H]; [injection H as <- <-; apply String.eqb_eq|]). contradiction.
  - intros u v. apply String.eqb_eq.
  - intros v. apply String.eqb_eq.
  - intros o v. destruct o; cbn; apply String.eqb_eq.
Qed.
Print Assumptions C55_equals.
Example C55_nonvacuous : http_from_str "pAtch" = HM_PATCH /\ http_from_str "brew" = HM_UNKNOWN "BREW".
Proof. split; reflexivity. Qed.
