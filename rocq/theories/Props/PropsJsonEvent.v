(** Property C95: structured events in JSON (src/events/event.rs). *)
From Coq Require Import String NArith ZArith List Bool Floats.SpecFloat Lia.
From Verif Require Import Base.Arith Base.Ord Base.BTree Base.Outcome Model.Ip Model.Field Model.EventEnums Model.Events Model.Json Model.JsonField
  Model.JsonCommand Model.JsonEvent Spec.FieldSpec Spec.JsonSpec Spec.JsonMoreSpec Spec.JsonEventSpec Proofs.JsonP Proofs.JsonCmdP.
Import ListNotations.
Local Open Scope string_scope.
Local Open Scope list_scope.

Lemma rest_of_tagged tag l : ~ In "event_type" (map fst l) -> tag_and_rest "event_type" (tagged_event tag l) = Some (tag, JObj l).
Proof.
  intros N. unfold tag_and_rest, tagged_event. unfold entries. cbn [filter fst]. change (String.eqb "event_type" "event_type") with true. cbv iota.
  assert (E : filter (fun e : string * json => String.eqb (fst e) "event_type") l = []
              /\ filter (fun e : string * json => negb (String.eqb (fst e) "event_type")) l = l).
  { induction l as [|[k v] r IH]; [split; reflexivity|]. cbn [filter fst map] in *. destruct (String.eqb_spec k "event_type") as [->|D].
    - exfalso. apply N. left. reflexivity.
    - destruct IH as [A B]; [intros I; apply N; right; exact I|]. cbn [negb]. rewrite A, B. split; reflexivity. }
  destruct E as [A B]. rewrite A. cbn [map snd negb filter]. rewrite B. reflexivity.
Qed.
Ltac no_tag := cbn [map fst In]; intuition discriminate.


Lemma content_never a : ip_of_content (json_of_ip a) = None.
Proof. exact (proj2 (ip_text_fails _)). Qed.
Ltac never := fields; rewrite content_never; reflexivity.
Lemma fw_never e l : fw_entries e = Some l -> fw_of_json (JObj l) = None /\ ~ In "event_type" (map fst l).
Proof.
  unfold fw_entries. destruct (json_of_net_protocol _) as [np|]; [|discriminate]. intros [= <-]. split; [|no_tag]. unfold fw_of_json. never.
Qed.
Lemma intrusion_never e l : intrusion_entries e = Some l -> intrusion_of_json (JObj l) = None /\ ~ In "event_type" (map fst l).
Proof.
  unfold intrusion_entries. destruct (json_of_net_protocol _) as [np|]; [|discriminate]. intros [= <-]. split; [|no_tag]. unfold intrusion_of_json. never.
Qed.
Lemma webproxy_never e : webproxy_of_json (JObj (webproxy_entries e)) = None /\ ~ In "event_type" (map fst (webproxy_entries e)).
Proof. unfold webproxy_entries. split; [|no_tag]. unfold webproxy_of_json. never. Qed.
Lemma webserver_never io e : webserver_of_json io (JObj (webserver_entries io e)) = None /\ ~ In "event_type" (map fst (webserver_entries io e)).
Proof. unfold webserver_entries. split; [|no_tag]. unfold webserver_of_json. never. Qed.
Lemma dns_never e : dns_of_json (JObj (dns_entries e)) = None /\ ~ In "event_type" (map fst (dns_entries e)).
Proof. unfold dns_entries. split; [|no_tag]. unfold dns_of_json. never. Qed.
Lemma dhcp_never e : dhcp_of_json (JObj (dhcp_entries e)) = None /\ ~ In "event_type" (map fst (dhcp_entries e)).
Proof. unfold dhcp_entries. split; [|no_tag]. unfold dhcp_of_json. never. Qed.
Lemma login_type_rt t : login_type_of_json (json_of_login_type t) = Some t.
Proof. destruct t; reflexivity. Qed.
Lemma login_outcome_rt o : login_outcome_of_json (JStr (login_outcome_str o)) = Some o.
Proof. destruct o; reflexivity. Qed.
Lemma auth_rt e : auth_of_json (JObj (auth_entries e)) = Some e /\ ~ In "event_type" (map fst (auth_entries e)).
Proof.
  destruct e as [t o h]. unfold auth_entries. cbn [au_login_type au_outcome au_hostname]. split; [|no_tag]. unfold auth_of_json. fields.
  rewrite login_type_rt, login_outcome_rt. reflexivity.
Qed.

Lemma value_rt io v : value_ok io v -> value_of_json io v = Some v.
Proof.
  induction 1 as [| | |z H|x F R|l H IH|l W H IH]; try reflexivity.
  - unfold value_of_json, read_number. destruct (Z.leb_spec 0 z).
    + assert (E : (z <? 2 ^ 64)%Z = true) by lia. rewrite E. cbn [andb]. rewrite Z2N.id by lia. reflexivity.
    + assert (E : (- 2 ^ 63 <=? z)%Z && (z <? 0)%Z = true) by lia. cbn [andb]. rewrite E. reflexivity.
  - unfold value_of_json, read_number. rewrite R. apply is_finite_iff in F. unfold json_of_f64. rewrite F. reflexivity.
  - cbn [value_of_json].
    assert (G : (fix go l := match l with [] => Some [] | x :: r => let? y := value_of_json io x in let? ys := go r in Some (y :: ys) end) l = Some l).
    { clear H. induction l as [|x r IHl]; [reflexivity|]. rewrite (IH x (or_introl eq_refl)). rewrite IHl; [reflexivity|]. intros y I. apply IH. right. exact I. }
    rewrite G. reflexivity.
  - cbn [value_of_json].
    assert (G : (fix go l := match l with [] => Some [] | (k, x) :: r => let? y := value_of_json io x in let? ys := go r in Some ((k, y) :: ys) end) l = Some l).
    { clear H W. induction l as [|[k x] r IHl]; [reflexivity|]. rewrite (IH k x (or_introl eq_refl)). rewrite IHl; [reflexivity|].
      intros k' y I. apply (IH k'). right. exact I. }
    rewrite G. rewrite (of_list_sorted l W). reflexivity.
Qed.

(** * C95 *)

Definition event_roundtrip := forall io e, event_ok e -> exists j, json_of_event io e = Some j /\ event_of_json io j = Some e.

(** Which events can be written: all but those with a protocol of their own, and JSON values that are neither an object nor [null]. *)
Theorem C95_written : forall io e, json_of_event io e = None <->
  other_protocol e \/ exists v, e = EvJson v /\ v <> JNull /\ forall l, v <> JObj l.
Proof.
  intros io e. split.
  - destruct e as [[e|e|e|e|e|e|e|v]|v]; cbn [json_of_event other_protocol]; try discriminate.
    + unfold fw_entries. destruct (fw_network_protocol e); try discriminate. intros _. left. eauto.
    + unfold intrusion_entries. destruct (in_network_protocol e); try discriminate. intros _. left. eauto.
    + destruct v; try discriminate; intros _; right; eexists; (split; [reflexivity|]); split; congruence.
  - intros [H|(v & -> & N & O)].
    + destruct e as [[e|e|e|e|e|e|e|v]|v]; cbn [other_protocol] in H; try contradiction; destruct H as (s & E); cbn [json_of_event];
        unfold fw_entries, intrusion_entries; rewrite E; reflexivity.
    + destruct v; try reflexivity; [congruence|]. exfalso. apply (O l). reflexivity.
Qed.
Print Assumptions C95_written.
Theorem C152_other_protocol_refuted : ~ (forall io e, event_ok e -> json_of_event io e <> None).
Proof.
  intros H. apply (H (Build_event_io (Build_float_io Some (fun _ => None)) (fun x => x) (fun x => x))
    (Ev (EvFirewall (mkFw (V4 1) (V4 2) 1 2 (NP_OTHER "MINE") FO_ALLOW 0 0 "" ""))) I). reflexivity.
Qed.
Print Assumptions C152_other_protocol_refuted.

(** An event that holds an address is never read. *)
Theorem C152_address_refuted : forall io e j, holds_address e -> json_of_event io e = Some j -> event_of_json io j = None.
Proof.
  intros io e j H. destruct e as [[e|e|e|e|e|e|e|v]|v]; try contradiction; cbn [json_of_event]; clear H.
  - destruct (fw_entries e) as [l|] eqn:L; [|discriminate]. intros [= <-]. destruct (fw_never _ _ L) as [A B].
    unfold event_of_json. rewrite (rest_of_tagged "Firewall" l B). cbn [String.eqb Ascii.eqb Bool.eqb]. rewrite A. reflexivity.
  - destruct (intrusion_entries e) as [l|] eqn:L; [|discriminate]. intros [= <-]. destruct (intrusion_never _ _ L) as [A B].
    unfold event_of_json. rewrite (rest_of_tagged "Intrusion" l B). cbn [String.eqb Ascii.eqb Bool.eqb]. rewrite A. reflexivity.
  - intros [= <-]. destruct (webproxy_never e) as [A B]. unfold event_of_json. rewrite (rest_of_tagged "WebProxy" _ B).
    cbn [String.eqb Ascii.eqb Bool.eqb]. rewrite A. reflexivity.
  - intros [= <-]. destruct (webserver_never io e) as [A B]. unfold event_of_json. rewrite (rest_of_tagged "WebServer" _ B).
    cbn [String.eqb Ascii.eqb Bool.eqb]. rewrite A. reflexivity.
  - intros [= <-]. destruct (dns_never e) as [A B]. unfold event_of_json. rewrite (rest_of_tagged "DNS" _ B).
    cbn [String.eqb Ascii.eqb Bool.eqb]. rewrite A. reflexivity.
  - intros [= <-]. destruct (dhcp_never e) as [A B]. unfold event_of_json. rewrite (rest_of_tagged "DHCP" _ B).
    cbn [String.eqb Ascii.eqb Bool.eqb]. rewrite A. reflexivity.
Qed.
Print Assumptions C152_address_refuted.
Theorem C152_roundtrip_refuted : ~ event_roundtrip.
Proof.
  intros H. set (io := Build_event_io (Build_float_io Some (fun _ => None)) (fun x => x) (fun x => x)).
  set (e := Ev (EvDNS (mkDns (V4 1) (V4 2) DO_QUERY DT_A "a.com" None))). destruct (H io e I) as (j & A & B).
  rewrite (C152_address_refuted io e j I A) in B. discriminate.
Qed.
Print Assumptions C152_roundtrip_refuted.
(** Logins and the events without payload are read as they were. *)
Theorem C95_roundtrip : forall io e, event_ok e -> ~ holds_address e -> (forall v, e <> EvJson v) ->
  exists j, json_of_event io e = Some j /\ event_of_json io j = Some e.
Proof.
  intros io e K N J. destruct e as [[e|e|e|e|e|e|e|v]|v]; try (exfalso; apply N; exact I); [| |exfalso; apply (J v); reflexivity].
  - destruct (auth_rt e) as [A B]. eexists. split; [reflexivity|]. unfold event_of_json. rewrite (rest_of_tagged "Auth" _ B).
    cbn [String.eqb Ascii.eqb Bool.eqb]. rewrite A. reflexivity.
  - eexists. split; [reflexivity|]. unfold event_of_json. rewrite (rest_of_tagged v []) by (intros []).
    cbn [event_ok In] in K. repeat (destruct K as [<-|K]; [reflexivity|]). contradiction.
Qed.
Print Assumptions C95_roundtrip.
(** So is a JSON object, if it has no entry [event_type]. *)
Theorem C95_json : forall io (l : bt string json), value_ok (eio io) (JObj l) -> ~ In "event_type" (map fst l) ->
  exists j, json_of_event io (EvJson (JObj l)) = Some j /\ event_of_json io j = Some (EvJson (JObj l)).
Proof.
  intros io l K N. eexists. split; [reflexivity|]. unfold event_of_json. rewrite (rest_of_tagged "Json" _ N).
  cbn [String.eqb Ascii.eqb Bool.eqb]. rewrite (value_rt _ _ K). reflexivity.
Qed.
Print Assumptions C95_json.
(** With such an entry it is not read, and [null] becomes an empty object. *)
Theorem C152_json_tag_refuted : forall io l, In "event_type" (map fst l) ->
  exists j, json_of_event io (EvJson (JObj l)) = Some j /\ event_of_json io j = None.
Proof.
  intros io l I. eexists. split; [reflexivity|]. unfold event_of_json, tag_and_rest, tagged_event, entries. cbn [filter fst].
  change (String.eqb "event_type" "event_type") with true. cbv iota. apply in_map_iff in I. destruct I as ([k v] & E & I). cbn [fst] in E. subst k.
  assert (F : In ("event_type", v) (filter (fun e : string * json => String.eqb (fst e) "event_type") l)) by (apply filter_In; split; [exact I|reflexivity]).
  destruct (filter _ l) as [|[a b] r]; [destruct F|]. reflexivity.
Qed.
Print Assumptions C152_json_tag_refuted.
Theorem C152_json_null_refuted : forall io, exists j, json_of_event io (EvJson JNull) = Some j /\ event_of_json io j = Some (EvJson (JObj [])).
Proof. intros io. eexists. split; reflexivity. Qed.
Print Assumptions C152_json_null_refuted.

(** What a reader finds: the kind of the event and every value under its own name; addresses as text. *)
Ltac find_key := match goal with
  | |- at_key ?k (JObj ?l) _ => let rec go pre rest := match rest with
      | (k, _) :: ?r => exists pre, r; split; [reflexivity|cbn [app map fst In]; intuition discriminate]
      | ?e :: ?r => let p := eval cbv [app] in (pre ++ [e]) in go p r
      end in go (@nil (string * json)) l
  end.
Ltac find_keys := intros k v I; cbn [In] in I; repeat (destruct I as [I|I]; [injection I as <- <-; find_key|]); contradiction.
Theorem C95_shown : forall io e j, json_of_event io (Ev e) = Some j -> has j (event_values (fun a => JStr (ip_to_string a)) (duration_shown io) e).
Proof.
  intros io e j. destruct e as [e|e|e|e|e|e|e|w]; cbn [json_of_event event_values].
  - unfold fw_entries. destruct (json_of_net_protocol (fw_network_protocol e)) as [np|] eqn:E; [|discriminate].
    intros [= <-]. assert (np = JObj [("np_type", JStr (net_protocol_str (fun s => s) (fw_network_protocol e)))]) as ->.
    { destruct (fw_network_protocol e); cbn in E |- *; congruence. }
    unfold tagged_event. find_keys.
  - unfold intrusion_entries. destruct (json_of_net_protocol (in_network_protocol e)) as [np|] eqn:E; [|discriminate].
    intros [= <-]. assert (np = JObj [("np_type", JStr (net_protocol_str (fun s => s) (in_network_protocol e)))]) as ->.
    { destruct (in_network_protocol e); cbn in E |- *; congruence. }
    unfold tagged_event. find_keys.
  - intros [= <-].
    assert (A : http_shown (wp_http_method e) = json_of_http (wp_http_method e)) by (destruct (wp_http_method e); reflexivity).
    assert (B : web_protocol_shown (wp_protocol e) = json_of_web_protocol (wp_protocol e)) by (destruct (wp_protocol e); reflexivity).
    assert (C : option_shown JStr (wp_rule_name e) = json_of_option JStr (wp_rule_name e)) by (destruct (wp_rule_name e); reflexivity).
    assert (D : option_shown category_shown (wp_rule_category e) = json_of_option json_of_web_category (wp_rule_category e))
      by (destruct (wp_rule_category e) as [[]|]; reflexivity).
    rewrite A, B, C, D. unfold tagged_event, webproxy_entries. find_keys.
  - intros [= <-].
    assert (A : http_shown (ws_http_method e) = json_of_http (ws_http_method e)) by (destruct (ws_http_method e); reflexivity).
    assert (B : web_protocol_shown (ws_protocol e) = json_of_web_protocol (ws_protocol e)) by (destruct (ws_protocol e); reflexivity).
    assert (C : option_shown (fun a => JStr (ip_to_string a)) (ws_destination_ip e) = json_of_option json_of_ip (ws_destination_ip e))
      by (destruct (ws_destination_ip e); reflexivity).
    assert (D : duration_shown io (ws_duration e) = json_of_f64 (f32_write io (ws_duration e)))
      by (unfold duration_shown; destruct (f32_write io (ws_duration e)); reflexivity).
    rewrite A, B, C, D. unfold tagged_event, webserver_entries. find_keys.
  - intros [= <-].
    assert (C : option_shown JStr (dns_data e) = json_of_option JStr (dns_data e)) by (destruct (dns_data e); reflexivity).
    assert (D : (match dns_op_code e with DO_ANSWER => "ANSWER" | DO_QUERY => "QUERY" end) = dns_op_name (dns_op_code e))
      by (destruct (dns_op_code e); reflexivity).
    rewrite C, D. unfold tagged_event, dns_entries. find_keys.
  - intros [= <-]. unfold tagged_event, dhcp_entries. find_keys.
  - intros [= <-].
    assert (C : login_shown (au_login_type e) = json_of_login_type (au_login_type e)) by (destruct (au_login_type e); reflexivity).
    rewrite C. unfold tagged_event, auth_entries. find_keys.
  - intros [= <-]. unfold tagged_event. find_keys.
Qed.
Print Assumptions C95_shown.
Theorem C95_json_shown : forall io (l : bt string json) j, sorted l -> ~ In "event_type" (map fst l) -> json_of_event io (EvJson (JObj l)) = Some j ->
  has j (("event_type", JStr "Json") :: l).
Proof.
  intros io l j W N [= <-] k v [I|I].
  - injection I as <- <-. exists [], l. split; [reflexivity|exact N].
  - destruct (in_split _ _ I) as (a & b & ->). exists (("event_type", JStr "Json") :: a), b. split; [reflexivity|].
    cbn [app map fst]. pose proof (bt_keys_nodup _ W) as D. unfold bt_keys in D. rewrite map_app in D. cbn [map fst] in D. apply NoDup_remove_2 in D.
    rewrite map_app. intros [E|E]; [|exact (D E)]. apply N. rewrite E. apply in_map_iff. exists (k, v). split; [reflexivity|exact I].
Qed.
Print Assumptions C95_json_shown.

(** * What is read: an object with the values under their names, addresses given by family and number. Order and other entries do not matter. *)

Lemma filter_key_none (l : list (string * json)) k : ~ In k (map fst l) -> filter (fun e => String.eqb (fst e) k) l = [].
Proof.
  intros N. induction l as [|[a b] r IH]; [reflexivity|]. cbn [filter fst]. destruct (String.eqb_spec a k) as [->|D].
  - exfalso. apply N. left. reflexivity.
  - apply IH. intros I. apply N. right. exact I.
Qed.
Lemma entries_at k l v : at_key k (JObj l) v -> entries k l = [v].
Proof.
  intros (a & b & [= ->] & N). unfold entries. rewrite filter_app. cbn [filter fst]. rewrite String.eqb_refl.
  rewrite map_app, in_app_iff in N. rewrite (filter_key_none a), (filter_key_none b) by tauto. reflexivity.
Qed.
Lemma at_key_rest k l v : at_key k (JObj l) v -> k <> "event_type" ->
  at_key k (JObj (filter (fun e => negb (String.eqb (fst e) "event_type")) l)) v.
Proof.
  intros (a & b & [= ->] & N) D. exists (filter (fun e => negb (String.eqb (fst e) "event_type")) a), (filter (fun e => negb (String.eqb (fst e) "event_type")) b).
  split.
  - rewrite filter_app. cbn [filter fst]. destruct (String.eqb_spec k "event_type") as [E|_]; [contradiction|]. reflexivity.
  - intros I. apply N. rewrite <- filter_app in I. apply in_map_iff in I. destruct I as (e & <- & I). apply filter_In in I. apply in_map. tauto.
Qed.
Lemma has_obj j k v l : has j ((k, v) :: l) -> exists es, j = JObj es.
Proof. intros H. destruct (H k v (or_introl eq_refl)) as (a & b & -> & _). eauto. Qed.
(** looking up the keys of [l] in what is left when the tag is taken out *)
Lemma struct_reads names vs tag es : has (JObj es) (("event_type", tag) :: combine names vs) -> length names = length vs -> ~ In "event_type" names ->
  struct_fields names (JObj (filter (fun e => negb (String.eqb (fst e) "event_type")) es)) = Some (map Some vs).
Proof.
  intros H L N. assert (G : forall k v, In (k, v) (combine names vs) -> at_key k (JObj es) v) by (intros k v I; apply H; right; exact I).
  clear H. cbn [struct_fields]. revert vs L G. induction names as [|n ns IH]; intros [|v vs] L G; try discriminate; [reflexivity|]. cbn [mapM map].
  assert (D : n <> "event_type") by (intros ->; apply N; left; reflexivity).
  rewrite (entries_at _ _ _ (at_key_rest n es v (G n v (or_introl eq_refl)) D)). cbn [once].
  rewrite (IH (fun I => N (or_intror I)) vs); [reflexivity|cbn in L; lia|]. intros k x I. apply G. right. exact I.
Qed.
Lemma tag_reads tag l es : has (JObj es) (("event_type", JStr tag) :: l) ->
  tag_and_rest "event_type" (JObj es) = Some (tag, JObj (filter (fun e => negb (String.eqb (fst e) "event_type")) es)).
Proof. intros H. unfold tag_and_rest. rewrite (entries_at _ _ _ (H _ _ (or_introl eq_refl))). reflexivity. Qed.
Lemma v4_reads a : is_v4 a -> ip_of_content (v4_form a) = Some a.
Proof.
  intros (n & -> & K). unfold ip_of_content, v4_form. choose. change (num n) with (json_of_n n). rewrite read_u32_ok by exact K. reflexivity.
Qed.
Lemma u16_reads n : u16 n -> read_uint 16 (num n) = Some n.
Proof. intros K. apply read_uint_ok; [lia|]. unfold u16 in K. change (2 ^ 16)%Z with (Z.of_N (2 ^ 16)). lia. Qed.
Lemma u32_reads n : u32 n -> read_uint 32 (num n) = Some n.
Proof. intros K. apply read_uint_ok; [lia|]. unfold u32 in K. change (2 ^ 32)%Z with (Z.of_N (2 ^ 32)). lia. Qed.
Lemma protocol_reads p : named_protocol p -> net_protocol_of_json (protocol_shown p) = Some p.
Proof. intros K. destruct p; try (vm_compute; reflexivity). exfalso. exact (K s eq_refl). Qed.
Lemma http_reads m : http_of_json (http_shown m) = Some m.
Proof. destruct m; reflexivity. Qed.
Lemma web_protocol_reads m : web_protocol_of_json (web_protocol_shown m) = Some m.
Proof. destruct m; reflexivity. Qed.
Lemma category_reads c : web_category_of_json (category_shown c) = Some c.
Proof. destruct c; try (vm_compute; reflexivity). Qed.
Lemma intrusion_category_reads c : intrusion_category_of_json (JStr (intrusion_category_str (fun s => s) c)) = Some c.
Proof. destruct c; vm_compute; reflexivity. Qed.
Lemma fw_outcome_reads o : fw_outcome_of_json (JStr (fw_outcome_str o)) = Some o.
Proof. destruct o; reflexivity. Qed.
Lemma intrusion_outcome_reads o : intrusion_outcome_of_json (JStr (intrusion_outcome_str o)) = Some o.
Proof. destruct o; reflexivity. Qed.
Lemma web_outcome_reads o : web_outcome_of_json (JStr (web_outcome_str o)) = Some o.
Proof. destruct o; reflexivity. Qed.
Lemma dns_op_reads o : dns_op_of_json (JStr (match o with DO_ANSWER => "ANSWER" | DO_QUERY => "QUERY" end)) = Some o.
Proof. destruct o; reflexivity. Qed.
Lemma dns_type_reads o : dns_type_of_json (JStr (dns_type_str o)) = Some o.
Proof. destruct o; reflexivity. Qed.
Lemma text_option_reads o : read_option read_str (option_shown JStr o) = Some o.
Proof. destruct o; reflexivity. Qed.
Lemma category_option_reads o : read_option web_category_of_json (option_shown category_shown o) = Some o.
Proof.
  destruct o as [c|]; [|reflexivity]. cbn [option_shown]. pose proof (category_reads c) as E.
  destruct (category_shown c) eqn:S; cbn [read_option]; rewrite ?E; try reflexivity. destruct c; discriminate.
Qed.
Lemma v4_option_reads o : (forall a, o = Some a -> is_v4 a) -> read_option ip_of_content (option_shown v4_form o) = Some o.
Proof.
  intros K. destruct o as [a|]; [|reflexivity]. cbn [option_shown]. pose proof (v4_reads a (K a eq_refl)) as E.
  destruct (v4_form a) eqn:S; cbn [read_option]; rewrite ?E; try reflexivity. destruct a; discriminate.
Qed.
Lemma duration_ok io x : duration_reads io x -> read_f32 io (duration_shown io x) = Some x.
Proof.
  intros (F & y & R & E). unfold duration_shown. unfold finite in F.
  destruct F as [F1 F2]; destruct (f32_write io x) as [b|b| |b m ex]; [|exfalso; exact (F2 b eq_refl)|congruence|]; unfold read_f32, read_number; rewrite R, E; reflexivity.
Qed.
Lemma login_reads t : login_type_of_json (login_shown t) = Some t.
Proof. destruct t; reflexivity. Qed.
Ltac given H := match type of H with has (JObj ?es) ((_, ?t) :: ?l) =>
  let names := eval cbv [map fst] in (map fst l) in let vs := eval cbv [map snd] in (map snd l) in
  rewrite (struct_reads names vs t es H eq_refl) by (cbn [In]; intuition discriminate); cbv beta iota zeta delta [map req opt read_str] end.

(** An event that is [readable] is read from every object that has its values, addresses given as [v4_form]. *)
Theorem C95_reads : forall io e j, readable io e -> has j (event_values v4_form (duration_shown io) e) -> event_of_json io j = Some (Ev e).
Proof.
  intros io e j K H. destruct e as [e|e|e|e|e|e|e|w]; cbn [event_values] in H;
    destruct (has_obj _ _ _ _ H) as (es & ->); unfold event_of_json; rewrite (tag_reads _ _ es H); cbn [readable] in K.
  - cbn [String.eqb Ascii.eqb Bool.eqb]. unfold fw_of_json. given H. destruct K as (A & B & C & D & E & F & G).
    rewrite (v4_reads _ A), (v4_reads _ B), (u16_reads _ C), (u16_reads _ D), (protocol_reads _ E), fw_outcome_reads, (u32_reads _ F), (u32_reads _ G).
    destruct e; reflexivity.
  - cbn [String.eqb Ascii.eqb Bool.eqb]. unfold intrusion_of_json. given H. destruct K as (A & B & C & D & E & F).
    rewrite (v4_reads _ A), (v4_reads _ B), (u16_reads _ C), (u16_reads _ D), (protocol_reads _ E), intrusion_outcome_reads, intrusion_category_reads,
      (u32_reads _ F). destruct e; reflexivity.
  - cbn [String.eqb Ascii.eqb Bool.eqb]. unfold webproxy_of_json. given H. destruct K as (A & B & C & D & E & F).
    rewrite (v4_reads _ A), (v4_reads _ B), (u16_reads _ C), (u32_reads _ D), (u32_reads _ E), (u32_reads _ F), http_reads, web_protocol_reads,
      web_outcome_reads, text_option_reads, category_option_reads. destruct e; reflexivity.
  - cbn [String.eqb Ascii.eqb Bool.eqb]. unfold webserver_of_json. given H. destruct K as (A & B & C & D & E & F & G).
    rewrite (v4_reads _ A), (v4_option_reads _ B), (u16_reads _ C), (u32_reads _ D), (u32_reads _ E), (u32_reads _ F), (duration_ok _ _ G), http_reads,
      web_protocol_reads, web_outcome_reads. destruct e; reflexivity.
  - cbn [String.eqb Ascii.eqb Bool.eqb]. unfold dns_of_json. given H. destruct K as (A & B).
    rewrite (v4_reads _ A), (v4_reads _ B), dns_op_reads, dns_type_reads, text_option_reads. destruct e; reflexivity.
  - contradiction.
  - cbn [String.eqb Ascii.eqb Bool.eqb]. unfold auth_of_json. given H. rewrite login_reads, login_outcome_rt. destruct e; reflexivity.
  - cbn [In] in K. repeat (destruct K as [<-|K]; [reflexivity|]). contradiction.
Qed.
Print Assumptions C95_reads.
(** Or from the list of these values in the order they are written in, and from no longer list. *)
Theorem C95_reads_list : forall io e more, readable io e ->
  event_of_json io (JArr (map snd (event_values v4_form (duration_shown io) e) ++ more)) = match more with [] => Some (Ev e) | _ => None end.
Proof.
  intros io e more K. destruct e as [e|e|e|e|e|e|e|w]; cbn [event_values map snd app]; unfold event_of_json, tag_and_rest; cbn [readable] in K.
  - cbn [String.eqb Ascii.eqb Bool.eqb]. unfold fw_of_json. cbn [struct_fields length Nat.eqb]. destruct more; [|reflexivity].
    cbn [length Nat.eqb map req opt read_str]. destruct K as (A & B & C & D & E & F & G).
    rewrite (v4_reads _ A), (v4_reads _ B), (u16_reads _ C), (u16_reads _ D), (protocol_reads _ E), fw_outcome_reads, (u32_reads _ F), (u32_reads _ G).
    destruct e; reflexivity.
  - cbn [String.eqb Ascii.eqb Bool.eqb]. unfold intrusion_of_json. cbn [struct_fields length Nat.eqb]. destruct more; [|reflexivity].
    cbn [length Nat.eqb map req opt read_str]. destruct K as (A & B & C & D & E & F).
    rewrite (v4_reads _ A), (v4_reads _ B), (u16_reads _ C), (u16_reads _ D), (protocol_reads _ E), intrusion_outcome_reads, intrusion_category_reads,
      (u32_reads _ F). destruct e; reflexivity.
  - cbn [String.eqb Ascii.eqb Bool.eqb]. unfold webproxy_of_json. cbn [struct_fields length Nat.eqb]. destruct more; [|reflexivity].
    cbn [length Nat.eqb map req opt read_str]. destruct K as (A & B & C & D & E & F).
    rewrite (v4_reads _ A), (v4_reads _ B), (u16_reads _ C), (u32_reads _ D), (u32_reads _ E), (u32_reads _ F), http_reads, web_protocol_reads,
      web_outcome_reads, text_option_reads, category_option_reads. destruct e; reflexivity.
  - cbn [String.eqb Ascii.eqb Bool.eqb]. unfold webserver_of_json. cbn [struct_fields length Nat.eqb]. destruct more; [|reflexivity].
    cbn [length Nat.eqb map req opt read_str]. destruct K as (A & B & C & D & E & F & G).
    rewrite (v4_reads _ A), (v4_option_reads _ B), (u16_reads _ C), (u32_reads _ D), (u32_reads _ E), (u32_reads _ F), (duration_ok _ _ G), http_reads,
      web_protocol_reads, web_outcome_reads. destruct e; reflexivity.
  - cbn [String.eqb Ascii.eqb Bool.eqb]. unfold dns_of_json. cbn [struct_fields length Nat.eqb]. destruct more; [|reflexivity].
    cbn [length Nat.eqb map req opt read_str]. destruct K as (A & B).
    rewrite (v4_reads _ A), (v4_reads _ B), dns_op_reads, dns_type_reads, text_option_reads. destruct e; reflexivity.
  - contradiction.
  - cbn [String.eqb Ascii.eqb Bool.eqb]. unfold auth_of_json. cbn [struct_fields length Nat.eqb]. destruct more; [|reflexivity].
    cbn [length Nat.eqb map req opt read_str]. rewrite login_reads, login_outcome_rt. destruct e; reflexivity.
  - cbn [In] in K. repeat (destruct K as [<-|K]; [destruct more; reflexivity|]). contradiction.
Qed.
Print Assumptions C95_reads_list.
(** No JSON whatever is read as a DHCP event. *)
Theorem C152_dhcp_refuted : forall io j e, event_of_json io j <> Some (Ev (EvDHCP e)).
Proof.
  intros io j e. unfold event_of_json. destruct (tag_and_rest "event_type" j) as [[tag rest]|]; [|discriminate].
  repeat match goal with |- context [if ?b then _ else _] => destruct b end;
    repeat match goal with |- context [match ?x with Some _ => _ | None => _ end] =>
      lazymatch x with dhcp_of_json _ => fail | _ => destruct x end end; try discriminate.
  unfold dhcp_of_json, read_u128_content. 
  destruct (struct_fields _ rest) as [[|a [|b [|c [|d [|f [|]]]]]]|]; try discriminate.
  destruct (req ip_of_content a); [|discriminate]. destruct b; discriminate.
Qed.
Print Assumptions C152_dhcp_refuted.

Definition an_io : event_io := Build_event_io (Build_float_io Some (fun _ => None)) (fun x => x) (fun x => x).
Example C95_case :
  json_of_event an_io (Ev (EvAuth (mkAuth (LT_Local "bob" "corp") LO_FAIL "pc1")))
    = Some (JObj [("event_type", JStr "Auth"); ("login_type", JObj [("Local", JObj [("user_name", JStr "bob"); ("domain", JStr "corp")])]);
                  ("outcome", JStr "FAIL"); ("hostname", JStr "pc1")])
  /\ (exists j, json_of_event an_io (Ev (EvFirewall (mkFw (V4 1) (V4 2) 1 2 NP_TCP FO_ALLOW 3 4 "a" "b"))) = Some j)
  /\ value_ok (eio an_io) (JObj [("a", JArr [JInt 5; JBool true]); ("b", JNull)])
  /\ json_of_event an_io (EvJson (JObj [("a", JInt 5)])) = Some (JObj [("event_type", JStr "Json"); ("a", JInt 5)])
  /\ event_ok (Ev (EvOther "EDR"))
  /\ readable an_io (EvDNS (mkDns (V4 1) (V4 2) DO_QUERY DT_A "a.com" None))
  /\ event_of_json an_io (JObj [("record_name", JStr "a.com"); ("destination_ip", JObj [("V4", JInt 2)]); ("event_type", JStr "DNS"); ("more", JNull);
       ("data", JNull); ("record_type", JStr "A"); ("op_code", JStr "QUERY"); ("source_ip", JObj [("V4", JInt 1)])])
     = Some (Ev (EvDNS (mkDns (V4 1) (V4 2) DO_QUERY DT_A "a.com" None)))
  /\ event_of_json an_io (JArr [JStr "DNS"; JObj [("V4", JInt 1)]; JObj [("V4", JInt 2)]; JStr "QUERY"; JStr "A"; JStr "a.com"; JNull])
     = Some (Ev (EvDNS (mkDns (V4 1) (V4 2) DO_QUERY DT_A "a.com" None))).
Proof.
  splits; try reflexivity.
  - eexists. reflexivity.
  - apply VO_obj; [repeat constructor|]. intros k x [[= <- <-]|[[= <- <-]|[]]]; [|constructor].
    apply VO_arr. intros x [<-|[<-|[]]]; constructor. lia.
  - cbn [event_ok In]. auto 10.
  - split; eexists; (split; [reflexivity|lia]).
Qed.
