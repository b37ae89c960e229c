(** The repository's own unit tests, run on the model. They are checks that the model follows the code on the cases its authors wrote
    down, and not proofs of anything: the properties are in the other files. Each comment cites the test. Left out: tests whose
    result is not looked at (rule/sigma.rs:484, enrichment.rs:18) and the on-disk database of geo_ip/slow.rs beyond its tree. *)
From Coq Require Import String Ascii List NArith ZArith Arith Bool Floats.SpecFloat.
From Verif Require Import Base.Ord Base.BTree Base.Str Base.Outcome Model.Mac Model.IpUtils Model.Ip Model.Field Model.Date Model.Log
  Model.EventEnums Model.Events Model.Datasets Model.NetDataset Model.Json Model.GeoIp Model.Calendar Model.Language Model.I18n
  Model.Metrics Model.DatasetTypes Model.Mitre Model.Rule Model.Command Model.Payloads Model.JsonField Model.JsonCommand Model.JsonRule Model.JsonMore.
From Verif Require Model.Query Model.Sigma Model.Component Spec.ComponentSpec Proofs.ComponentP Props.PropsComponent.
Import ListNotations.
Local Open Scope string_scope.
Local Open Scope N_scope.

Local Ltac run := vm_compute; repeat split.

(** utilities/mac.rs:81-112 *)
Example should_convert_mac :
  mac_str_to_u48 "fb:96:65:6d:17:96" = Val (Some 276623365314454) /\ mac_str_to_u48 "fb-96-65-6d-17-96" = Val (Some 276623365314454) /\
  mac_u48_to_str 276623365314454 = "fb:96:65:6d:17:96" /\
  mac_str_to_u64 "fb:96:65:00:00:6d:17:96" = Val (Some 18128788400708065174) /\
  mac_str_to_u64 "fb-96-65-00-00-6d-17-96" = Val (Some 18128788400708065174) /\
  mac_u64_to_str 18128788400708065174 = "fb:96:65:00:00:6d:17:96" /\
  mac_str_to_u128_any "fb:96:65:6d:17:96" = Val (Some 276623365314454) /\ mac_u128_to_str 276623365314454 = "fb:96:65:6d:17:96" /\
  mac_str_to_u128_any "00:96:65:6d:17:96" = Val (Some 645946742678) /\ mac_u128_to_str 645946742678 = "00:96:65:6d:17:96" /\
  mac_str_to_u128_any "fb:96:65:00:00:6d:17:96" = Val (Some 18128788400708065174) /\
  mac_u128_to_str 18128788400708065174 = "fb:96:65:00:00:6d:17:96" /\
  mac_str_to_u128_any "00:01:65:00:00:6d:17:96" = Val (Some 392525658265494) /\
  mac_u128_to_str 392525658265494 = "00:01:65:00:00:6d:17:96".
Proof. run. Qed.

(** utilities/ip_utils.rs:314-325 *)
Example should_parse_ips :
  map ipv4_from_str ["192.168.1.1"; "8.8.8.8"; "10.127.222.21"; "100.64.0.0"; "10.255.255.255"] =
  map Ok [3232235777; 134744072; 176152085; 1681915904; 184549375].
Proof. run. Qed.
(** utilities/ip_utils.rs:328-339 *)
Example should_parse_ip_from_u8_array :
  map (fun l => ipv4_to_u32_bytes (map ascii_of_N l))
    [[192; 168; 1; 1]; [8; 8; 8; 8]; [10; 127; 222; 21]; [100; 64; 0; 0]; [10; 255; 255; 255]] =
  map Ok [3232235777; 134744072; 176152085; 1681915904; 184549375].
Proof. run. Qed.
(** utilities/ip_utils.rs:342-353 *)
Example check_ip_is_local :
  map is_local_ipv4 [3232235777; 134744072; 176152085; 1681915904; 184549375] = [true; false; true; true; true].
Proof. run. Qed.
(** utilities/ip_utils.rs:356-362 *)
Example should_parse_socket :
  is_ipv4_port "192.168.0.1:1000" = true /\ is_ipv4_port "192.168.0.1:100000" = false /\ is_ipv4 "256.168.0.1" = false /\
  is_ipv4_port "800.168.0.1:10000" = false /\ is_ipv4_port "80.0.168.0.1:10000" = false.
Proof. run. Qed.

(** events/ip.rs:161-181 *)
Example ip_tests :
  ip_eqb (V4 111) (V4 111) = true /\ ip_eqb (V6 111) (V6 111) = true /\ ip_to_string (V4 111) = "0.0.0.111" /\
  ip_to_string (V4 (ip_of_octets [192; 168; 1; 1])) = "192.168.1.1" /\
  ip_to_string (V6 (ip_of_octets [0; 0; 0; 0; 0; 0; 0; 0; 0; 0; 0; 0; 0; 0; 0; 1])) = "::1".
Proof. run. Qed.

(** The text of a float is a parameter of the model; these are the ones the tests write. 123.456 and 0.001 are the nearest doubles. *)
Definition f123_456 : f64 := S754_finite false 8687443681197687 (-46).
Definition f300_512 : f64 := S754_finite false 5286663012579541 (-44).
Definition zero : f64 := S754_zero false.
Definition P : printers :=
  with_dates (-8334601228800000) 8210266876799999
    {| f64_str := fun x => if SFeqb x f123_456 then "123.456" else if SFeqb x zero then "0"
         else nth (fst (fold_left (fun a b => if SFeqb x b then (snd a, S (snd a)) else (fst a, S (snd a))) basic_le (10, 0)%nat))
                ["0.001"; "0.005"; "0.01"; "0.05"; "0.1"; "0.5"; "1"; "2"; "5"; "10"] "other";
       date_str := fun _ => "" |}.

(** events/field.rs:402-427 *)
Example test_equals_between_fields :
  field_eqb P (Text "TEXT_001") (Domain "TEXT_001") = true /\ field_eqb P (Text "0.0.0.0") (IP (V4 0)) = true /\
  field_eqb P (Text "123") (U64 123) = true /\ field_eqb P (Text "123.456") (F64 f123_456) = true /\
  field_eqb P (Text "User1234") (User "User1234") = true /\ field_eqb P (Text "User1234") (AssetID "User1234") = true /\
  field_eqb P (Text "-1234") (I64 (-1234)) = true /\ display P (Date 0) = "1970-01-01T00:00:00.000Z".
Proof. run. Qed.

(** events/log.rs:422-444 *)
Definition dbg (s : string) : string := """" ++ s ++ """".
Definition fw_example : firewall_event :=
  {| fw_source_ip := V4 0; fw_destination_ip := V4 10000; fw_source_port := 10000; fw_destination_port := 443;
     fw_network_protocol := NP_TCP; fw_out := FO_ALLOW; fw_in_bytes := 0; fw_out_bytes := 0;
     fw_in_interface := "in123"; fw_out_interface := "out123" |}.
Example check_log :
  exists g, event_log dbg (EvFirewall fw_example) = Val g /\
    log_field "event.dataset" (add_field "event.dataset" (Text "filterlog")
      (set_text "origin" "localhost" (set_text "message" "<134>Aug 23 20:30:25 OPNsense.localdomain filterlog[21853]" g))) =
    Some (Text "filterlog").
Proof. eexists. split; [vm_compute; reflexivity|]. vm_compute. reflexivity. Qed.

(** events/log.rs:447-479: the value read, of a field written last *)
Definition after (v : list field) : log := fold_left (fun l v => add_field "field_1" v l) v (log_new "" 0 "").
Definition read {A} (f : string -> log -> outcome (option A * log)) (l : log) : outcome (option A) :=
  let! r := f "field_1" l in Val (fst r).
Example casting_between_fields :
  let t := Text "value_1" in let u := U64 100 in let i := I64 (-200) in let f := F64 f300_512 in let p := IP (V4 1234) in
  let a := Array ["value_001"; "value_002"] in
  read txt_field (after [t]) = Val (Some "value_1") /\
  read u64_field (after [t; u]) = Val (Some 100) /\ read i64_field (after [t; u]) = Val (Some 100%Z) /\
  read f64_field (after [t; u]) = Val (Some (int_as_f64 100)) /\
  read u64_field (after [t; u; i]) = Val (Some (wrap_u64 (-200))) /\ read i64_field (after [t; u; i]) = Val (Some (-200)%Z) /\
  read f64_field (after [t; u; i]) = Val (Some (int_as_f64 (-200))) /\
  read u64_field (after [t; u; i; f]) = Val (Some (f64_as_u64 f300_512)) /\ f64_as_u64 f300_512 = 300 /\
  read i64_field (after [t; u; i; f]) = Val (Some (f64_as_i64 f300_512)) /\
  read f64_field (after [t; u; i; f]) = Val (Some f300_512) /\
  read ip_field (after [t; u; i; f; p]) = Val (Some (V4 1234)) /\
  read (array_field P) (after [t; u; i; f; p; a]) = Val (Some ["value_001"; "value_002"]).
Proof. run. Qed.

(** components/dataset: calendar.rs:120-153 and 156-206, as milliseconds *)
Definition at_2020_10 (day hour : Z) : Z := (1601510400 + (day - 1) * 86400 + hour * 3600 + 11 * 60 + 10) * 1000.
Example test_dataset_creation_same_day :
  rfc3339 (at_2020_10 5 12) = "2020-10-05T12:11:10.000Z" /\
  let d := cal_insert (at_2020_10 5 12) (at_2020_10 5 22) "LOLOLO" cal_new in
  cal_get (at_2020_10 5 18) d = Some ["LOLOLO"] /\ cal_get 0 d = None /\ cal_get (at_2020_10 5 23) d = None.
Proof. run. Qed.
Example test_dataset_creation_various_day :
  let d := cal_insert (at_2020_10 1 12) (at_2020_10 5 22) "LOLOLO" cal_new in
  cal_get (at_2020_10 2 1) d = Some ["LOLOLO"] /\ cal_get (at_2020_10 3 2) d = Some ["LOLOLO"] /\ cal_get 0 d = None /\
  cal_get (at_2020_10 5 23) d = None /\ cal_get (at_2020_10 1 11) d = None.
Proof. run. Qed.

Definition addr (s : string) : siem_ip := match from_ip_str s with Val (Ok a) => a | _ => V6 0 end.
(** dataset/ip_set.rs:132-139, ip_map.rs:132-142, ip_map_list.rs:132-150, text_map.rs:117-127, text_map_list.rs:75-93,
    text_set.rs:82-86, i18n.rs:537-557, ip_net.rs:200-211 *)
Example dataset_tests :
  let ip := addr "192.168.1.1" in
  from_ip_str "192.168.1.1" = Val (Ok ip) /\
  ip_set_contains ip (ip_set_insert ip ip_set_new) = true /\
  ip_map_get ip (ip_map_insert ip "Local IP " ip_map_new) = Some "Local IP " /\
  ip_map_get ip (ip_map_insert ip ["Local IP "; "Remote IP"] ip_map_new) = Some ["Local IP "; "Remote IP"] /\
  text_map_get "192.168.1.1" (text_map_insert "192.168.1.1" "Local IP" text_map_new) = Some "Local IP" /\
  text_map_get "192.168.1.1" (text_map_insert "192.168.1.1" ["Local IP "; "Remote IP"] text_map_new) = Some ["Local IP "; "Remote IP"] /\
  text_set_contains "192.168.1.1" (text_set_insert "192.168.1.1" text_set_new) = true /\
  let i := i18n_insert L_EN "LocalIp" "Local IP" (i18n_insert L_ES "LocalIp" "IP Local" i18n_new) in
  i18n_get_or_default "LocalIp" L_ES i = Some "IP Local" /\ i18n_get_or_default "LocalIp" L_FR i = Some "Local IP".
Proof. run. Qed.
Example should_find_info_of_ip_in_net_map :
  (let! d := ip_net_insert (addr "192.168.1.1") 24 "Local IP " ip_net_new in Val (ip_net_get (addr "192.168.1.1") d)) = Val (Some "Local IP ").
Proof. run. Qed.
(** dataset/geo_ip/fast.rs:134-153 (the fast dataset is an [ip_net] of records), slow.rs:124-147 *)
Definition info : geo_info := GeoInfo "LocalCountry" "LC" "LocalCity" (to_f32 f123_456) (to_f32 f300_512) "ISP" 1.
Example geo_ip_should_find_ip :
  (let! d := ip_net_insert (addr "192.168.1.0") 24 info ip_net_new in Val (option_map city (ip_net_get (addr "192.168.1.1") d))) =
  Val (Some "LocalCity") /\
  (let! d := slow_insert (addr "192.168.1.0") 24 info [] in let! r := slow_get (addr "192.168.1.1") d in Val (option_map city r)) =
  Val (Some "LocalCity").
Proof. run. Qed.

(** metrics/counter.rs:207-235 *)
Definition two : list labels := [[("name", "Paco"); ("v1", "1")]; [("name", "Pepe"); ("v1", "2")]].
Definition counted (l : list ccall) (i : nat) : Z := counter_get (act_run [0; 0]%Z (concat (map (ccall_acts 2) l))) i.
Example counter_metric_should_work :
  counter_vec_new two = Val (mkVec two [0; 0]%Z) /\
  with_labels two [("name", "Paco"); ("v1", "1")] = Some 0%nat /\ with_labels two [("name", "Pepe"); ("v1", "2")] = Some 1%nat /\
  with_labels two [("name", "Paco"); ("v1", "2")] = None /\
  let a := [CIncBy 0 222] in let b := (a ++ [CReset 0])%list in let c := (b ++ [CIncBy 0 222; CResetAll])%list in
  let d := (c ++ [CIncBy 1 222])%list in let e := (d ++ [CReset 1])%list in let f := (e ++ [CIncBy 1 222; CResetAll])%list in
  counted a 0 = 222%Z /\ counted b 0 = 0%Z /\ counted c 0 = 0%Z /\ counted d 1 = 222%Z /\ counted e 1 = 0%Z /\ counted f 1 = 0%Z.
Proof. run. Qed.
(** metrics/counter.rs:238-256 and gauge.rs:256-273 *)
Definition nombre : list labels := [[("name", "Nombre"); ("v1", "1")]; [("name", "Nombre"); ("v1", "2")]].
Example should_be_encoded_in_prometheus :
  enc_counter_vec "simple_counter" "Simple Counter metric" true (mkVec nombre [0; 0]%Z) =
  "# HELP simple_counter Simple Counter metric
# TYPE simple_counter counter
simple_counter{name=""Nombre"",v1=""1""} 0
simple_counter{name=""Nombre"",v1=""2""} 0
" /\
  enc_gauge_vec P "simple_gauge" "Simple Gauge metric" true (gauge_vec_new nombre) =
  "# HELP simple_gauge Simple Gauge metric
# TYPE simple_gauge gauge
simple_gauge{name=""Nombre"",v1=""1""} 0
simple_gauge{name=""Nombre"",v1=""2""} 0
".
Proof. run. Qed.
(** metrics/gauge.rs:223-253 *)
Definition gauged (l : list gcall) (i : nat) : f64 := gauge_get (act_run [0; 0]%Z (concat (map (gcall_acts 2) l))) i.
Example gauge_metric_should_work :
  let n := int_as_f64 222 in
  let a := [GIncBy 0 n] in let b := (a ++ [GReset 0])%list in let c := (b ++ [GIncBy 0 n; GResetAll])%list in
  let d := (c ++ [GIncBy 1 n])%list in let e := (d ++ [GReset 1])%list in let f := (e ++ [GIncBy 1 n; GResetAll])%list in let g := (f ++ [GSet 1 (int_as_f64 123)])%list in
  gauged a 0 = n /\ gauged b 0 = zero /\ gauged c 0 = zero /\ gauged d 1 = n /\ gauged e 1 = zero /\ gauged f 1 = zero /\
  gauged g 1 = int_as_f64 123.
Proof. run. Qed.

(** metrics/mod.rs:317-346 *)
Definition abc := ("name", ["a"; "b"; "c"]).
Definition def := ("v1", ["d"; "e"; "f"]).
Definition ghi := ("v2", ["g"; "h"; "i"]).
Example should_generate_all_label_combinations :
  length (label_combinations [abc; def; ghi]) = 27%nat /\ length (label_combinations [abc; def]) = 9%nat /\
  let l := label_combinations [abc; def; ("v2", ["g"; "h"])] in
  length l = 18%nat /\ nth_error l 0 = Some [("name", "a"); ("v1", "d"); ("v2", "g")].
Proof. run. Qed.
(** metrics/mod.rs:349-360 *)
Example should_validate_names :
  valid_name "this_is_a_valid_name" = true /\ valid_name "this_is_NOT_a_valid_name" = false /\ valid_name "this is NOT a valid name" = false /\
  valid_description "this_is_a_valid_description" = true /\ valid_description "This is a valid description" = true /\
  valid_description ("this is NOT" ++ nl ++ "a valid description") = true.
Proof. run. Qed.

(** metrics/histogram.rs:301-403 *)
Definition milli : f64 := nth 0 basic_le zero.
Definition observed (ls : list labels) (i : nat) : list (labels * hist) := hvec_run (hist_vec_new ls) (hcall_acts basic_le (i, milli)).
Example should_create_complex_static_metric :
  let ls := label_combinations [abc; def; ghi] in
  with_labels ls [("name", "a"); ("v1", "d"); ("v2", "g")] = Some 0%nat /\
  exists h, nth_error (observed ls 0) 0 = Some h /\
    get_sample_count (snd h) = 1 /\ get_sample_sum (snd h) = milli /\ get_count (snd h) milli = Some 1.
Proof. cbv zeta. split; [vm_compute; reflexivity|]. eexists. split; [vm_compute; reflexivity|]. run. Qed.
Example histogram_should_be_encoded_in_prometheus :
  enc_hist_vec P "simple_gauge" "Simple Gauge metric" true (observed (label_combinations [abc; def; ghi]) 0) =
  "# HELP simple_gauge Simple Gauge metric
# TYPE simple_gauge histogram 
simple_gauge_bucket{name=""a"",v1=""d"",v2=""g"",le=0.001} 1
simple_gauge_bucket{name=""a"",v1=""d"",v2=""g"",le=0.005} 1
simple_gauge_bucket{name=""a"",v1=""d"",v2=""g"",le=0.01} 1
simple_gauge_bucket{name=""a"",v1=""d"",v2=""g"",le=0.05} 1
simple_gauge_bucket{name=""a"",v1=""d"",v2=""g"",le=0.1} 1
simple_gauge_bucket{name=""a"",v1=""d"",v2=""g"",le=0.5} 1
simple_gauge_bucket{name=""a"",v1=""d"",v2=""g"",le=1} 1
simple_gauge_bucket{name=""a"",v1=""d"",v2=""g"",le=2} 1
simple_gauge_bucket{name=""a"",v1=""d"",v2=""g"",le=5} 1
simple_gauge_bucket{name=""a"",v1=""d"",v2=""g"",le=10} 1
simple_gauge_sum{name=""a"",v1=""d"",v2=""g""} 0.001
simple_gauge_count{name=""a"",v1=""d"",v2=""g""} 1
".
Proof. run. Qed.
Example histogram_should_be_encoded_without_label_name :
  enc_hist_vec P "simple_gauge" "Simple Gauge metric" true (observed (label_combinations [("name", [""; "b"; "c"]); def; ghi]) 0) =
  "# HELP simple_gauge Simple Gauge metric
# TYPE simple_gauge histogram 
simple_gauge_bucket{v1=""d"",v2=""g"",le=0.001} 1
simple_gauge_bucket{v1=""d"",v2=""g"",le=0.005} 1
simple_gauge_bucket{v1=""d"",v2=""g"",le=0.01} 1
simple_gauge_bucket{v1=""d"",v2=""g"",le=0.05} 1
simple_gauge_bucket{v1=""d"",v2=""g"",le=0.1} 1
simple_gauge_bucket{v1=""d"",v2=""g"",le=0.5} 1
simple_gauge_bucket{v1=""d"",v2=""g"",le=1} 1
simple_gauge_bucket{v1=""d"",v2=""g"",le=2} 1
simple_gauge_bucket{v1=""d"",v2=""g"",le=5} 1
simple_gauge_bucket{v1=""d"",v2=""g"",le=10} 1
simple_gauge_sum{v1=""d"",v2=""g""} 0.001
simple_gauge_count{v1=""d"",v2=""g""} 1
".
Proof. run. Qed.

(** query/mod.rs:324-340: the lexer comes to the end of the text *)
Example should_parse_the_query :
  exists ts, Query.lex_query (Query.chars
    "filter field_name2=""*something"" | fields os.actor_process as osap | filter to_string(osap,'something') = ""12345""") = Val ts /\
    Nat.leb 10 (length ts) = true.
Proof. eexists. split; vm_compute; reflexivity. Qed.

(** rule/sigma.rs:456-481; [transform_alert_content] runs the same lexer and keeps the tokens *)
Example should_translate_condition :
  Sigma.transform_alert_content "This is a basic description with source.ip=$source.ip and this a text $field123" =
  Val [AText "This is a basic description with source.ip="; AField "source.ip"; AText " and this a text "; AField "field123"].
Proof. run. Qed.

(** rule/sigma.rs:497-540, on c2_sigma_rule.yml; reading the YAML is the library's part *)
Definition source (category product : option string) : Sigma.sigma_logsource := Sigma.mkSource category product None None.
Definition two_ips : Sigma.sigma_value := Sigma.SArray [Sigma.SText "69.42.98.86"; Sigma.SText "89.185.234.145"].
Definition c2_text : string := "Detects communication to C2 servers mentioned in the operational notes of the ShadowBroker leak of EquationGroup C2 tools".
Definition c2 : Sigma.sigma_rule :=
  Sigma.mkSigma "Equation Group C2 Communication" (Some "881834a4-6659-4773-821e-1c151789d873") (Some c2_text)
    (Some ["https://steemit.com/shadowbrokers/@theshadowbrokers/lost-in-translation";
           "https://medium.com/@msuiche/the-nsa-compromised-swift-network-50ec3000b195"])
    (Some "test") None (Some "Florian Roth") (Some "2017/04/15") (source (Some "firewall") None)
    (Sigma.mkDetection (bt_of_list [("select_outgoing", Sigma.SMap (bt_of_list [("dst_ip", two_ips)]));
                                    ("select_incoming", Sigma.SMap (bt_of_list [("src_ip", two_ips)]))]) "1 of select*")
    None (Some ["Unknown"]) (Some "high") (Some ["attack.command_and_control"; "attack.g0020"; "attack.t1041"]).
Definition first_cond (r : siem_rule) (name : string) : option rule_cond :=
  match bt_get name (ru_subrules r) with Some s => nth_error (sr_conditions s) 0 | None => None end.
(** The test compares the operators by the derived [PartialEq], so the values by that of [SiemField]: the rule holds texts, equal to the addresses. *)
Definition first_ip : siem_ip := V4 (ip_of_octets [69; 42; 98; 86]).
Definition second_ip : siem_ip := V4 (ip_of_octets [89; 185; 234; 145]).
Definition either (o : rule_op) : Prop :=
  exists x y, o = OAny [OEquals x; OEquals y] /\ field_eqb P (IP first_ip) x = true /\ field_eqb P (IP second_ip) y = true.
Example should_transform_c2_sigma_to_siem_rule :
  exists r, Sigma.from_sigma P c2 = Val r /\
    nth_error (mi_techniques (ru_mitre r)) 0 = technique_of_json (JStr "T1041") /\
    nth_error (mi_techniques (ru_mitre r)) 0 <> None /\
    nth_error (al_content (ru_alert r)) 0 = Some (AText c2_text) /\
    (exists o, first_cond r "select_incoming" = Some (mkCond "src_ip" o) /\ either o) /\
    (exists o, first_cond r "select_outgoing" = Some (mkCond "dst_ip" o) /\ either o).
Proof.
  eexists. split; [vm_compute; reflexivity|]. split; [vm_compute; reflexivity|]. split; [vm_compute; discriminate|]. split; [vm_compute; reflexivity|].
  split; (eexists; split; [vm_compute; reflexivity|]; do 2 eexists; split; [reflexivity|]; split; vm_compute; reflexivity).
Qed.

(** rule/sigma.rs:543-613, on 7zip_sigma_rule.yml *)
Definition zip_text : string :=
  "7-Zip through 21.07 on Windows allows privilege escalation (CVE-2022-29072) and command execution when a file with the .7z extension is dragged to the Help>Contents area. This is caused by misconfiguration of 7z.dll and a heap overflow. The command runs in a child process under the 7zFM.exe process.".
Definition zip : Sigma.sigma_rule :=
  Sigma.mkSigma "Suspicious 7zip Subprocess" (Some "9a4ccd1a-3526-4d99-b980-9f9c5d3a6ee3") (Some zip_text)
    (Some ["https://github.com/kagancapar/CVE-2022-29072"; "https://twitter.com/kagancapar/status/1515219358234161153"])
    (Some "experimental") None (Some "frack113") (Some "2022/04/17") (source (Some "process_creation") (Some "windows"))
    (Sigma.mkDetection (bt_of_list
       [("selection_img", Sigma.SList [bt_of_list [("Image|endswith", Sigma.SText "\cmd.exe")]; bt_of_list [("OriginalFileName", Sigma.SText "Cmd.Exe")]]);
        ("selection_parent", Sigma.SMap (bt_of_list [("ParentImage|endswith", Sigma.SText "\7zFM.exe")]));
        ("filter_bat", Sigma.SMap (bt_of_list [("CommandLine|contains", Sigma.SArray [Sigma.SText " /c "; Sigma.SText " /k "; Sigma.SText " /r "])]));
        ("filter_null", Sigma.SMap (bt_of_list [("CommandLine", Sigma.SNone)]))]) "all of selection_* and not 1 of filter_*")
    None (Some ["Unknown"]) (Some "high") (Some ["cve.2022.29072"]).
Example should_transform_7zip_sigma_to_siem_rule :
  exists r, Sigma.from_sigma P zip = Val r /\
    nth_error (al_content (ru_alert r)) 0 = Some (AText zip_text) /\
    first_cond r "selection_img" = Some (mkCond "Image" (OEndsWith "\cmd.exe")) /\
    option_map sr_conditions (bt_get "selection_img" (ru_subrules r)) =
      Some [mkCond "Image" (OEndsWith "\cmd.exe"); mkCond "OriginalFileName" (OEquals (Text "Cmd.Exe"))] /\
    first_cond r "selection_parent" = Some (mkCond "ParentImage" (OEndsWith "\7zFM.exe")) /\
    first_cond r "filter_bat" = Some (mkCond "CommandLine" (OAny [OContains " /c "; OContains " /k "; OContains " /r "])) /\
    first_cond r "filter_null" = Some (mkCond "CommandLine" (OIsNull true)).
Proof. eexists. split; [vm_compute; reflexivity|]. run. Qed.

(** command.rs:344-417. What a response is after a trip through JSON; here no number is in it, so the reading of numbers does not matter. *)
Example should_serialize_and_deserialize_command_response : forall io,
  let a := R_FILTER_IP (Ok "Ip was filtered") in
  let b := R_LIST_DATASETS (Ok [DatasetDef (T_CustomIpMap "") "Description" Administrator]) in
  response_of_json io (json_of_response a) = Some a /\ response_of_json io (json_of_response b) = Some b.
Proof. intros io. run. Qed.

(** rule/mod.rs:245-312: the rule is read back (the test looks at nothing more); the address has become its text *)
Definition superrule (v : field) : siem_rule :=
  mkRule "id001" "Rule001" "descripcion" (mkMitre [TA0001] []) [T_BlockIp]
    (bt_of_list [("rule_source_ip", mkSub [mkCond "source.ip" (ONot (OEquals v))] None);
                 ("rule_destination_ip", mkSub [mkCond "destination.ip" (OAll [OIsExternalIp true; OInDataset T_BlockIp])] None)])
    [["rule_source_ip"; "rule_destination_ip"]]
    (mkAlert [AText "A local ip tried to connect to a a malicious IP: source.ip="; AField "source.ip"; AText ", destination.ip="; AField "destination.ip"]
       HIGH ["external_attack"] None).
Example should_be_serialized_and_deserialize : forall io compiles,
  rule_of_json io compiles (json_of_rule (superrule (IP (V4 (ip_of_octets [192; 168; 1; 1]))))) = Some (superrule (Text "192.168.1.1")).
Proof. intros io compiles. run. Qed.

(** task.rs:277-302: the builder of the test is [stub_builder] *)
Example task_builder_should_generate_async_task :
  stub_builder (Task 0 1 "123" 12345 (TD_REPORT_ABUSE bt_empty)) = TaskResult 12345 (Some (Ok "OK")).
Proof. run. Qed.

(** components/simplified.rs:266-288: the component of the test marks every log; the log comes out marked, and the stop command ends the run *)
From Verif Require Import Model.Component Spec.ComponentSpec Proofs.ComponentP Props.PropsComponent.
Definition basic : component P0 unit :=
  {| duplicate := fun s => s; on_command := fun s _ _ => (s, Ok tt); on_response := fun s _ _ => (s, Ok tt);
     on_log := fun s l => (s, Ok (Some (add_field "PROCESSED" (Text "PROCESSED") l)));
     on_dataset := fun s _ => (s, Ok tt); on_alert := fun s _ => (s, Ok tt); on_task := fun s _ _ => (s, Ok tt);
     on_task_result := fun s _ _ => (s, Ok tt); on_notification := fun s _ => (s, Ok tt); tick := fun s => (s, Ok None) |}.
Definition incoming : log := log_new "message" 123 "origin".
Definition outgoing : log := add_field "PROCESSED" (Text "PROCESSED") incoming.
Definition halt : message P0 := MCommand header_default (C_STOP_COMPONENT "").
Example should_execute_simplified_component : exists w,
  run basic (launch basic tt (wired (Some 1024%nat)))
    [Tick; Idle; ArriveLog incoming; TakeLog incoming; Forward outgoing; Consume outgoing; Idle; ArriveMsg halt; TakeMsg halt] w /\
  ph w = Returned (Ok tt) /\ log_message outgoing = "message" /\ has_field "PROCESSED" outgoing = true.
Proof. eexists. split; [repeat go|repeat split]. Qed.
