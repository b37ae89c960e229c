(** Model of src/testing/parsers.rs, of src/testing/mod.rs, of the error of src/components/parsing.rs with its JSON,
    and of the generators there; of the tags of src/events/tags.rs; of the JSON of src/events/schema.rs. *)
From Coq Require Import String NArith ZArith List Bool.
From Verif Require Import Base.Ord Base.BTree Base.Str Base.Outcome Model.Ip Model.Field Model.Log Model.Command Model.Component
  Model.Schema Model.Json Model.JsonField.
Import ListNotations.
Local Open Scope string_scope.
Local Open Scope list_scope.

(** parsing.rs:55-67 [LogParsingError] *)
Inductive parsing_error :=
| NoValidParser (l : log)
| ParserError (l : log) (reason : string)
| NotImplementedYet (l : log)
| FormatError (l : log) (reason : string)
| Discard.

(** parsing.rs:54 [derive(Serialize)] *)
Definition json_of_parsing_error (e : parsing_error) : json :=
  match e with
  | NoValidParser l => tagged "NoValidParser" (json_of_log l)
  | ParserError l r => tagged "ParserError" (JArr [json_of_log l; JStr r])
  | NotImplementedYet l => tagged "NotImplemented" (json_of_log l)
  | FormatError l r => tagged "FormatError" (JArr [json_of_log l; JStr r])
  | Discard => JStr "Discard"
  end.
(** parsing.rs:54 [derive(Deserialize)] *)
Definition parsing_error_of_json (io : float_io) : json -> option parsing_error :=
  read_enum [("NoValidParser", newtype_v (log_of_json io) NoValidParser);
             ("ParserError", pair_v (log_of_json io) read_str ParserError);
             ("NotImplemented", newtype_v (log_of_json io) NotImplementedYet);
             ("FormatError", pair_v (log_of_json io) read_str FormatError);
             ("Discard", unit_v Discard)].

(** parsing.rs:12-24 the trait [LogParser], without the datasets, which none of the parsers here reads; the generator is
    given by the log it makes and its weight (parsing.rs:69-77), both constant here. *)
Record parser := Parser {
  p_parse : log -> result log parsing_error;
  p_name : string;
  p_description : string;
  p_schema : schema;
  p_generated : string;
  p_weight : N }.

(** testing/parsers.rs:6-18 *)
Definition dummy_log : string := "This is a dummy log".
Definition dummy_weight : N := 1.
(** testing/parsers.rs:20-58 *)
Definition dummy_parser_text : parser := Parser
  (fun l => if negb (str_contains "DUMMY" (log_message l)) then Err (NoValidParser l)
            else Ok (add_field "parser" (Text "DummyParserText") l))
  "DummyParserText" "This is a dummy that parsers if contains DUMMY in text" schema_new dummy_log dummy_weight.
(** testing/parsers.rs:60-95 *)
Definition dummy_parser_all : parser := Parser
  (fun l => Ok (add_field "parser" (Text "DummyParserAll") l))
  "DummyParserAll" "This is a dummy parser that always parses logs" schema_new dummy_log dummy_weight.
(** testing/parsers.rs:97-140 *)
Definition dummy_parser_error : parser := Parser
  (fun l => Err (ParserError l "Bug in parser"))
  "DummyParserError" "This is a parser that cannot parse because it has a bug" schema_new dummy_log dummy_weight.

(** parsing.rs:94-101, 105-112: the names made by the default generators, from the nanoseconds of the clock *)
Definition default_user (nanos : N) : string := String.append "User" (dec (N.land nanos 65535)).
Definition default_host (nanos : N) : string := String.append "Host" (dec (N.land nanos 65535)).

(** testing/mod.rs:14-34 [do_before_stoping_component]: the thread it starts performs the action, of which only the messages
    sent to the component matter here, and then sends a stop command to the component's channel *)
Definition stop_command {P} (name : string) : message P := MCommand (Header "kernel" 0 0) (C_STOP_COMPONENT name).
Definition harness_sends {P} (name : string) (action : list (message P)) : list (message P) := action ++ [stop_command name].

(** events/tags.rs:4-51 *)
Definition predefined_tags : list string :=
  ["vip_user"; "admin_user"; "fake_account"; "honeypot"; "critical_asset"; "network_asset"; "security_asset"; "web_server";
   "dns_server"; "bastion_host"; "jump_host"; "maintenance_period"; "ioc_misp"; "never_seen_ip"; "in_block_list"].

(** schema.rs:122-138 [derive(Serialize)] *)
Definition json_of_field_type (t : field_type) : json :=
  match t with
  | FTIp d => tagged "Ip" (JStr d)
  | FTArray d => tagged "Array" (JStr d)
  | FTText d => tagged "Text" (JStr d)
  | FTNumeric d => tagged "Numeric" (JStr d)
  | FTDecimal d => tagged "Decimal" (JStr d)
  | FTDate d => tagged "Date" (JStr d)
  | FTTextOptions o d => tagged "TextOptions" (JArr [json_of_map JStr o; JStr d])
  end.
(** schema.rs:147-153 *)
Definition json_of_gdpr_method (m : gdpr_method) : json :=
  match m with GStorage => JStr "Storage" | GApiProtected => JStr "ApiProtected" end.
(** schema.rs:140-145 *)
Definition json_of_gdpr (g : gdpr) : json :=
  JObj [("fields", json_of_strings (bset_elems (g_fields g))); ("method", json_of_gdpr_method (g_method g))].
(** schema.rs:10-18 *)
Definition json_of_schema (s : schema) : json :=
  JObj [("fields", json_of_map json_of_field_type (s_fields s)); ("allow_unknown_fields", JBool (s_allow_unknown s));
        ("gdpr", json_of_option json_of_gdpr (s_gdpr s))].
