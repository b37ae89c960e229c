{
 "claims": [
  {
   "property": "C01",
   "status": "proved",
   "theorems": [
    "C01_ipv4_roundtrip",
    "C01_ipv4_print_injective"
   ],
   "note": ""
  },
  {
   "property": "C02",
   "status": "proved",
   "theorems": [
    "C02_dotted_quads_accepted",
    "C02_ipv4_language",
    "C02_ipv4_bytes",
    "C02_ipv4_result_fits"
   ],
   "note": "The neighbouring claim the code violates is stated as C96."
  },
  {
   "property": "C03",
   "status": "proved",
   "theorems": [
    "C03_ipv6_total"
   ],
   "note": ""
  },
  {
   "property": "C04",
   "status": "proved",
   "theorems": [
    "C04_ipv6_language",
    "C04_embedded_ipv4_never_accepted"
   ],
   "note": "The neighbouring claim the code violates is stated as C97."
  },
  {
   "property": "C05",
   "status": "proved",
   "theorems": [
    "C05_private_v4",
    "C05_private_v6",
    "C05_siem_ip"
   ],
   "note": ""
  },
  {
   "property": "C06",
   "status": "proved",
   "theorems": [
    "C06_ip_port_roundtrip",
    "C06_is_ipv4_port_agrees",
    "C06_ip_port_language"
   ],
   "note": ""
  },
  {
   "property": "C07",
   "status": "proved",
   "theorems": [
    "C07_mac48_roundtrip",
    "C07_mac64_roundtrip",
    "C07_mac48_parses",
    "C07_mac64_parses",
    "C07_mac48_prints",
    "C07_mac64_prints"
   ],
   "note": "The neighbouring claim the code violates is stated as C98."
  },
  {
   "property": "C08",
   "status": "proved",
   "theorems": [
    "C08_any_width_parses",
    "C08_any_width_roundtrip",
    "C08_printed_alike",
    "C08_distinct_below_64_bits",
    "C08_mac128"
   ],
   "note": "The neighbouring claim the code violates is stated as C98."
  },
  {
   "property": "C09",
   "status": "proved",
   "theorems": [
    "C09_words_exist_unique",
    "C09_search_returns_best"
   ],
   "note": ""
  },
  {
   "property": "C10",
   "status": "proved",
   "theorems": [
    "C10_reflexive",
    "C10_equivalence_without_text",
    "C10_textual_equality",
    "C10_ip_and_integers",
    "C10_exact"
   ],
   "note": "The neighbouring claim the code violates is stated as C99."
  },
  {
   "property": "C11",
   "status": "proved",
   "theorems": [
    "C11_equal_hash",
    "C11_hashed"
   ],
   "note": "The neighbouring claim the code violates is stated as C100."
  },
  {
   "property": "C12",
   "status": "proved",
   "theorems": [
    "C12_contains",
    "C12_contains_field",
    "C12_case_insensitive",
    "C12_case_insensitive_str"
   ],
   "note": "The neighbouring claim the code violates is stated as C101."
  },
  {
   "property": "C13",
   "status": "proved",
   "theorems": [
    "C13_to_u64",
    "C13_to_i64",
    "C13_to_f64",
    "C13_to_f64_nearest",
    "C13_wraps",
    "C13_saturates",
    "C13_special_floats",
    "C13_float_truncation",
    "C13_int_float_int",
    "C13_text",
    "C13_non_numeric_refused",
    "C13_print_parse",
    "C13_to_ip",
    "C13_to_ip_total",
    "C13_to_array",
    "C13_display",
    "C13_kinds"
   ],
   "note": "The neighbouring claim the code violates is stated as C102."
  },
  {
   "property": "C14",
   "status": "proved",
   "theorems": [
    "C14_last_write_wins",
    "C14_iteration",
    "C14_insert",
    "C14_fresh_log"
   ],
   "note": ""
  },
  {
   "property": "C15",
   "status": "proved",
   "theorems": [
    "C15_typed_reads",
    "C15_reads_commute"
   ],
   "note": "The neighbouring claim the code violates is stated as C103."
  },
  {
   "property": "C16",
   "status": "proved",
   "theorems": [
    "C16_ips_are_reported",
    "C16_exact",
    "C16_only_ips",
    "C16_after_schema",
    "C16_schema_keeps_declared"
   ],
   "note": "The neighbouring claim the code violates is stated as C104."
  },
  {
   "property": "C17",
   "status": "proved",
   "theorems": [
    "C17_tags",
    "C17_tags_field"
   ],
   "note": "The neighbouring claim the code violates is stated as C105."
  },
  {
   "property": "C18",
   "status": "proved",
   "theorems": [
    "C18_headers",
    "C18_header_fields",
    "C18_new",
    "C18_set_event_created"
   ],
   "note": "The neighbouring claim the code violates is stated as C106."
  },
  {
   "property": "C19",
   "status": "proved",
   "theorems": [
    "C19_apply",
    "C19_idempotent",
    "C19_iteration",
    "C19_typed_reads"
   ],
   "note": ""
  },
  {
   "property": "C20",
   "status": "proved",
   "theorems": [
    "C20_header",
    "C20_new_schema"
   ],
   "note": "The neighbouring claim the code violates is stated as C107."
  },
  {
   "property": "C21",
   "status": "proved",
   "theorems": [
    "C21_names",
    "C21_conflicts",
    "C21_edits",
    "C21_gdpr"
   ],
   "note": ""
  },
  {
   "property": "C22",
   "status": "proved",
   "theorems": [
    "C22_names",
    "C22_firewall",
    "C22_intrusion",
    "C22_webproxy",
    "C22_webserver",
    "C22_dhcp",
    "C22_dns",
    "C22_auth",
    "C22_no_loss",
    "C22_auth_no_loss",
    "C22_dns_no_loss",
    "C22_dhcp_no_loss",
    "C22_event",
    "C22_dns_exact",
    "C22_dhcp_exact"
   ],
   "note": "The neighbouring claim the code violates is stated as C108."
  },
  {
   "property": "C23",
   "status": "proved",
   "theorems": [
    "C23_no_lost_increments",
    "C23_reset",
    "C23_new",
    "C23_reset_reads_zero"
   ],
   "note": ""
  },
  {
   "property": "C24",
   "status": "proved",
   "theorems": [
    "C24_sum_near",
    "C24_histogram_exact",
    "C24_cumulative",
    "C24_nan_in_every_bucket",
    "C24_default_buckets"
   ],
   "note": ""
  },
  {
   "property": "C25",
   "status": "proved",
   "theorems": [
    "C25_first_bucket"
   ],
   "note": "The neighbouring claim the code violates is stated as C109."
  },
  {
   "property": "C26",
   "status": "proved",
   "theorems": [
    "C26_rows_are_choices",
    "C26_uniform",
    "C26_exact"
   ],
   "note": "The neighbouring claim the code violates is stated as C110."
  },
  {
   "property": "C27",
   "status": "proved",
   "theorems": [
    "C27_counter_round_trip",
    "C27_gauge_round_trip",
    "C27_histogram_tolerant"
   ],
   "note": "The neighbouring claim the code violates is stated as C111."
  },
  {
   "property": "C28",
   "status": "proved",
   "theorems": [
    "C28_with_labels",
    "C28_with_labels_none",
    "C28_series_are_independent"
   ],
   "note": ""
  },
  {
   "property": "C29",
   "status": "proved",
   "theorems": [
    "C29_names",
    "C29_definition",
    "C29_predefined"
   ],
   "note": ""
  },
  {
   "property": "C30",
   "status": "proved",
   "theorems": [
    "C30_ip_maps",
    "C30_ip_sets",
    "C30_families"
   ],
   "note": ""
  },
  {
   "property": "C31",
   "status": "proved",
   "theorems": [
    "C31_text_maps",
    "C31_text_sets",
    "C31_rules"
   ],
   "note": ""
  },
  {
   "property": "C32",
   "status": "proved",
   "theorems": [
    "C32_ip_set_in_order",
    "C32_ip_map_in_order",
    "C32_text_map_in_order",
    "C32_rules_in_order",
    "C32_ip_net_in_order",
    "C32_total",
    "C32_split",
    "C32_replace",
    "C32_snapshots"
   ],
   "note": "The neighbouring claim the code violates is stated as C112."
  },
  {
   "property": "C33",
   "status": "proved",
   "theorems": [
    "C33_network_sound",
    "C33_runs",
    "C33_bad_length_aborts"
   ],
   "note": "The neighbouring claim the code violates is stated as C113."
  },
  {
   "property": "C34",
   "status": "proved",
   "theorems": [
    "C34_exact",
    "C34_complete",
    "C34_odd_complete"
   ],
   "note": "The neighbouring claim the code violates is stated as C113."
  },
  {
   "property": "C35",
   "status": "proved",
   "theorems": [
    "C35_delivered",
    "C35_no_invention",
    "C35_try_insert_told",
    "C35_insert_timeout_told",
    "C35_insert_timeout_ends",
    "C35_calls_delivered",
    "C35_rule_insert"
   ],
   "note": "The neighbouring claim the code violates is stated as C114."
  },
  {
   "property": "C36",
   "status": "proved",
   "theorems": [
    "C36_activeb",
    "C36_sound",
    "C36_exact",
    "C36_exact_all",
    "C36_no_overflow"
   ],
   "note": "The neighbouring claim the code violates is stated as C115."
  },
  {
   "property": "C37",
   "status": "proved",
   "theorems": [
    "C37_lookup",
    "C37_default"
   ],
   "note": ""
  },
  {
   "property": "C38",
   "status": "proved",
   "theorems": [
    "C38_last_registered",
    "C38_one_per_type",
    "C38_subset",
    "C38_accessors",
    "C38_found"
   ],
   "note": ""
  },
  {
   "property": "C39",
   "status": "proved",
   "theorems": [
    "C39_conversions",
    "C39_succeeds",
    "C39_unwrap",
    "C39_custom",
    "C39_equality",
    "C39_errors",
    "C39_custom_errors"
   ],
   "note": "The neighbouring claim the code violates is stated as C116, C167."
  },
  {
   "property": "C40",
   "status": "proved",
   "theorems": [
    "C40_forwards_exactly_the_kept_logs",
    "C40_errors_do_not_stop",
    "C40_progress",
    "C40_bounded_work",
    "C40_default_keeps_all"
   ],
   "note": "The neighbouring claim the code violates is stated as C133."
  },
  {
   "property": "C41",
   "status": "proved",
   "theorems": [
    "C41_stop_stops",
    "C41_input_gone",
    "C41_output_gone",
    "C41_only_reasons"
   ],
   "note": "The neighbouring claim the code violates is stated as C131."
  },
  {
   "property": "C42",
   "status": "proved",
   "theorems": [
    "C42_first_tick",
    "C42_next_tick",
    "C42_failing_tick",
    "C42_due_tick_possible"
   ],
   "note": "The neighbouring claim the code violates is stated as C132."
  },
  {
   "property": "C43",
   "status": "proved",
   "theorems": [
    "C43_delivered_iff",
    "C43_otherwise_not",
    "C43_history",
    "C43_methods",
    "C43_max_level_valid",
    "C43_enabled_level",
    "C43_new"
   ],
   "note": ""
  },
  {
   "property": "C44",
   "status": "proved",
   "theorems": [
    "C44_key_value_store",
    "C44_total",
    "C44_dummy",
    "C44_clones_share",
    "C44_last_write",
    "C44_frame"
   ],
   "note": ""
  },
  {
   "property": "C45",
   "status": "proved",
   "theorems": [
    "C45_read_range",
    "C45_read_range_errors",
    "C45_whole_files"
   ],
   "note": "The neighbouring claim the code violates is stated as C117."
  },
  {
   "property": "C46",
   "status": "proved",
   "theorems": [
    "C46_value",
    "C46_presence_rules",
    "C46_abort"
   ],
   "note": "The neighbouring claim the code violates is stated as C118, C135."
  },
  {
   "property": "C47",
   "status": "proved",
   "theorems": [
    "C47_modifiers",
    "C47_equals_modifier",
    "C47_trailing_wildcard",
    "C47_null"
   ],
   "note": "The neighbouring claim the code violates is stated as C119."
  },
  {
   "property": "C48",
   "status": "proved",
   "theorems": [
    "C48_skips_blanks",
    "C48_lossless",
    "C48_parts"
   ],
   "note": ""
  },
  {
   "property": "C49",
   "status": "proved",
   "theorems": [
    "C49_levels"
   ],
   "note": ""
  },
  {
   "property": "C50",
   "status": "proved",
   "theorems": [
    "C50_total",
    "C50_skip_total",
    "C50_progress",
    "C50_terminates",
    "C50_illegal_stays"
   ],
   "note": ""
  },
  {
   "property": "C51",
   "status": "proved",
   "theorems": [
    "C51_int",
    "C51_word"
   ],
   "note": "The neighbouring claim the code violates is stated as C120."
  },
  {
   "property": "C52",
   "status": "proved",
   "theorems": [
    "C52_contains",
    "C52_plain",
    "C52_like",
    "C52_every"
   ],
   "note": "The neighbouring claim the code violates is stated as C121."
  },
  {
   "property": "C53",
   "status": "proved",
   "theorems": [
    "C53_round_trip",
    "C53_literal"
   ],
   "note": ""
  },
  {
   "property": "C54",
   "status": "proved",
   "theorems": [
    "C54_protocol_ids",
    "C54_distinct"
   ],
   "note": ""
  },
  {
   "property": "C55",
   "status": "proved",
   "theorems": [
    "C55_methods",
    "C55_unknown",
    "C55_sound",
    "C55_equals"
   ],
   "note": "The neighbouring claim the code violates is stated as C122."
  },
  {
   "property": "C56",
   "status": "proved",
   "theorems": [
    "C56_techniques",
    "C56_tactics",
    "C56_nothing_else",
    "C56_distinct"
   ],
   "note": "The neighbouring claim the code violates is stated as C139."
  },
  {
   "property": "C57",
   "status": "proved",
   "theorems": [
    "C57_same_name",
    "C57_type_identifies_kind",
    "C57_every_type_reachable"
   ],
   "note": ""
  },
  {
   "property": "C58",
   "status": "proved",
   "theorems": [
    "C58_ipv4_keys",
    "C58_families",
    "C58_ipv6_keys"
   ],
   "note": "The neighbouring claim the code violates is stated as C123."
  },
  {
   "property": "C59",
   "status": "proved",
   "theorems": [
    "C59_mac_short_parts",
    "C59_parts",
    "C59_exact_48",
    "C59_exact_64",
    "C59_exact_128",
    "C59_exact_any"
   ],
   "note": "The neighbouring claim the code violates is stated as C124."
  },
  {
   "property": "C60",
   "status": "proved",
   "theorems": [
    "C60_ipv6_roundtrip",
    "C60_printed_text_is_valid",
    "C60_print_injective"
   ],
   "note": "The neighbouring claim the code violates is stated as C125."
  },
  {
   "property": "C61",
   "status": "proved",
   "theorems": [
    "C61_display_injective",
    "C61_parse_total",
    "C61_v4_roundtrip",
    "C61_v6_roundtrip",
    "C61_equals_iff",
    "C61_from_octets"
   ],
   "note": ""
  },
  {
   "property": "C62",
   "status": "proved",
   "theorems": [
    "C62_all_but_two"
   ],
   "note": "The neighbouring claim the code violates is stated as C126."
  },
  {
   "property": "C63",
   "status": "proved",
   "theorems": [
    "C63_decimals_near",
    "C63_decimal_sum_near",
    "C63_no_lost_updates",
    "C63_since_set",
    "C63_new",
    "C63_reset_reads_zero",
    "C63_whole_numbers_exact"
   ],
   "note": "The neighbouring claim the code violates is stated as C127."
  },
  {
   "property": "C64",
   "status": "proved",
   "theorems": [
    "C64_one_line",
    "C64_at_any_time"
   ],
   "note": "The neighbouring claim the code violates is stated as C128."
  },
  {
   "property": "C65",
   "status": "proved",
   "theorems": [
    "C65_instant"
   ],
   "note": "The neighbouring claim the code violates is stated as C129."
  },
  {
   "property": "C66",
   "status": "proved",
   "theorems": [
    "C66_ipv4",
    "C66_ipv6"
   ],
   "note": "The neighbouring claim the code violates is stated as C130."
  },
  {
   "property": "C67",
   "status": "proved",
   "theorems": [
    "C67_known_code",
    "C67_other_code",
    "C67_sound"
   ],
   "note": ""
  },
  {
   "property": "C68",
   "status": "proved",
   "theorems": [
    "C68_stop_taken_in_turn"
   ],
   "note": "The neighbouring claim the code violates is stated as C131."
  },
  {
   "property": "C69",
   "status": "proved",
   "theorems": [
    "C69_no_tick_while_busy",
    "C69_due_tick_possible"
   ],
   "note": "The neighbouring claim the code violates is stated as C132."
  },
  {
   "property": "C70",
   "status": "proved",
   "theorems": [
    "C70_processed_once"
   ],
   "note": "The neighbouring claim the code violates is stated as C133."
  },
  {
   "property": "C71",
   "status": "proved",
   "theorems": [
    "C71_try_send",
    "C71_send",
    "C71_send_timeout",
    "C71_conversions"
   ],
   "note": ""
  },
  {
   "property": "C72",
   "status": "proved",
   "theorems": [
    "C72_task_type",
    "C72_printed_name_identifies"
   ],
   "note": "The neighbouring claim the code violates is stated as C134."
  },
  {
   "property": "C73",
   "status": "proved",
   "theorems": [
    "C73_all_subrules"
   ],
   "note": "The neighbouring claim the code violates is stated as C135."
  },
  {
   "property": "C74",
   "status": "proved",
   "theorems": [
    "C74_map"
   ],
   "note": "The neighbouring claim the code violates is stated as C136."
  },
  {
   "property": "C75",
   "status": "proved",
   "theorems": [
    "C75_rule",
    "C75_subrules",
    "C75_total",
    "C75_texts",
    "C75_slices"
   ],
   "note": ""
  },
  {
   "property": "C76",
   "status": "proved",
   "theorems": [
    "C76_reference"
   ],
   "note": "The neighbouring claim the code violates is stated as C137."
  },
  {
   "property": "C77",
   "status": "proved",
   "theorems": [
    "C77_lookup",
    "C77_consistent"
   ],
   "note": ""
  },
  {
   "property": "C78",
   "status": "proved",
   "theorems": [
    "C78_reflexive",
    "C78_identity"
   ],
   "note": "The neighbouring claim the code violates is stated as C138."
  },
  {
   "property": "C79",
   "status": "proved",
   "theorems": [
    "C79_command_and_control"
   ],
   "note": "The neighbouring claim the code violates is stated as C139."
  },
  {
   "property": "C80",
   "status": "partial",
   "theorems": [
    "C80_condition_dropped_refuted"
   ],
   "note": "Violated by the code, with a counterexample proved: From<SigmaRule> for SiemRule never looks at detection.condition: rules that differ only in it convert to the same rule, without trigger groups. Nothing of the property holds."
  },
  {
   "property": "C81",
   "status": "proved",
   "theorems": [
    "C81_query",
    "C81_unambiguous",
    "C81_one_token"
   ],
   "note": "The neighbouring claim the code violates is stated as C140."
  },
  {
   "property": "C82",
   "status": "partial",
   "theorems": [
    "C82_literal_refuted",
    "C82_string_refuted"
   ],
   "note": "Violated by the code, with a counterexample proved: read_literal and read_string stop at the end of the input as at a closing quote: the unterminated string is returned as a token, then EOF."
  },
  {
   "property": "C83",
   "status": "proved",
   "theorems": [
    "C83_conversions",
    "C83_kinds_are_distinct"
   ],
   "note": ""
  },
  {
   "property": "C84",
   "status": "proved",
   "theorems": [
    "C84_ip_sets",
    "C84_ip_maps",
    "C84_text_maps",
    "C84_ip_nets",
    "C84_reader_set",
    "C84_reader_ip_map",
    "C84_reader_text_map"
   ],
   "note": "The neighbouring claim the code violates is stated as C114, C141."
  },
  {
   "property": "C85",
   "status": "proved",
   "theorems": [
    "C85_reads",
    "C85_text_identifies",
    "C85_text_parses"
   ],
   "note": "The neighbouring claim the code violates is stated as C142."
  },
  {
   "property": "C86",
   "status": "proved",
   "theorems": [
    "C86_becomes",
    "C86_kept",
    "C86_stable",
    "C86_display"
   ],
   "note": "The neighbouring claim the code violates is stated as C143."
  },
  {
   "property": "C87",
   "status": "proved",
   "theorems": [
    "C87_written",
    "C87_reads",
    "C87_readable",
    "C87_accepts"
   ],
   "note": "The neighbouring claim the code violates is stated as C144."
  },
  {
   "property": "C88",
   "status": "proved",
   "theorems": [
    "C88_roundtrip",
    "C88_identifies",
    "C88_tag",
    "C88_function_types",
    "C88_headers",
    "C88_tasks"
   ],
   "note": "The neighbouring claim the code violates is stated as C145."
  },
  {
   "property": "C89",
   "status": "proved",
   "theorems": [
    "C89_becomes",
    "C89_roundtrip",
    "C89_results"
   ],
   "note": "The neighbouring claim the code violates is stated as C146."
  },
  {
   "property": "C90",
   "status": "proved",
   "theorems": [
    "C90_roundtrip",
    "C90_unknown_key",
    "C90_members"
   ],
   "note": "The neighbouring claim the code violates is stated as C147."
  },
  {
   "property": "C91",
   "status": "proved",
   "theorems": [
    "C91_becomes",
    "C91_same_matches",
    "C91_identity"
   ],
   "note": "The neighbouring claim the code violates is stated as C148."
  },
  {
   "property": "C92",
   "status": "proved",
   "theorems": [
    "C92_roundtrip",
    "C92_logs_and_alerts"
   ],
   "note": "The neighbouring claim the code violates is stated as C149."
  },
  {
   "property": "C93",
   "status": "proved",
   "theorems": [
    "C93_definition",
    "C93_counter",
    "C93_gauge",
    "C93_histogram"
   ],
   "note": "The neighbouring claim the code violates is stated as C150."
  },
  {
   "property": "C94",
   "status": "proved",
   "theorems": [
    "C94_dataset_type",
    "C94_dataset_only_type",
    "C94_use_case_reads",
    "C94_use_case_shown",
    "C94_steps",
    "C94_capabilities"
   ],
   "note": "The neighbouring claim the code violates is stated as C151."
  },
  {
   "property": "C95",
   "status": "proved",
   "theorems": [
    "C95_written",
    "C95_roundtrip",
    "C95_json",
    "C95_shown",
    "C95_json_shown",
    "C95_reads",
    "C95_reads_list"
   ],
   "note": "The neighbouring claim the code violates is stated as C152."
  },
  {
   "property": "C96",
   "status": "partial",
   "theorems": [
    "C96_short_refuted",
    "C96_only_dotted_quads_refuted"
   ],
   "note": "Violated by the code, with a counterexample proved: ipv4_from_str pads missing octets: '1.2' is read as 0.0.1.2. What holds instead is proved under C02."
  },
  {
   "property": "C97",
   "status": "partial",
   "theorems": [
    "C97_long_refuted",
    "C97_four_digits_refuted",
    "C97_stray_colon_refuted",
    "C97_long_addresses_refuted",
    "C97_trailing_colon_refuted"
   ],
   "note": "Violated by the code, with a counterexample proved: ipv6_from_str refuses every text longer than 38 characters, so the 39 character ones with eight full groups, and accepts '::1:'. What holds instead is proved under C04."
  },
  {
   "property": "C98",
   "status": "partial",
   "theorems": [
    "C98_eight_octets_refuted",
    "C98_sixteen_octets_refuted",
    "C98_print_injective_refuted",
    "C98_mac128_value_refuted",
    "C98_mac128_only_zero_refuted"
   ],
   "note": "Violated by the code, with a counterexample proved: mac_u128_to_str chooses the width by the value, so leading zero octets are lost; mac_str_to_u128 does not compute the value of 16 octets. What holds instead is proved under C08, C07."
  },
  {
   "property": "C99",
   "status": "partial",
   "theorems": [
    "C99_asymmetric_refuted",
    "C99_intransitive_refuted",
    "C99_symmetric_refuted",
    "C99_transitive_refuted",
    "C99_distinct_contents_refuted"
   ],
   "note": "Violated by the code, with a counterexample proved: PartialEq for SiemField: a number, date, array, path or null equals every text but not conversely; arrays are compared as joined texts; any two paths are equal. What holds instead is proved under C10."
  },
  {
   "property": "C100",
   "status": "partial",
   "theorems": [
    "C100_addresses_refuted",
    "C100_numbers_refuted",
    "C100_arrays_refuted",
    "C100_equal_hash_refuted"
   ],
   "note": "Violated by the code, with a counterexample proved: Hash feeds the variant's own data, equality compares across variants (text against address, number, array). What holds instead is proved under C11."
  },
  {
   "property": "C101",
   "status": "partial",
   "theorems": [
    "C101_asset_contains_refuted"
   ],
   "note": "Violated by the code, with a counterexample proved: contains_str on AssetID answers true whatever the argument. What holds instead is proved under C12."
  },
  {
   "property": "C102",
   "status": "partial",
   "theorems": [
    "C102_exact_refuted",
    "C102_number_changed_refuted"
   ],
   "note": "Violated by the code, with a counterexample proved: 'as' casts: -1 becomes 2^64-1, 2^63 becomes -2^63, 2^53+1 loses its last bit. What holds instead is proved under C13."
  },
  {
   "property": "C103",
   "status": "partial",
   "theorems": [
    "C103_in_place_edit_refuted",
    "C103_iter_mut_refuted",
    "C103_after_read_refuted",
    "C103_after_write_refuted"
   ],
   "note": "Violated by the code, with a counterexample proved: field_mut and iter_mut hand out the value without clearing the cached conversions. What holds instead is proved under C15, C193."
  },
  {
   "property": "C104",
   "status": "partial",
   "theorems": [
    "C104_stays_refuted",
    "C104_only_ips_refuted",
    "C104_after_schema_refuted"
   ],
   "note": "Violated by the code, with a counterexample proved: Insert never removes a name from the list of address fields, and ip_fields stops at the first listed name that is gone. What holds instead is proved under C16, C193."
  },
  {
   "property": "C105",
   "status": "partial",
   "theorems": [
    "C105_capitals_refuted",
    "C105_has_tag_refuted"
   ],
   "note": "Violated by the code, with a counterexample proved: add_tag stores the lower-cased text, has_tag looks up the text as given. What holds instead is proved under C17."
  },
  {
   "property": "C106",
   "status": "partial",
   "theorems": [
    "C106_set_event_created_refuted"
   ],
   "note": "Violated by the code, with a counterexample proved: set_event_created stores an I64, event_created only reads a Date: the answer is always 0. What holds instead is proved under C18."
  },
  {
   "property": "C107",
   "status": "partial",
   "theorems": [
    "C107_timestamps_refuted"
   ],
   "note": "Violated by the code, with a counterexample proved: The schema declares event_created and event_received, logs use event.created and event.received. What holds instead is proved under C20."
  },
  {
   "property": "C108",
   "status": "partial",
   "theorems": [
    "C108_dns_query_data_refuted"
   ],
   "note": "Violated by the code, with a counterexample proved: From<DnsEvent> writes dns.answer.data for answers only. What holds instead is proved under C22."
  },
  {
   "property": "C109",
   "status": "partial",
   "theorems": [
    "C109_first_bucket_refuted",
    "C109_get_count_refuted"
   ],
   "note": "Violated by the code, with a counterexample proved: get_count compares le >= bucket bound, so it stops at the first bucket not above le. What holds instead is proved under C25."
  },
  {
   "property": "C110",
   "status": "partial",
   "theorems": [
    "C110_product_refuted"
   ],
   "note": "Violated by the code, with a counterexample proved: The odometer of label_combinations takes the size of the wrong label: with sizes 2, 2, 3 rows repeat and choices are missing. What holds instead is proved under C26."
  },
  {
   "property": "C111",
   "status": "partial",
   "theorems": [
    "C111_histogram_refuted",
    "C111_quote_refuted"
   ],
   "note": "Violated by the code, with a counterexample proved: Bucket bounds are written without quotes (le=1), which is not Prometheus text; label values are not escaped. What holds instead is proved under C27."
  },
  {
   "property": "C112",
   "status": "partial",
   "theorems": [
    "C112_empty_batch_refuted"
   ],
   "note": "Violated by the code, with a counterexample proved: The apply functions unwrap the first update: an empty batch aborts. What holds instead is proved under C32."
  },
  {
   "property": "C113",
   "status": "partial",
   "theorems": [
    "C113_host_network_refuted",
    "C113_trailing_zeros_refuted",
    "C113_most_specific_refuted",
    "C113_hosts_refuted",
    "C113_first_address_refuted",
    "C113_wider_wins_refuted"
   ],
   "note": "Violated by the code, with a counterexample proved: The lookup loop of IpNetDataset::get starts at the number of trailing zeros and ends before the width: a /32 is never found, an address with more trailing zeros than the prefix length is not found, and the shortest matching prefix wins. What holds instead is proved under C34, C33."
  },
  {
   "property": "C114",
   "status": "partial",
   "theorems": [
    "C114_full_channel_refuted",
    "C114_dropped_refuted",
    "C114_empty_dataset_refuted"
   ],
   "note": "Violated by the code, with a counterexample proved: The Syn datasets use try_send and drop the error; empty() makes a dataset without receiver. What holds instead is proved under C35, C84, C195, C196."
  },
  {
   "property": "C115",
   "status": "partial",
   "theorems": [
    "C115_first_day_refuted",
    "C115_first_day_lost_refuted"
   ],
   "note": "Violated by the code, with a counterexample proved: CalendarDataset::insert ends the first of several days at the beginning of that day (day * 86400000), before its start: nothing is found on that day (only midnight itself, for a start at midnight). What holds instead is proved under C36."
  },
  {
   "property": "C116",
   "status": "partial",
   "theorems": [
    "C116_geo_ip_refuted"
   ],
   "note": "Violated by the code, with a counterexample proved: TryFrom<(SiemDatasetType, GeoIpDataset)> has the test the wrong way round: refused for GeoIp and accepted for every other type. What holds instead is proved under C39."
  },
  {
   "property": "C117",
   "status": "partial",
   "theorems": [
    "C117_read_range_refuted",
    "C117_read_to_end_always_fails_refuted",
    "C117_write_range_refuted"
   ],
   "note": "Violated by the code, with a counterexample proved: get_file_range refuses stop = length; set_file_range replaces the whole file by the content. What holds instead is proved under C45."
  },
  {
   "property": "C118",
   "status": "partial",
   "theorems": [
    "C118_value_tests_abort_refuted",
    "C118_negation_refuted"
   ],
   "note": "Violated by the code, with a counterexample proved: RuleCondition::matches is todo!() for every operator on a present field except Exists and IsNull; a negated condition on an absent field is false. What holds instead is proved under C46."
  },
  {
   "property": "C119",
   "status": "partial",
   "theorems": [
    "C119_leading_wildcard_refuted",
    "C119_both_wildcards_refuted",
    "C119_both_wildcards_abort_refuted",
    "C119_both_wildcards_characters_refuted",
    "C119_other_modifiers_refuted",
    "C119_lists_refuted",
    "C119_inner_wildcards_refuted",
    "C119_double_wildcard_refuted",
    "C119_null_abort_refuted",
    "C119_null_contains_refuted"
   ],
   "note": "Violated by the code, with a counterexample proved: parse_rule_condition: a leading wildcard becomes StartsWith, wildcards on both sides cut the last byte, unknown modifiers become All([]), lists under startswith/endswith are printed, inner wildcards are literal, null aborts under modifiers and in lists. What holds instead is proved under C47."
  },
  {
   "property": "C120",
   "status": "partial",
   "theorems": [
    "C120_zero_refuted",
    "C120_zero_query_refuted"
   ],
   "note": "Violated by the code, with a counterexample proved: The end of the query is the character '0' in the lexer, so a number that starts with 0 ends the query. What holds instead is proved under C51."
  },
  {
   "property": "C121",
   "status": "partial",
   "theorems": [
    "C121_trailing_refuted",
    "C121_leading_refuted",
    "C121_escape_refuted",
    "C121_escaped_refuted"
   ],
   "note": "Violated by the code, with a counterexample proved: read_string swaps StartsWith and EndsWith, and treats escaped asterisks as wildcards or keeps their backslash. What holds instead is proved under C52."
  },
  {
   "property": "C122",
   "status": "partial",
   "theorems": [
    "C122_put_refuted"
   ],
   "note": "Violated by the code, with a counterexample proved: FromStr for HttpMethod has no arm for PUT. What holds instead is proved under C55."
  },
  {
   "property": "C123",
   "status": "partial",
   "theorems": [
    "C123_ipv6_length_refuted",
    "C123_ipv6_collides_refuted",
    "C123_families_refuted"
   ],
   "note": "Violated by the code, with a counterexample proved: get_key writes the length of an IPv6 network over address bytes that then hide it: 2001::/16 and 2001::/32 share a key; 128.0.0.0/1 and 8000::/1 too. What holds instead is proved under C58."
  },
  {
   "property": "C124",
   "status": "partial",
   "theorems": [
    "C124_mac64_no_panic_refuted",
    "C124_mac48_range_refuted",
    "C124_mac48_extra_octets_refuted"
   ],
   "note": "Violated by the code, with a counterexample proved: A part between separators may have any number of hex digits: 64-bit shifts overflow (abort), 48-bit values exceed 48 bits; extra parts are ignored. What holds instead is proved under C59."
  },
  {
   "property": "C125",
   "status": "partial",
   "theorems": [
    "C125_mapped_refuted",
    "C125_wide_refuted",
    "C125_mapped_addresses_refuted",
    "C125_wide_addresses_refuted"
   ],
   "note": "Violated by the code, with a counterexample proved: ipv6_to_str prints ::ffff:a.b.c.d, which the parser never accepts, and 39 character texts, which it refuses. What holds instead is proved under C60."
  },
  {
   "property": "C126",
   "status": "partial",
   "theorems": [
    "C126_dns_data_refuted",
    "C126_dhcp_requested_ip_refuted",
    "C126_lost_refuted"
   ],
   "note": "Violated by the code, with a counterexample proved: get_default_schema declares no dns.answer.data, and dhcp.requested_ip where the conversion writes requested_ip: applying the schema drops both fields. What holds instead is proved under C62."
  },
  {
   "property": "C127",
   "status": "partial",
   "theorems": [
    "C127_decimals_refuted"
   ],
   "note": "Violated by the code, with a counterexample proved: Set multiplies by 100000 and truncates: some values with five decimals lose one unit. What holds instead is proved under C63."
  },
  {
   "property": "C128",
   "status": "partial",
   "theorems": [
    "C128_forged_refuted",
    "C128_definitions_refuted"
   ],
   "note": "Violated by the code, with a counterexample proved: valid_description accepts a line break, which ends the HELP line in the exposition. What holds instead is proved under C64."
  },
  {
   "property": "C129",
   "status": "partial",
   "theorems": [
    "C129_any_excess_refuted",
    "C129_torn_scrape_refuted"
   ],
   "note": "Violated by the code, with a counterexample proved: The encoder reads the count before the buckets; observations in between show in the buckets only. What holds instead is proved under C65."
  },
  {
   "property": "C130",
   "status": "partial",
   "theorems": [
    "C130_ipv6_refuted"
   ],
   "note": "Violated by the code, with a counterexample proved: Because keys collide (C123), 2001:1::1 is found in 2001::/32. What holds instead is proved under C66."
  },
  {
   "property": "C131",
   "status": "partial",
   "theorems": [
    "C131_stop_under_blocked_output_refuted"
   ],
   "note": "Violated by the code, with a counterexample proved: process_log sends with a blocking send: while the output is full the component does not look at its messages. What holds instead is proved under C68, C41."
  },
  {
   "property": "C132",
   "status": "partial",
   "theorems": [
    "C132_due_tick_performed_refuted"
   ],
   "note": "Violated by the code, with a counterexample proved: The deadline is only looked at when no message and no log is ready. What holds instead is proved under C69, C42."
  },
  {
   "property": "C133",
   "status": "partial",
   "theorems": [
    "C133_processed_once_refuted",
    "C133_self_deadlock_refuted"
   ],
   "note": "Violated by the code, with a counterexample proved: SimpleComponent::new connects the log output to the log input; without set_log_channel every forwarded log comes back, and the second one blocks the component on itself. What holds instead is proved under C70, C40."
  },
  {
   "property": "C134",
   "status": "partial",
   "theorems": [
    "C134_any_name_refuted",
    "C134_printed_name_identifies_refuted"
   ],
   "note": "Violated by the code, with a counterexample proved: TaskType::OTHER displays its name, which may be that of a predefined type. What holds instead is proved under C72."
  },
  {
   "property": "C135",
   "status": "partial",
   "theorems": [
    "C135_groups_ignored_refuted",
    "C135_triggered_refuted"
   ],
   "note": "Violated by the code, with a counterexample proved: SiemRule::matches requires every condition of every subrule and never reads the trigger groups. What holds instead is proved under C73, C46."
  },
  {
   "property": "C136",
   "status": "partial",
   "theorems": [
    "C136_alternatives_refuted"
   ],
   "note": "Violated by the code, with a counterexample proved: From<SigmaRuleCondition> for SiemSubRule puts the conditions of all maps of a list into one subrule, which requires all. What holds instead is proved under C74."
  },
  {
   "property": "C137",
   "status": "partial",
   "theorems": [
    "C137_reference_refuted"
   ],
   "note": "Violated by the code, with a counterexample proved: transform_alert_content ends a reference only at a space: a comma, bracket or line end becomes part of the name. What holds instead is proved under C76."
  },
  {
   "property": "C138",
   "status": "partial",
   "theorems": [
    "C138_equality_refuted"
   ],
   "note": "Violated by the code, with a counterexample proved: Derived equality of operators uses the equality of fields (C99). What holds instead is proved under C78."
  },
  {
   "property": "C139",
   "status": "partial",
   "theorems": [
    "C139_other_tactics_refuted"
   ],
   "note": "Violated by the code, with a counterexample proved: MitreTactics::try_from knows the identifiers and command_and_control; the other tactic names are refused, so their tags are dropped. What holds instead is proved under C79, C56."
  },
  {
   "property": "C140",
   "status": "partial",
   "theorems": [
    "C140_query_refuted"
   ],
   "note": "Violated by the code, with a counterexample proved: See C120 and C121. What holds instead is proved under C81."
  },
  {
   "property": "C141",
   "status": "partial",
   "theorems": [
    "C141_overflow_refuted"
   ],
   "note": "Violated by the code, with a counterexample proved: An overflowing channel loses updates silently (C114). What holds instead is proved under C84, C195."
  },
  {
   "property": "C142",
   "status": "partial",
   "theorems": [
    "C142_roundtrip_refuted",
    "C142_never_refuted"
   ],
   "note": "Violated by the code, with a counterexample proved: SiemIp is written as text by its own Serialize but read by the derived Deserialize as {\"V4\": n}. What holds instead is proved under C85."
  },
  {
   "property": "C143",
   "status": "partial",
   "theorems": [
    "C143_roundtrip_refuted"
   ],
   "note": "Violated by the code, with a counterexample proved: SiemField is untagged: domains, users, assets, paths and dates come back as texts and numbers, addresses as texts, non-negative I64 as U64, non-finite floats as null. What holds instead is proved under C86."
  },
  {
   "property": "C144",
   "status": "partial",
   "theorems": [
    "C144_unreadable_refuted",
    "C144_new_log_refuted",
    "C144_roundtrip_refuted"
   ],
   "note": "Violated by the code, with a counterexample proved: SiemLog is flattened when written, but read as a map of {\"original\": ...} objects. What holds instead is proved under C87."
  },
  {
   "property": "C145",
   "status": "partial",
   "theorems": [
    "C145_addresses_refuted",
    "C145_roundtrip_refuted"
   ],
   "note": "Violated by the code, with a counterexample proved: Commands that carry an address cannot be read because of C142. What holds instead is proved under C88."
  },
  {
   "property": "C146",
   "status": "partial",
   "theorems": [
    "C146_rows_refuted"
   ],
   "note": "Violated by the code, with a counterexample proved: Rows hold field values, which change as in C143. What holds instead is proved under C89."
  },
  {
   "property": "C147",
   "status": "partial",
   "theorems": [
    "C147_behaviour_refuted",
    "C147_incomplete_refuted"
   ],
   "note": "Violated by the code, with a counterexample proved: The reader of TaskDefinition replaces the builder by a stub and takes defaults for missing keys. What holds instead is proved under C90."
  },
  {
   "property": "C148",
   "status": "partial",
   "theorems": [
    "C148_networks_refuted",
    "C148_roundtrip_refuted"
   ],
   "note": "Violated by the code, with a counterexample proved: A network test carries an address and is unreadable (C142); values in comparisons change (C143). What holds instead is proved under C91."
  },
  {
   "property": "C149",
   "status": "partial",
   "theorems": [
    "C149_lost_refuted",
    "C149_roundtrip_refuted"
   ],
   "note": "Violated by the code, with a counterexample proved: Datasets cannot be written, logs and alerts of usual logs cannot be read (C144), commands with addresses neither (C145). What holds instead is proved under C92."
  },
  {
   "property": "C150",
   "status": "partial",
   "theorems": [
    "C150_uniform_refuted"
   ],
   "note": "Violated by the code, with a counterexample proved: Counters write metric_type and valuess, gauges metric_type and values, histograms type and value. What holds instead is proved under C93."
  },
  {
   "property": "C151",
   "status": "partial",
   "theorems": [
    "C151_action_refuted"
   ],
   "note": "Violated by the code, with a counterexample proved: SiemAutomatedStep's Serialize leaves out the action. What holds instead is proved under C94."
  },
  {
   "property": "C152",
   "status": "partial",
   "theorems": [
    "C152_other_protocol_refuted",
    "C152_address_refuted",
    "C152_roundtrip_refuted",
    "C152_json_tag_refuted",
    "C152_json_null_refuted",
    "C152_dhcp_refuted"
   ],
   "note": "Violated by the code, with a counterexample proved: A protocol with a text cannot be written internally tagged; addresses are unreadable (C142); no 128-bit MAC is read from buffered content, so no DHCP event at all; an entry event_type in a JSON event clashes with the tag; null becomes {}. What holds instead is proved under C95."
  },
  {
   "property": "C153",
   "status": "proved",
   "theorems": [
    "C153_messages",
    "C153_payloads",
    "C153_rules",
    "C153_order",
    "C153_enumerations",
    "C153_open_enumerations",
    "C153_sigma"
   ],
   "note": ""
  },
  {
   "property": "C154",
   "status": "proved",
   "theorems": [
    "C154_fifo",
    "C154_exactly_once",
    "C154_each_component"
   ],
   "note": ""
  },
  {
   "property": "C155",
   "status": "proved",
   "theorems": [
    "C155_nothing_else",
    "C155_nothing_lost"
   ],
   "note": ""
  },
  {
   "property": "C156",
   "status": "proved",
   "theorems": [
    "C156_order"
   ],
   "note": ""
  },
  {
   "property": "C157",
   "status": "proved",
   "theorems": [
    "C157_shutdown",
    "C157_not_before"
   ],
   "note": ""
  },
  {
   "property": "C158",
   "status": "proved",
   "theorems": [
    "C158_bounded"
   ],
   "note": ""
  },
  {
   "property": "C159",
   "status": "proved",
   "theorems": [
    "C159_text_parser",
    "C159_all_parser",
    "C159_error_parser",
    "C159_no_log_lost",
    "C159_generated",
    "C159_generator_fits"
   ],
   "note": "The neighbouring claim the code violates is stated as C165."
  },
  {
   "property": "C160",
   "status": "proved",
   "theorems": [
    "C160_written",
    "C160_read",
    "C160_new_log_unreadable"
   ],
   "note": ""
  },
  {
   "property": "C161",
   "status": "proved",
   "theorems": [
    "C161_action_is_seen_first",
    "C161_stops"
   ],
   "note": ""
  },
  {
   "property": "C162",
   "status": "proved",
   "theorems": [
    "C162_schema_json",
    "C162_document",
    "C162_schema_keys"
   ],
   "note": ""
  },
  {
   "property": "C163",
   "status": "proved",
   "theorems": [
    "C163_predefined_tags",
    "C163_distinct"
   ],
   "note": ""
  },
  {
   "property": "C164",
   "status": "proved",
   "theorems": [
    "C164_default_names",
    "C164_names_differ"
   ],
   "note": ""
  },
  {
   "property": "C165",
   "status": "partial",
   "theorems": [
    "C165_generator_fits_refuted"
   ],
   "note": "Violated by the code, with a counterexample proved: The generator makes the text 'This is a dummy log', which does not contain DUMMY. What holds instead is proved under C159."
  },
  {
   "property": "C166",
   "status": "proved",
   "theorems": [
    "C166_enumerations",
    "C166_open_enumerations",
    "C166_commands",
    "C166_headers",
    "C166_tasks",
    "C166_definitions",
    "C166_responses",
    "C166_alerts",
    "C166_messages",
    "C166_operators",
    "C166_rules"
   ],
   "note": ""
  },
  {
   "property": "C167",
   "status": "partial",
   "theorems": [
    "C167_kind_refuted"
   ],
   "note": "Violated by the code, with a counterexample proved: Five of the conversions into SiemDataset say 'IpMapSynDataset not valid for this type' for every kind of dataset. What holds instead is proved under C39."
  },
  {
   "property": "C168",
   "status": "proved",
   "theorems": [
    "C168_ipv4",
    "C168_ipv6",
    "C168_port",
    "C168_fields",
    "C168_metrics",
    "C168_metric_definitions"
   ],
   "note": ""
  },
  {
   "property": "C169",
   "status": "proved",
   "theorems": [
    "C169_query",
    "C169_headers"
   ],
   "note": ""
  },
  {
   "property": "C170",
   "status": "proved",
   "theorems": [
    "C170_counter",
    "C170_histogram"
   ],
   "note": "The neighbouring claim the code violates is stated as C171."
  },
  {
   "property": "C171",
   "status": "partial",
   "theorems": [
    "C171_any_negative_refuted",
    "C171_any_wrap_refuted",
    "C171_negative_refuted",
    "C171_wrap_refuted"
   ],
   "note": "Violated by the code, with a counterexample proved: inc_by takes negative numbers, and the cell wraps around past 2^63 - 1. What holds instead is proved under C170."
  },
  {
   "property": "C172",
   "status": "proved",
   "theorems": [
    "C172_series",
    "C172_labels"
   ],
   "note": ""
  },
  {
   "property": "C173",
   "status": "proved",
   "theorems": [
    "C173_text",
    "C173_time",
    "C173_equality",
    "C173_length"
   ],
   "note": "The neighbouring claim the code violates is stated as C174."
  },
  {
   "property": "C174",
   "status": "partial",
   "theorems": [
    "C174_distinct_refuted"
   ],
   "note": "Violated by the code, with a counterexample proved: A time outside chrono's range is shown as 1970-01-01T00:00:00.000Z, so these dates all equal each other and the epoch. What holds instead is proved under C173."
  },
  {
   "property": "C175",
   "status": "proved",
   "theorems": [
    "C175_fields",
    "C175_logs",
    "C175_events",
    "C175_rules",
    "C175_task_definitions",
    "C175_messages",
    "C175_sigma"
   ],
   "note": ""
  },
  {
   "property": "C176",
   "status": "proved",
   "theorems": [
    "C176_messages",
    "C176_rules"
   ],
   "note": ""
  },
  {
   "property": "C177",
   "status": "proved",
   "theorems": [
    "C177_user_id"
   ],
   "note": "The neighbouring claim the code violates is stated as C178."
  },
  {
   "property": "C178",
   "status": "partial",
   "theorems": [
    "C178_user_id_distinct_refuted"
   ],
   "note": "Violated by the code, with a counterexample proved: The domain and the name are joined with a bar that neither is checked for: domain a|b with name c and domain a with name b|c give the same identifier. What holds instead is proved under C177."
  },
  {
   "property": "C179",
   "status": "proved",
   "theorems": [
    "C179_document",
    "C179_roundtrip",
    "C179_passed_on",
    "C179_meaning",
    "C179_reads"
   ],
   "note": "The neighbouring claim the code violates is stated as C180, C181."
  },
  {
   "property": "C180",
   "status": "partial",
   "theorems": [
    "C180_condition_refuted"
   ],
   "note": "Violated by the code, with a counterexample proved: The identifiers are flattened into the object that also has the member condition, so an identifier of that name gives a duplicate member, which is refused. What holds instead is proved under C179."
  },
  {
   "property": "C181",
   "status": "partial",
   "theorems": [
    "C181_keywords",
    "C181_truth_values",
    "C181_texts",
    "C181_refuted"
   ],
   "note": "Violated by the code, with a counterexample proved: SigmaRuleCondition has no list of keywords and SigmaValue no boolean, and every member but condition must be an identifier: keyword lists, truth values and timeframe are refused. What holds instead is proved under C179."
  },
  {
   "property": "C182",
   "status": "proved",
   "theorems": [
    "C182_document",
    "C182_roundtrip",
    "C182_fits",
    "C182_passed_on"
   ],
   "note": ""
  },
  {
   "property": "C183",
   "status": "proved",
   "theorems": [
    "C183_counter",
    "C183_gauge",
    "C183_histogram"
   ],
   "note": "The neighbouring claim the code violates is stated as C184."
  },
  {
   "property": "C184",
   "status": "partial",
   "theorems": [
    "C184_histogram_refuted",
    "C184_refuted"
   ],
   "note": "Violated by the code, with a counterexample proved: The type of a histogram is written 'histogram ' with a blank before the end of the line, and the rest of the line is the type. What holds instead is proved under C183."
  },
  {
   "property": "C185",
   "status": "proved",
   "theorems": [
    "C185_record",
    "C185_document",
    "C185_reads",
    "C185_whole",
    "C185_rounding",
    "C185_lookups",
    "C185_ipv4"
   ],
   "note": "The neighbouring claim the code violates is stated as C186."
  },
  {
   "property": "C186",
   "status": "partial",
   "theorems": [
    "C186_aborts",
    "C186_refuted"
   ],
   "note": "Violated by the code, with a counterexample proved: A latitude or longitude that is infinite or not a number is written as null, which is not read as a number, and the reader unwraps: every lookup that finds the record aborts. What holds instead is proved under C185."
  },
  {
   "property": "C187",
   "status": "proved",
   "theorems": [
    "C187_limit",
    "C187_nesting",
    "C187_read",
    "C187_events",
    "C187_rules"
   ],
   "note": "The neighbouring claim the code violates is stated as C188."
  },
  {
   "property": "C188",
   "status": "partial",
   "theorems": [
    "C188_exact",
    "C188_refuted",
    "C188_sigma"
   ],
   "note": "Violated by the code, with a counterexample proved: A rule with 123 operators inside each other, such as negations, is written but not read from the text: serde_json's reader refuses the 128th array or object inside each other. What holds instead is proved under C187."
  },
  {
   "property": "C189",
   "status": "proved",
   "theorems": [
    "C189_meaning"
   ],
   "note": "The neighbouring claim the code violates is stated as C190."
  },
  {
   "property": "C190",
   "status": "partial",
   "theorems": [
    "C190_never_refuted",
    "C190_nulls"
   ],
   "note": "Violated by the code, with a counterexample proved: A converted Sigma rule with any test on a value never answers yes on a log: its tests are operators whose evaluation answers no or aborts. Only rules that ask for nothing but absent fields answer rightly. What holds instead is proved under C189."
  },
  {
   "property": "C191",
   "status": "proved",
   "theorems": [
    "C191_ipv6",
    "C191_ipv4",
    "C191_mapped",
    "C191_unique"
   ],
   "note": ""
  },
  {
   "property": "C192",
   "status": "proved",
   "theorems": [
    "C192_unambiguous",
    "C192_text",
    "C192_one_line",
    "C192_documents",
    "C192_commands",
    "C192_messages",
    "C192_rules",
    "C192_events",
    "C192_dictionaries",
    "C192_sigma"
   ],
   "note": ""
  },
  {
   "property": "C193",
   "status": "proved",
   "theorems": [
    "C193_reads",
    "C193_values",
    "C193_ip_fields"
   ],
   "note": "The neighbouring claim the code violates is stated as C103, C104."
  },
  {
   "property": "C194",
   "status": "proved",
   "theorems": [
    "C194_none_refused",
    "C194_others_take_over"
   ],
   "note": ""
  },
  {
   "property": "C195",
   "status": "proved",
   "theorems": [
    "C195_ip_sets",
    "C195_ip_maps",
    "C195_text_maps",
    "C195_ip_nets",
    "C195_all_heard",
    "C195_reader_set",
    "C195_reader_ip_map",
    "C195_reader_text_map",
    "C195_no_receiver"
   ],
   "note": "The neighbouring claim the code violates is stated as C114, C141."
  },
  {
   "property": "C196",
   "status": "proved",
   "theorems": [
    "C196_nothing_lost",
    "C196_published",
    "C196_can_publish",
    "C196_given_back",
    "C196_timed"
   ],
   "note": "The neighbouring claim the code violates is stated as C114."
  }
 ]
}