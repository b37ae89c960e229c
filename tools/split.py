"""Properties the code satisfies only in part are stated twice: what it does satisfy (under the old id, restated in OV)
and the aspect it violates (a new id in NEW).  RENAME gives the theorem names this moved; LOG entries are mapped by it."""
OV = {}       # id -> (title, statement)
NEW = []      # (id, old id, title, statement)
RENAME = {}
_next = [96]
def split(old, title, statement, renames, ntitle=None, nstatement=None, moved=()):
    """renames: 'a>b' renames Cold_a to Cold_b; moved: 'a>b' renames Cold_a to Cnew_b."""
    OV[old] = (title, statement)
    for r in renames.split():
        a, b = r.split('>'); RENAME[old + '_' + a] = old + '_' + b
    if ntitle:
        new = 'C%02d' % _next[0]; _next[0] += 1
        NEW.append((new, old, ntitle, nstatement))
        for r in moved.split():
            a, b = r.split('>') if '>' in r else (r, r); RENAME[old + '_' + a] = new + '_' + b

split('C02', "IPv4 parser: language and value",
  "ipv4_from_str accepts every text of four decimal octets (0..255) separated by dots and returns o1*2^24+o2*2^16+o3*2^8+o4; what it accepts is exactly one to four such octets separated by dots, valued in base 256, and every result fits in 32 bits. ipv4_to_u32_bytes reads exactly four bytes, the most significant first.",
  "ipv4_language_partial>ipv4_language",
  "Only dotted quads are accepted as IPv4 addresses",
  "ipv4_from_str accepts a text only if it consists of four decimal octets separated by dots.",
  "only_dotted_quads_refuted")
split('C04', "IPv6 parser: language and value",
  "ipv6_from_str accepts exactly the valid IPv6 texts (eight groups of one to four hex digits, or at most seven groups around one '::') of at most 38 characters, and the compressed ones with groups after '::' followed by one stray ':'; it returns the 128-bit value RFC 4291 assigns to them. No text with a dot is accepted.",
  "ipv6_language_partial>ipv6_language",
  "The IPv6 parser accepts exactly the valid texts",
  "Every valid IPv6 text (eight groups of one to four hex digits, or at most seven groups around one '::') is accepted and anything else is rejected.",
  "long_addresses_refuted trailing_colon_refuted")
split('C08', "MAC addresses of any width: parsing and printing",
  "The any-width parser accepts every MAC text of 6, 8 or 16 octets and returns the big-endian value of the octets; printing that value gives the canonical text back exactly for 6 octets, for 8 octets worth at least 2^48 and for 16 octets worth at least 2^96.",
  "any_width_roundtrip_partial>any_width_roundtrip",
  "MAC text round trip for any width",
  "Parsing a 6, 8 or 16 octet MAC text with the any-width or the 128-bit parser and printing the value gives back the same text; different values print differently.",
  "eight_octets_refuted sixteen_octets_refuted print_injective_refuted mac128_value_refuted")
split('C10', "Field equality where it is an equivalence",
  "Equality of field values is reflexive. Among texts, domains, users, assets and addresses it means that they display alike; among fields that are not plain texts it is symmetric and transitive; integers (signed or unsigned) are equal exactly when they are the same number and addresses when they are the same address.",
  "equivalence_without_text_partial>equivalence_without_text textual_equality_partial>textual_equality",
  "Field equality is an equivalence relation",
  "Equality of field values is symmetric and transitive, and values holding different content are different.",
  "symmetric_refuted transitive_refuted distinct_contents_refuted")
split('C11', "Equal texts, integers and addresses hash equally",
  "Two texts, domains, users or assets, two integers, or two addresses that compare equal feed the same data to the hasher.",
  "equal_hash_partial>equal_hash",
  "Equal fields hash equally",
  "Any two field values that compare equal feed the same data to the hasher, so they can be used as hash-map keys.",
  "equal_hash_refuted")
split('C12', "Substring predicate on fields",
  "For every field that is not an asset, contains_str(s) (contains(g)) is true exactly when the field is textual and its text contains s (the text of g); eq_ignore_ascii_case compares texts up to letter case.",
  "contains_partial>contains contains_field_partial>contains_field",
  "Substring predicate on assets",
  "contains_str(s) is true of an asset identifier exactly when its text contains s.",
  "asset_contains_refuted")
split('C13', "Conversions of fields",
  "Converting an integer field to u64, i64 or f64 gives the same number when the target type can hold it (for f64: below 2^53 in absolute value); any integer converts to the nearest f64, ties to the even mantissa; an integer out of range keeps its 64-bit pattern; a float is truncated towards zero and saturates at the ends of the range, NaN giving 0; other kinds are refused. Text conversions give the text of textual fields only; printed integers parse to themselves; every field converts to an array of the texts that stand for it; address conversion never aborts.",
  "to_u64_partial>to_u64 to_i64_partial>to_i64 to_f64_partial>to_f64",
  "No conversion changes a number",
  "Converting a field to u64/i64/f64 fails or returns the number the field denotes.",
  "number_changed_refuted")
split('C15', "Typed reads are transparent over insertions, tags and headers",
  "After any history of insertions, tags, header changes and typed reads, a typed read of a field returns the conversion of the value the field currently holds, no matter which typed reads happened before, and never changes any field.",
  "typed_reads_partial>typed_reads",
  "Typed reads are transparent after edits in place",
  "A typed read returns the conversion of the current value also after the value was edited in place (field_mut, iter_mut).",
  "in_place_edit_refuted iter_mut_refuted")
split('C16', "ip_fields reports every field holding an IP",
  "ip_fields() yields every field whose current value is an IP address, and exactly the fields that ever received one, with their current values; so only IPs if such fields receive nothing else. Applying a schema cuts the report at the first field it does not declare, and leaves it as it was if it declares all of them.",
  "exact_partial>exact only_ips_partial>only_ips after_schema_partial>after_schema",
  "ip_fields reports nothing but fields holding an IP",
  "At any moment, also after a schema was applied, ip_fields() yields exactly the fields whose current value is an IP address.",
  "only_ips_refuted after_schema_refuted")
split('C17', "Tags",
  "After any history the tags of a log are exactly the lower-cased texts given to add_tag, each once; has_tag(t) is true exactly when t is one of them; right after add_tag the 'tags' field lists exactly the tags of the log and no other field has changed.",
  "tags_partial>tags",
  "Tags are found as they were given",
  "After add_tag(t), has_tag(t) is true.",
  "has_tag_refuted")
split('C18', "Header setters are read back by their getters",
  "Each text setter of the log header (message, origin, tenant, product, service, category, vendor) makes its own getter and the field of the documented name return the value set and changes no other getter; a new log has the message, origin and both timestamps it was given; set_event_created stores the value under event.created and leaves event_received and the header texts alone.",
  "set_event_created_partial>set_event_created",
  "The creation time set is read back",
  "After set_event_created(z), event_created() is z.",
  "set_event_created_refuted")
split('C20', "The default schema keeps the header texts",
  "Applying the default schema (FieldSchema::new or get_default_schema) to a log keeps every header text (message, origin, tenant, product, service, category, vendor) readable. A new schema declares exactly the eleven documented fields, with their types and descriptions.",
  "header_partial>header",
  "The default schema keeps the timestamps",
  "Applying the default schema to a freshly created log keeps both its timestamps readable.",
  "timestamps_refuted")
split('C22', "Structured events become logs field by field",
  "Converting a structured event (firewall, DNS, web proxy, web server, DHCP, intrusion, auth) to a log never aborts and yields the four fields of a blank log plus the listed fields with exactly the components' values, enumerations under their own names; different firewall, intrusion, web proxy, web server and login events give different logs, and so do DNS events without data in queries and DHCP events with different MAC texts.",
  "dns_no_loss_partial>dns_no_loss dhcp_no_loss_partial>dhcp_no_loss",
  "DNS queries keep their data when turned into a log",
  "Different DNS events give different logs.",
  "dns_query_data_refuted")
split('C25', "Histogram get_count reads the first bucket not above its argument",
  "get_count(le) returns the value of the first bucket whose bound does not exceed le.",
  "first_bucket_partial>first_bucket",
  "Histogram get_count reads the requested bucket",
  "get_count(le) returns the number of observations recorded for the bucket bounded by le.",
  "refuted>get_count_refuted")
split('C26', "Label combinations are choices",
  "label_combinations returns as many rows as there are choices of one value per label and every row is such a choice; when all labels but the first have equally many values (always, for one or two labels) it returns every choice, exactly once if no label repeats a value. Exactly one more shape is complete: labels with a single value in front, then a label with at most as many values as each of those that follow, which have equally many.",
  "rows_are_choices_partial>rows_are_choices uniform_partial>uniform",
  "Label combinations enumerate the Cartesian product",
  "label_combinations returns every choice of one value per label.",
  "refuted>product_refuted")
split('C27', "Prometheus exposition of counters and gauges can be read back",
  "Every text a counter or gauge vector with a valid name, a one-line description and label values without quotes, backslashes and newlines encodes follows the Prometheus text format, and a reader of that format recovers exactly the metric name, the labels with a value and the number of each series; from a histogram's text a reader that tolerates unquoted bounds recovers every bucket, the sum and the count.",
  "histogram_tolerant_partial>histogram_tolerant",
  "Prometheus exposition of histograms and unusual label values can be read back",
  "Every text a histogram vector, or a counter vector with any label values it was created with, encodes follows the Prometheus text format.",
  "histogram_refuted quote_refuted")
split('C32', "Dataset updates are applied in order, atomically and completely",
  "Applying a non-empty batch of updates produces the dataset obtained by applying them one by one in order (a Replace discards everything before it), the snapshot readers hold is never modified, and the batch can be split anywhere.",
  "",
  "An empty batch of updates is harmless",
  "Applying an empty batch of updates leaves the dataset as it was.",
  "empty_batch_refuted")
split('C34', "Network lookup: exactly what it finds",
  "A network lookup returns the value of the shortest stored prefix that contains the address among those at least as long as the number of trailing zero bits of the address and shorter than the address width, and nothing if there is none; an odd address is found whenever a stored network other than a single host contains it.",
  "exact_partial>exact complete_partial>complete odd_complete_partial>odd_complete",
  "Network lookup is complete and prefers the most specific network",
  "If some stored network contains the address the lookup finds one, and it returns the value of the longest matching prefix.",
  "host_network_refuted trailing_zeros_refuted most_specific_refuted")
split('C35', "Synchronised dataset writes: delivery and report",
  "While the channel has room and a receiver every write is delivered, once and in order; under every schedule the owner receives a subsequence of the writes, nothing made up, repeated or reordered; the rule dataset's try_insert and insert_timeout return Ok exactly when the rule was queued and otherwise give it back, insert_timeout at the latest at its deadline.",
  "delivered_partial>delivered no_invention_partial>no_invention calls_delivered_partial>calls_delivered",
  "Synchronised dataset writes are delivered or reported",
  "A writer that is told nothing went wrong can rely on its update reaching the dataset owner.",
  "full_channel_refuted dropped_refuted empty_dataset_refuted")
split('C36', "Calendar lookups are sound",
  "Whatever a calendar reports at an instant is going on at that instant, in insertion order; it reports exactly the events going on when each of them begins at or after the epoch and lasts within one day or began on an earlier day. No insertion of 64-bit times overflows.",
  "sound_partial>sound exact_partial>exact",
  "Calendar lookups are complete",
  "After inserting an event [start,end] the calendar reports it for every instant in that interval.",
  "first_day_refuted first_day_lost_refuted")
split('C39', "Dataset type conversions",
  "For maps, sets, lists of addresses and texts and network maps, building a dataset from a (type, value) pair succeeds exactly when the value's kind matches the type, the built dataset reports that type back and gives the value back; taking a value out succeeds exactly for datasets of that kind (and name, for custom ones); datasets compare by type. A failing conversion out of a dataset (and those of address and text maps into one) says which kind was wanted.",
  "",
  "GeoIP dataset conversion",
  "Building a dataset from a (type, GeoIP value) pair succeeds exactly when the type is the GeoIP type.",
  "geo_ip_refuted")
split('C45', "State storage: whole files and inner ranges",
  "Through any clone a file has the content written last, and its size; reading a range that ends before the last byte returns exactly those bytes, every other range of an existing file is refused and a missing file is reported.",
  "read_range_partial>read_range whole_files_partial>whole_files",
  "State storage file ranges",
  "Writing a byte range of a file changes exactly that range, and reading a range returns exactly those bytes for every range within the file.",
  "read_range_refuted read_to_end_always_fails_refuted write_range_refuted")
split('C46', "Rule matching, when it yields an answer",
  "When the evaluation of a rule without nested operators yields an answer it is true exactly when all its conditions hold; rules that only ask for the presence or absence of fields always get an answer; evaluation aborts exactly when it reaches a condition on the value of a field the log has.",
  "value_partial>value presence_rules_partial>presence_rules abort_refuted>abort",
  "Rule matching",
  "A rule matches a log exactly when all its conditions hold and evaluation never aborts.",
  "value_tests_abort_refuted negation_refuted")
split('C47', "Sigma modifiers on literal values are translated faithfully",
  "A Sigma condition on a literal value (no modifier, equals, contains, startswith, endswith, contains|all on lists; lists without modifiers) is translated to an operator that accepts exactly the texts the condition means; so is a text whose only wildcard is the last character; null asks for the absence of the field.",
  "modifiers_partial>modifiers trailing_wildcard_partial>trailing_wildcard null_partial>null",
  "Sigma wildcards, other modifiers and nulls are translated faithfully",
  "Every Sigma condition is translated to an operator of the same meaning: wildcards anywhere in a text, every modifier, lists under every modifier, and nulls; translation never aborts.",
  "leading_wildcard_refuted both_wildcards_refuted both_wildcards_abort_refuted other_modifiers_refuted lists_refuted inner_wildcards_refuted null_abort_refuted")
split('C51', "The query lexer tokenises numbers and words maximally",
  "A run of digits that does not start with 0 is returned as one INT token with exactly that text, a run of identifier characters as one keyword/function/FIELD token with exactly that text, and the lexer goes on right after it.",
  "int_partial>int",
  "Numbers that start with 0 are tokens",
  "A run of digits that starts with 0 is returned as one INT token.",
  "zero_refuted zero_query_refuted")
split('C52', "Wildcards at both ends or inside query strings",
  "A double-quoted string without wildcards is that text; wildcards at both ends mean contains; wildcards strictly inside, or more than two, make a LIKE pattern with the text as written. And for every double-quoted string whatsoever, the token the lexer returns is determined by the text it keeps (escaped asterisks with their backslash): its length, its first and last character and the number of its asterisks that do not follow a backslash.",
  "contains_partial>contains plain_partial>plain like_partial>like",
  "One-sided and escaped wildcards in query strings",
  "A double-quoted string with only a trailing wildcard means starts-with, only a leading wildcard means ends-with; escaped asterisks are literal.",
  "trailing_refuted leading_refuted escape_refuted")
split('C55', "HTTP methods",
  "Parsing the text of a standard HTTP method other than PUT in any letter case yields that method; other texts are kept in upper case as unknown; no text parses to a method of another name.",
  "methods_partial>methods",
  "The HTTP method PUT",
  "Parsing PUT yields the method PUT.",
  "put_refuted")
split('C58', "GeoIP on-disk keys of IPv4 and IPv6 networks",
  "Two ways of writing an IPv4 network have the same storage key exactly when they are the same network; two IPv6 networks have the same key exactly when they start at the same address, whatever their lengths; an IPv4 and an IPv6 network can share a key only if the IPv4 one has length 1.",
  "ipv4_keys_partial>ipv4_keys families_partial>families",
  "GeoIP on-disk keys are collision free",
  "Two different networks of any family never share a storage key in the on-disk GeoIP dataset.",
  "ipv6_length_refuted ipv6_collides_refuted families_refuted")
split('C59', "What the MAC parsers do with any text",
  "A MAC parser cuts the text at ':' and '-', reads as many parts as it has places (the any-width one: all parts, which must be 6, 8 or 16), each a hexadecimal number with an optional '+', shifts each to its place, losing the bits shifted out, and adds them up: it returns that sum when it fits the word, aborts exactly when a partial sum does not, and otherwise returns none. If no part has more than two characters it never aborts and what it returns fits its width.",
  "mac_short_parts_partial>mac_short_parts",
  "MAC parsers are total and width-exact",
  "The MAC parsers never abort on any text, accept only texts of their width made of two-digit octets, and what they return fits that width.",
  "mac64_no_panic_refuted mac48_range_refuted mac48_extra_octets_refuted")
split('C60', "IPv6 printing",
  "Two different IPv6 addresses never print the same text; what is printed is a valid text of the address (IPv4-mapped addresses print in dotted form); the printed text parses back to the address exactly when the address is not IPv4-mapped and some group has fewer than four significant hex digits.",
  "ipv6_roundtrip_partial>ipv6_roundtrip",
  "IPv6 text round trip",
  "Printing any IPv6 address held as a u128 and parsing the printed text gives back the same u128.",
  "mapped_addresses_refuted wide_addresses_refuted")
split('C61', "SiemIp text and comparison",
  "Different SiemIp values display differently; parsing never aborts; every IPv4 value is read back from its text, and an IPv6 value exactly when ipv6_from_str reads what ipv6_to_str prints of it; equals(text) is true exactly when the text parses to the address in its family; an address built from octets takes the low byte of each, most significant first.",
  "v6_roundtrip_partial>v6_roundtrip")
split('C62', "The default schema covers the structured events but for two fields",
  "Every field of the log of a structured event except the two timestamps, dns.answer.data and requested_ip is declared by the default schema, so applying the schema keeps it.",
  "all_but_two_partial>all_but_two",
  "The default schema covers the structured events",
  "Applying the default schema (get_default_schema) to the log of any structured event removes none of the fields the event contributed.",
  "dns_data_refuted dhcp_requested_ip_refuted")
split('C63', "Gauges lose no updates",
  "After any interleaving of inc/dec calls a gauge holds the sum of the amounts (in hundred-thousandths, modulo 2^64); setting a gauge to a whole number below 2^53/100000 in absolute value and reading it gives that value back; setting it to any finite number below 2^51/100000 reads a number less than 0.00002 away, and after any interleaving of increments and decrements by decimals the reading is within 1.25 units per call plus half a unit (a unit is 0.00001) of their sum. A gauge set or reset holds that value and what was added since.",
  "",
  "Gauges keep decimals",
  "Setting a gauge to a value with at most five decimals and reading it gives that value back.",
  "decimals_refuted")
split('C64', "Accepted one-line definitions encode cleanly",
  "A counter vector whose definition was accepted and whose description has one line produces an exposition a Prometheus reader accepts, with a zero sample for each series it was created with.",
  "one_line_partial>one_line",
  "Accepted metric definitions encode cleanly",
  "A metric whose definition was accepted (valid name and description) always produces an exposition a Prometheus reader accepts.",
  "refuted>definitions_refuted")
split('C65', "Histograms are consistent at every instant",
  "At every instant of every schedule of observing threads no bucket of a histogram exceeds its count (fewer than 2^64 observations).",
  "instant_partial>instant",
  "Scrapes racing with observations are consistent",
  "A histogram encoded while other threads observe never shows a bucket larger than its count.",
  "torn_scrape_refuted")
split('C66', "What lookups in the on-disk GeoIP dataset answer",
  "After any insertions of IPv4 networks every IPv4 lookup in the on-disk GeoIP dataset answers like the in-memory dataset. After any insertions of IPv6 networks an IPv6 lookup returns the record last stored for a network that starts at the address cut at the smallest length, from its number of trailing zero bits up to 127, for which there is one, and nothing if there is none.",
  "ipv4_partial>ipv4",
  "The on-disk GeoIP dataset answers soundly",
  "A lookup in the on-disk GeoIP dataset only returns a record inserted for a network that contains the address.",
  "ipv6_refuted")
split('C68', "Commands are taken in turn",
  "A component that has taken more messages than were sent before a STOP_COMPONENT command has taken that command and returned Ok.",
  "stop_taken_in_turn_partial>stop_taken_in_turn",
  "A stop command takes effect however the logs flow",
  "A STOP_COMPONENT command sent to a running component makes it return, whatever happens to the logs it forwards.",
  "stop_under_blocked_output_refuted")
split('C69', "Due ticks and traffic",
  "A component that found nothing to take can tick as soon as the deadline its last tick set has passed, and a component that always finds something to take does not tick again.",
  "due_tick_performed_partial>due_tick_possible",
  "Due ticks are performed",
  "A tick whose time has come is performed even if messages and logs keep arriving.",
  "due_tick_performed_refuted")
split('C70', "A component with log channels processes each log once",
  "A component that was given its log channels takes exactly the logs others sent, in order, each once; the logs it forwards do not come back.",
  "processed_once_partial>processed_once",
  "A component without log channels processes each log once",
  "Also when set_log_channel was never called, a log given to a running component is handed to its handler once, and the component never blocks on itself.",
  "processed_once_refuted self_deadlock_refuted")
split('C72', "Tasks report their type",
  "The type of a task identifies its kind (and the name of a custom task) and displays as that name; two types display alike only if one is custom and has a predefined name, or they are the same.",
  "printed_name_identifies_partial>printed_name_identifies",
  "Displayed task types are distinct",
  "Two different task types never display alike.",
  "printed_name_identifies_refuted")
split('C73', "Rules whose one trigger group names every subrule",
  "A rule with one trigger group that names every subrule matches a log (when evaluation yields an answer and no operators are nested) exactly when all the subrules of that group hold.",
  "all_subrules_partial>all_subrules",
  "Trigger groups of a rule",
  "A rule matches a log exactly when all the subrules of one of its trigger groups hold.",
  "groups_ignored_refuted triggered_refuted")
split('C74', "Sigma maps",
  "A map of Sigma conditions becomes a subrule that requires all of them, each translated on its own.",
  "",
  "Sigma lists of maps",
  "A list of maps of Sigma conditions requires one of the maps.",
  "alternatives_refuted")
split('C76', "References in alert texts end at a space",
  "In a description, $name followed by a space or the end of the text refers to the field of that name.",
  "reference_partial>reference",
  "References in alert texts",
  "In a description, $name followed by any character that cannot be part of a field name refers to the field of that name.",
  "reference_refuted")
split('C78', "Comparing rule operators without field values",
  "Equality of rule operators is reflexive, and for operators without embedded field values it is identity.",
  "identity_partial>identity",
  "Comparing rule operators",
  "Equality of rule operators is an equivalence that tells different operators apart.",
  "equality_refuted")
split('C79', "The tactic command_and_control in Sigma tags",
  "A tag attack.command_and_control of a Sigma rule adds that tactic to the rule.",
  "command_and_control_partial>command_and_control",
  "Tactics named in Sigma tags",
  "A tag attack.<tactic name> of a Sigma rule adds that tactic to the rule.",
  "other_tactics_refuted")
split('C81', "Whole queries",
  "Lexing a query written in the language (blanks, symbols, numbers not starting with 0, words, single quoted strings, double quoted strings without one-sided wildcards) yields exactly its tokens in order, then EOF; so such a query has one reading.",
  "query_partial>query unambiguous_partial>unambiguous one_token_partial>one_token",
  "Whole queries with numbers from 0 and one-sided wildcards",
  "Lexing any query written in the language yields exactly its tokens in order, then EOF.",
  "query_refuted")
split('C84', "Synchronised datasets, end to end, while the channel holds",
  "Whatever calls are made on a synchronised dataset, and however its owner spreads the publications over them, as long as the channel never overflows the snapshot published after the last call is what the same calls made directly on the dataset would have left, and a reader finds exactly what was last inserted and not later removed.",
  "ip_sets_partial>ip_sets ip_maps_partial>ip_maps text_maps_partial>text_maps ip_nets_partial>ip_nets reader_set_partial>reader_set reader_ip_map_partial>reader_ip_map reader_text_map_partial>reader_text_map",
  "Synchronised datasets, end to end",
  "Whatever calls are made on a synchronised dataset, and however its owner spreads the publications over them, the snapshot published after the last call is what the same calls made directly on the dataset would have left.",
  "overflow_refuted")
split('C85', "Addresses in JSON: what is written and what is read",
  "The text written for an address identifies it and the address parser reads it (every IPv4 address; IPv6 addresses whose printed form parses). What is read as an address is exactly an object with the family and the number.",
  "reads_partial>reads text_parses_partial>text_parses",
  "Addresses in JSON round trip",
  "An address written as JSON is read back as the same address.",
  "roundtrip_refuted never_refuted")
split('C86', "Field values in JSON: what they become",
  "A field value written as JSON and read back becomes exactly the value the table `becomes` gives; nothing, texts, lists, unsigned and negative integers and finite floats come back as they were and no others; a second trip changes nothing more; the displayed text stays the same but for dates, paths and floats.",
  "becomes_partial>becomes",
  "Field values in JSON round trip",
  "A field value written as JSON and read back is the same value, of the same kind.",
  "roundtrip_refuted")
split('C87', "Logs in JSON: what is written and what is read",
  "A log is written as an object with exactly its fields under their names; one that can be read back has only lists of one text and is read as a log with those texts under the same names, without tags.",
  "reads_partial>reads",
  "Logs in JSON round trip",
  "Reading the JSON of a log gives a log with the same fields.",
  "unreadable_refuted new_log_refuted roundtrip_refuted")
split('C88', "Commands in JSON",
  "A command without an address, a header, a function type or a task written as JSON and read back is the same; a command with one is never read; every command is tagged with the name of its function, and different commands are written differently.",
  "roundtrip_partial>roundtrip",
  "Commands with addresses in JSON round trip",
  "Any command written as JSON and read back is the same.",
  "addresses_refuted roundtrip_refuted")
split('C89', "Command responses in JSON",
  "A command response written as JSON and read back is the same, except that the values in the rows of a log query change as field values do; results are tagged ok or err.",
  "becomes_partial>becomes roundtrip_partial>roundtrip",
  "Query responses in JSON round trip",
  "Any command response written as JSON and read back is the same.",
  "rows_refuted")
split('C90', "Task definitions in JSON",
  "A task definition written and read back is the same definition but for the function that runs it, which becomes one that answers OK; unknown keys are refused.",
  "roundtrip_partial>roundtrip",
  "Task definitions in JSON keep their function and must be complete",
  "A task definition written and read back runs the same function; incomplete definitions are refused.",
  "behaviour_refuted incomplete_refuted")
split('C91', "Rules in JSON",
  "A rule written as JSON and read back has the same identity, subrules and alert and decides the same on every log; what it becomes is exactly what a table gives: only the values in its comparisons change, as field values do, a network test or an expression that does not compile makes it unreadable.",
  "becomes_partial>becomes",
  "Rules in JSON round trip",
  "Every rule written as JSON can be read back and is the same rule.",
  "networks_refuted roundtrip_refuted")
split('C92', "Messages in JSON",
  "Notifications, tasks, their results, commands without addresses and responses that are not rows of a log query arrive in JSON as they were sent.",
  "roundtrip_partial>roundtrip",
  "All messages in JSON round trip",
  "Every message between components written as JSON and read back is the same message.",
  "lost_refuted roundtrip_refuted")
split('C93', "Metrics in JSON",
  "The JSON of a metric definition shows its name, its description and, per series in order, the labels and exactly what reading the metric through its API gives at that moment, under every schedule.",
  "",
  "Metrics in JSON have one shape",
  "The kind and the series of a metric are found in its JSON under the same keys for every kind.",
  "uniform_refuted")
split('C94', "Datasets, use cases and capabilities in JSON",
  "The JSON of a dataset shows its type and name and nothing of its contents; that of a use case reads as its definition and shows everything but what its steps do; that of a component's capabilities shows each part as it was declared.",
  "use_case_shown_partial>use_case_shown",
  "The steps of use cases in JSON",
  "Use cases that differ in a step are written differently.",
  "action_refuted")
split('C95', "Structured events in JSON",
  "An event can be written as JSON unless it has a protocol of its own or is a JSON value that is neither an object nor null; it shows each of its values under its own name. Logins, JSON objects without an event_type entry and the events without payload are read back as the same event, and every event but DHCP, with IPv4 addresses and a named protocol, is read from any object that has its values, addresses given as an object of family and number, or from the list of these values in order.",
  "written_partial>written roundtrip_partial>roundtrip json_partial>json reads_partial>reads",
  "Structured events in JSON round trip",
  "Every structured event can be written as JSON and is read back as the same event.",
  "other_protocol_refuted address_refuted roundtrip_refuted json_tag_refuted json_null_refuted dhcp_refuted")
