{"id": "C01", "title": "IPv4 text round trip", "statement": "Printing any IPv4 address held as a u32 and parsing the printed text gives back the same u32; two different addresses never print the same text.", "quantifier": "every 32-bit value", "why_tests_cant": "2^32 values; a test samples a handful of addresses", "anchors": ["src/utilities/ip_utils.rs: ipv4_from_str, ipv4_to_str"]}
{"id": "C02", "title": "IPv4 parser: language and value", "statement": "ipv4_from_str accepts every text of four decimal octets (0..255) separated by dots and returns o1*2^24+o2*2^16+o3*2^8+o4; what it accepts is exactly one to four such octets separated by dots, valued in base 256, and every result fits in 32 bits. ipv4_to_u32_bytes reads exactly four bytes, the most significant first.", "quantifier": "every string", "why_tests_cant": "the input space is all strings; negative inputs cannot be enumerated", "anchors": ["src/utilities/ip_utils.rs: ipv4_from_str, is_ipv4"]}
{"id": "C03", "title": "IPv6 parser is total", "statement": "ipv6_from_str never panics (no out-of-bounds index, no arithmetic overflow, no endless loop) and any value it returns fits in 128 bits.", "quantifier": "every byte string of every length", "why_tests_cant": "a panic or hang on a hostile log text hides in inputs nobody sampled", "anchors": ["src/utilities/ip_utils.rs: ipv6_from_str, read_hextet, hex_to_digit, ipv4_to_u32_bytes"]}
{"id": "C04", "title": "IPv6 parser: language and value", "statement": "ipv6_from_str accepts exactly the valid IPv6 texts (eight groups of one to four hex digits, or at most seven groups around one '::') of at most 38 characters, and the compressed ones with groups after '::' followed by one stray ':'; it returns the 128-bit value RFC 4291 assigns to them. No text with a dot is accepted.", "quantifier": "every string", "why_tests_cant": "infinitely many texts, group widths and '::' positions", "anchors": ["src/utilities/ip_utils.rs: ipv6_from_str, read_hextet"]}
{"id": "C05", "title": "Private address classification is exact", "statement": "is_local answers true exactly for 10/8, 172.16/12, 192.168/16, 100.64/10 (IPv4) and fc00::/7 (IPv6).", "quantifier": "every 32-bit and every 128-bit value", "why_tests_cant": "2^32 + 2^128 values; boundaries are where mistakes hide", "anchors": ["src/utilities/ip_utils.rs: is_local_ipv4, is_local_ipv6", "src/events/ip.rs: SiemIp::is_local"]}
{"id": "C06", "title": "IPv4:port text", "statement": "Text made of a printed IPv4 address, ':' and a printed port is parsed to exactly that pair, is_ipv4_port agrees with parse_ipv4_port on every text, and text without ':' is never accepted.", "quantifier": "every address, port and string", "why_tests_cant": "unbounded strings", "anchors": ["src/utilities/ip_utils.rs: parse_ipv4_port, is_ipv4_port, port_to_u16"]}
{"id": "C07", "title": "MAC text round trip (48 and 64 bit)", "statement": "Printing a 48-bit (64-bit) MAC and parsing the text gives back the same value.", "quantifier": "every 48-bit and 64-bit value", "why_tests_cant": "2^48 and 2^64 values", "anchors": ["src/utilities/mac.rs: mac_str_to_u48, mac_str_to_u64, mac_u48_to_str, mac_u64_to_str"]}
{"id": "C08", "title": "MAC addresses of any width: parsing and printing", "statement": "The any-width parser accepts every MAC text of 6, 8 or 16 octets and returns the big-endian value of the octets; printing that value gives the canonical text back exactly for 6 octets, for 8 octets worth at least 2^48 and for 16 octets worth at least 2^96.", "quantifier": "every list of 6, 8 or 16 octets", "why_tests_cant": "2^128 values", "anchors": ["src/utilities/mac.rs: mac_str_to_u128, mac_str_to_u128_any, mac_u128_to_str"]}
{"id": "C09", "title": "Rule selector returns the best matching rule", "statement": "After any sequence of add calls, search(text) returns a rule whose number of query-word hits is maximal, the lexicographically first such rule on ties, and None exactly when no query word was indexed.", "quantifier": "every sequence of add calls and every query text", "why_tests_cant": "the index is history dependent and unbounded", "anchors": ["src/utilities/rule_selector.rs: RuleSelector::add, RuleSelector::search"]}
{"id": "C10", "title": "Field equality where it is an equivalence", "statement": "Equality of field values is reflexive. Among texts, domains, users, assets and addresses it means that they display alike; among fields that are not plain texts it is symmetric and transitive; integers (signed or unsigned) are equal exactly when they are the same number and addresses when they are the same address.", "quantifier": "every pair and triple of field values, including nested arrays", "why_tests_cant": "12 variants, unbounded payloads, triples", "anchors": ["src/events/field.rs: PartialEq for SiemField"]}
{"id": "C11", "title": "Equal texts, integers and addresses hash equally", "statement": "Two texts, domains, users or assets, two integers, or two addresses that compare equal feed the same data to the hasher.", "quantifier": "every pair of field values", "why_tests_cant": "needs all pairs, including pairs of different variants", "anchors": ["src/events/field.rs: Hash for SiemField, PartialEq for SiemField"]}
{"id": "C12", "title": "Substring predicate on fields", "statement": "For every field that is not an asset, contains_str(s) (contains(g)) is true exactly when the field is textual and its text contains s (the text of g); eq_ignore_ascii_case compares texts up to letter case.", "quantifier": "every field value and every string", "why_tests_cant": "unbounded strings; wrong variants are only visible on negative inputs", "anchors": ["src/events/field.rs: SiemField::contains_str"]}
{"id": "C13", "title": "Conversions of fields", "statement": "Converting an integer field to u64, i64 or f64 gives the same number when the target type can hold it (for f64: below 2^53 in absolute value); any integer converts to the nearest f64, ties to the even mantissa; an integer out of range keeps its 64-bit pattern; a float is truncated towards zero and saturates at the ends of the range, NaN giving 0; other kinds are refused. Text conversions give the text of textual fields only; printed integers parse to themselves; every field converts to an array of the texts that stand for it; address conversion never aborts.", "quantifier": "every field value and target type", "why_tests_cant": "64-bit ranges and arbitrary strings", "anchors": ["src/events/field.rs: TryInto<u64>/<i64>/<&str>/<LogString> for &SiemField, Display for SiemField"]}
{"id": "C14", "title": "A log is a map from field names to values", "statement": "After any sequence of insertions a field reads as the last value inserted under that name, and inserting one field leaves every other field unchanged.", "quantifier": "every log, every sequence of insert/add_field calls, every name", "why_tests_cant": "history dependent, unbounded", "anchors": ["src/events/log.rs: SiemLog::insert, add_field, field, has_field"]}
{"id": "C15", "title": "Typed reads are transparent over insertions, tags and headers", "statement": "After any history of insertions, tags, header changes and typed reads, a typed read of a field returns the conversion of the value the field currently holds, no matter which typed reads happened before, and never changes any field.", "quantifier": "every interleaving of insertions, in-place edits and typed reads", "why_tests_cant": "cache coherence is a property of all histories", "anchors": ["src/events/log.rs: u64_field, i64_field, f64_field, txt_field, ip_field, array_field, field_mut", "src/events/ifield.rs"]}
{"id": "C16", "title": "ip_fields reports every field holding an IP", "statement": "ip_fields() yields every field whose current value is an IP address, and exactly the fields that ever received one, with their current values; so only IPs if such fields receive nothing else. Applying a schema cuts the report at the first field it does not declare, and leaves it as it was if it declares all of them.", "quantifier": "every sequence of log operations", "why_tests_cant": "the index is maintained incrementally, so only some histories break it", "anchors": ["src/events/log.rs: SiemLog::insert, ip_fields, EventFieldIter", "src/events/schema.rs: FieldSchema::apply"]}
{"id": "C17", "title": "Tags", "statement": "After any history the tags of a log are exactly the lower-cased texts given to add_tag, each once; has_tag(t) is true exactly when t is one of them; right after add_tag the 'tags' field lists exactly the tags of the log and no other field has changed.", "quantifier": "every tag string and every history of add_tag calls", "why_tests_cant": "unbounded strings (letter case) and histories", "anchors": ["src/events/log.rs: add_tag, has_tag, tags"]}
{"id": "C18", "title": "Header setters are read back by their getters", "statement": "Each text setter of the log header (message, origin, tenant, product, service, category, vendor) makes its own getter and the field of the documented name return the value set and changes no other getter; a new log has the message, origin and both timestamps it was given; set_event_created stores the value under event.created and leaves event_received and the header texts alone.", "quantifier": "every log and every value", "why_tests_cant": "needs every pair (setter, getter) on every log state", "anchors": ["src/events/log.rs: SiemLog setters and getters"]}
{"id": "C19", "title": "Schema application keeps exactly the declared fields", "statement": "Applying a schema to a log removes every field the schema does not declare, keeps the others with their values, and applying it twice is the same as once.", "quantifier": "every schema and every log", "why_tests_cant": "all subsets of fields", "anchors": ["src/events/schema.rs: FieldSchema::apply"]}
{"id": "C20", "title": "The default schema keeps the header texts", "statement": "Applying the default schema (FieldSchema::new or get_default_schema) to a log keeps every header text (message, origin, tenant, product, service, category, vendor) readable. A new schema declares exactly the eleven documented fields, with their types and descriptions.", "quantifier": "every message, origin and receive time", "why_tests_cant": "the field names on both sides are maintained separately", "anchors": ["src/events/schema.rs: FieldSchema::new, apply", "src/events/log.rs: SiemLog::new"]}
{"id": "C21", "title": "Schema merging", "statement": "Merging schemas yields the union of their declared fields; the merged-in schema wins on conflicts except that text options are united; the GDPR marks of the receiving schema stay in force.", "quantifier": "every pair of schemas and every field name", "why_tests_cant": "all pairs of maps", "anchors": ["src/events/schema.rs: FieldSchema::add_schema, insert, set_gdpr, get_field, field_names, remove_fields"]}
{"id": "C22", "title": "Structured events become logs field by field", "statement": "Converting a structured event (firewall, DNS, web proxy, web server, DHCP, intrusion, auth) to a log never aborts and yields the four fields of a blank log plus the listed fields with exactly the components' values, enumerations under their own names; different firewall, intrusion, web proxy, web server and login events give different logs, and so do DNS events without data in queries and DHCP events with different MAC texts.", "quantifier": "every event value", "why_tests_cant": "every combination of component values and optional parts", "anchors": ["src/events/event.rs, dns.rs, dhcp.rs, webserver.rs, webproxy.rs, firewall.rs, auth.rs, intrusion.rs"]}
{"id": "C23", "title": "Counters lose no increments", "statement": "After any interleaving of increments from any number of threads a counter reads the sum of all increments (modulo 2^64), and reset returns it to zero.", "quantifier": "every schedule of every set of increments", "why_tests_cant": "schedules cannot be enumerated", "anchors": ["src/components/metrics/counter.rs"]}
{"id": "C24", "title": "Histogram buckets are cumulative and exact", "statement": "After any sequence of observations the count is their number, and the bucket with bound le counts exactly the observations <= le; bucket values never decrease as le grows; the sum reads the sum of the observed numbers up to 1.25 units each plus half a unit, a unit being 0.00001. A new histogram has the ten default buckets from 0.001 to 10, all empty.", "quantifier": "every bucket configuration and observation sequence", "why_tests_cant": "unbounded histories", "anchors": ["src/components/metrics/histogram.rs: observe"]}
{"id": "C25", "title": "Histogram get_count reads the first bucket not above its argument", "statement": "get_count(le) returns the value of the first bucket whose bound does not exceed le.", "quantifier": "every bucket configuration, history and bound", "why_tests_cant": "wrong bucket selection is only visible with more than one populated bucket", "anchors": ["src/components/metrics/histogram.rs: get_count"]}
{"id": "C26", "title": "Label combinations are choices", "statement": "label_combinations returns as many rows as there are choices of one value per label and every row is such a choice; when all labels but the first have equally many values (always, for one or two labels) it returns every choice, exactly once if no label repeats a value. Exactly one more shape is complete: labels with a single value in front, then a label with at most as many values as each of those that follow, which have equally many.", "quantifier": "every list of labels with any number of values each", "why_tests_cant": "the number of label shapes is unbounded and only mixed sizes fail", "anchors": ["src/components/metrics/mod.rs: label_combinations"]}
{"id": "C27", "title": "Prometheus exposition of counters and gauges can be read back", "statement": "Every text a counter or gauge vector with a valid name, a one-line description and label values without quotes, backslashes and newlines encodes follows the Prometheus text format, and a reader of that format recovers exactly the metric name, the labels with a value and the number of each series; from a histogram's text a reader that tolerates unquoted bounds recovers every bucket, the sum and the count.", "quantifier": "every list of series with any labels, including empty values and values with special characters", "why_tests_cant": "all combinations of empty and non-empty labels and all label texts", "anchors": ["src/components/metrics/counter.rs, gauge.rs, histogram.rs: Encoder::encode"]}
{"id": "C28", "title": "Metric selection by labels", "statement": "with_labels returns the series registered with exactly those labels and never another one, and None otherwise.", "quantifier": "every registered set and every query", "why_tests_cant": "unbounded label sets", "anchors": ["src/components/metrics/counter.rs, gauge.rs, histogram.rs: with_labels"]}
{"id": "C29", "title": "Metric names", "statement": "A name is accepted exactly when it has at least three characters, starts and ends with a lower-case letter and otherwise uses lower-case letters, digits and underscores; the predefined names are accepted.", "quantifier": "every string", "why_tests_cant": "unbounded strings", "anchors": ["src/components/metrics/mod.rs: valid_name"]}
{"id": "C30", "title": "IP sets and IP maps behave like mathematical maps", "statement": "After any sequence of inserts and removes a lookup returns the last inserted, not later removed value for that address; IPv4 and IPv6 entries never interfere.", "quantifier": "every operation sequence, every address", "why_tests_cant": "history dependent", "anchors": ["src/components/dataset/ip_set.rs, ip_map.rs, ip_map_list.rs"]}
{"id": "C31", "title": "Text maps and sets behave like mathematical maps", "statement": "After any sequence of inserts and removes a lookup returns the last inserted, not later removed value for that key.", "quantifier": "every operation sequence, every key", "why_tests_cant": "history dependent", "anchors": ["src/components/dataset/text_map.rs, text_map_list.rs, text_set.rs"]}
{"id": "C32", "title": "Dataset updates are applied in order, atomically and completely", "statement": "Applying a non-empty batch of updates produces the dataset obtained by applying them one by one in order (a Replace discards everything before it), the snapshot readers hold is never modified, and the batch can be split anywhere.", "quantifier": "every dataset, every batch", "why_tests_cant": "unbounded batches", "anchors": ["src/components/dataset/*: apply_updates, update"]}
{"id": "C33", "title": "Network lookup is sound", "statement": "A network lookup only returns a value that was inserted, and not removed, for a network containing the address.", "quantifier": "every insertion/removal history, every address of both families", "why_tests_cant": "2^128 addresses times unbounded histories", "anchors": ["src/components/dataset/ip_net.rs: IpNetDataset::get, insert, remove", "src/components/dataset/geo_ip/fast.rs"]}
{"id": "C34", "title": "Network lookup: exactly what it finds", "statement": "A network lookup returns the value of the shortest stored prefix that contains the address among those at least as long as the number of trailing zero bits of the address and shorter than the address width, and nothing if there is none; an odd address is found whenever a stored network other than a single host contains it.", "quantifier": "every insertion history, every address of both families", "why_tests_cant": "depends on bit patterns (trailing zeros) of the address", "anchors": ["src/components/dataset/ip_net.rs: IpNetDataset::get", "src/components/dataset/geo_ip/fast.rs"]}
{"id": "C35", "title": "Synchronised dataset writes: delivery and report", "statement": "While the channel has room and a receiver every write is delivered, once and in order; under every schedule the owner receives a subsequence of the writes, nothing made up, repeated or reordered; the rule dataset's try_insert and insert_timeout return Ok exactly when the rule was queued and otherwise give it back, insert_timeout at the latest at its deadline.", "quantifier": "every channel capacity and every sequence of writes and drains", "why_tests_cant": "depends on queue occupancy and receiver lifetime", "anchors": ["src/components/dataset/ip_set.rs: IpSetSynDataset and siblings", "src/components/dataset/rules.rs: try_insert, insert_timeout"]}
{"id": "C36", "title": "Calendar lookups are sound", "statement": "Whatever a calendar reports at an instant is going on at that instant, in insertion order; it reports exactly the events going on when each of them begins at or after the epoch and lasts within one day or began on an earlier day. No insertion of 64-bit times overflows.", "quantifier": "every set of events and every instant", "why_tests_cant": "64-bit time range and multi-day splits", "anchors": ["src/components/dataset/calendar.rs: insert, get"]}
{"id": "C37", "title": "I18n lookup and fallback", "statement": "A text inserted for (key, language) is returned for that pair; get_or_default prefers the requested language, then English, then the first available one, and is None only if the key is unknown.", "quantifier": "every dictionary history, key and language", "why_tests_cant": "unbounded dictionaries", "anchors": ["src/components/dataset/i18n.rs"]}
{"id": "C38", "title": "Dataset holder", "statement": "The holder has at most one dataset per dataset type, the last one registered; a subset contains exactly the requested and available ones.", "quantifier": "every list of datasets and requested types", "why_tests_cant": "unbounded lists", "anchors": ["src/components/dataset/holder.rs"]}
{"id": "C39", "title": "Dataset type conversions", "statement": "For maps, sets, lists of addresses and texts and network maps, building a dataset from a (type, value) pair succeeds exactly when the value's kind matches the type, the built dataset reports that type back and gives the value back; taking a value out succeeds exactly for datasets of that kind (and name, for custom ones); datasets compare by type. A failing conversion out of a dataset (and those of address and text maps into one) says which kind was wanted.", "quantifier": "every dataset type and kind of dataset value", "why_tests_cant": "all pairs", "anchors": ["src/components/dataset/mod.rs: TryFrom<(SiemDatasetType, ..)>, dataset_type"]}
{"id": "C40", "title": "A component forwards exactly its unfiltered logs, in order", "statement": "Under every schedule a running component that was given its log channels processes the logs it receives in arrival order, forwards exactly those its handler keeps, in that order, and an error in one log or message does not stop the following ones.", "quantifier": "every interleaving of log arrivals, messages, timeouts", "why_tests_cant": "schedules cannot be enumerated", "anchors": ["src/components/simplified.rs: SimpleComponent::run"]}
{"id": "C41", "title": "A stop command stops the component", "statement": "Once the component takes a STOP_COMPONENT command from its channel it returns Ok without processing anything else; without such a command, a disconnect, a tick failure or an output failure it does not terminate. Once all senders of its logs are gone it takes the logs that wait and returns, and once nobody reads its output it forwards nothing more.", "quantifier": "every schedule", "why_tests_cant": "schedules cannot be enumerated", "anchors": ["src/components/simplified.rs: SimpleComponent::run"]}
{"id": "C42", "title": "Periodic ticks", "statement": "The component ticks once at start and then only when the configured deadline passes; a failing tick ends the run with that error.", "quantifier": "every schedule of arrivals and timeouts", "why_tests_cant": "time dependent", "anchors": ["src/components/simplified.rs: SimpleComponent::run"]}
{"id": "C43", "title": "Log level filtering of kernel notifications", "statement": "A notification is delivered exactly when its level is at most the messager's configured level (and the channel has room); order is preserved; changing the level affects only later notifications.", "quantifier": "every sequence of level changes and notifications", "why_tests_cant": "histories", "anchors": ["src/components/kernel_message.rs", "src/components/common.rs: NotificationLevel"]}
{"id": "C44", "title": "State storage behaves like a key/value store", "statement": "get_value returns the last value effectively set; setting without replace keeps an existing value; all clones observe the same state.", "quantifier": "every operation sequence through any clone", "why_tests_cant": "histories", "anchors": ["src/components/storage.rs: TestingStorage"]}
{"id": "C45", "title": "State storage: whole files and inner ranges", "statement": "Through any clone a file has the content written last, and its size; reading a range that ends before the last byte returns exactly those bytes, every other range of an existing file is refused and a missing file is reported.", "quantifier": "every file content and range", "why_tests_cant": "all ranges", "anchors": ["src/components/storage.rs: TestingStorage::get_file_range, set_file_range"]}
{"id": "C46", "title": "Rule matching, when it yields an answer", "statement": "When the evaluation of a rule without nested operators yields an answer it is true exactly when all its conditions hold; rules that only ask for the presence or absence of fields always get an answer; evaluation aborts exactly when it reaches a condition on the value of a field the log has.", "quantifier": "every rule and every log", "why_tests_cant": "all rules times all logs", "anchors": ["src/components/rule/mod.rs: SiemRule::matches, RuleCondition::matches"]}
{"id": "C47", "title": "Sigma modifiers on literal values are translated faithfully", "statement": "A Sigma condition on a literal value (no modifier, equals, contains, startswith, endswith, contains|all on lists; lists without modifiers) is translated to an operator that accepts exactly the texts the condition means; so is a text whose only wildcard is the last character; null asks for the absence of the field.", "quantifier": "every Sigma field expression and value", "why_tests_cant": "unbounded strings", "anchors": ["src/components/rule/sigma.rs: parse_rule_condition, translate_operator, translate_content_to_operator"]}
{"id": "C48", "title": "Sigma alert templates lose no text", "statement": "Splitting an alert description into text and field references preserves it: concatenating the parts gives the original description, every part is non-empty progress, and splitting terminates.", "quantifier": "every description", "why_tests_cant": "unbounded strings", "anchors": ["src/components/rule/sigma.rs: SigmaDescriptionLexer, transform_alert_content"]}
{"id": "C49", "title": "Sigma severity levels", "statement": "Sigma levels map to the alert severity of the same name and unknown levels to LOW.", "quantifier": "every string", "why_tests_cant": "unbounded strings", "anchors": ["src/components/rule/sigma.rs: level_to_severity"]}
{"id": "C50", "title": "The query lexer is total and makes progress", "statement": "For every query text the lexer never panics, every call that returns a token other than EOF or ILLEGAL consumes at least one character, and repeatedly calling it reaches EOF or ILLEGAL.", "quantifier": "every character sequence", "why_tests_cant": "unbounded inputs; hangs are not observable by a finite test", "anchors": ["src/components/query/mod.rs: QueryLexer::next_token"]}
{"id": "C51", "title": "The query lexer tokenises numbers and words maximally", "statement": "A run of digits that does not start with 0 is returned as one INT token with exactly that text, a run of identifier characters as one keyword/function/FIELD token with exactly that text, and the lexer goes on right after it.", "quantifier": "every run and every following character", "why_tests_cant": "unbounded inputs", "anchors": ["src/components/query/mod.rs: QueryLexer::next_token, get_keyword_token"]}
{"id": "C52", "title": "Wildcards at both ends or inside query strings", "statement": "A double-quoted string without wildcards is that text; wildcards at both ends mean contains; wildcards strictly inside, or more than two, make a LIKE pattern with the text as written. And for every double-quoted string whatsoever, the token the lexer returns is determined by the text it keeps (escaped asterisks with their backslash): its length, its first and last character and the number of its asterisks that do not follow a backslash.", "quantifier": "every quoted string", "why_tests_cant": "unbounded inputs", "anchors": ["src/components/query/mod.rs: QueryLexer::next_token, count_asterix"]}
{"id": "C53", "title": "Quoted literals round trip", "statement": "Escaping a text and lexing it between single quotes gives back exactly that text and leaves the lexer right after the closing quote.", "quantifier": "every text", "why_tests_cant": "unbounded inputs", "anchors": ["src/components/query/mod.rs: read_literal_string"]}
{"id": "C54", "title": "Network protocol identifiers", "statement": "Parsing an IANA protocol number yields the protocol assigned to it, unassigned or out of range numbers yield UNKNOWN.", "quantifier": "every integer", "why_tests_cant": "all integers", "anchors": ["src/events/protocol.rs: parse_protocol_id"]}
{"id": "C55", "title": "HTTP methods", "statement": "Parsing the text of a standard HTTP method other than PUT in any letter case yields that method; other texts are kept in upper case as unknown; no text parses to a method of another name.", "quantifier": "every string", "why_tests_cant": "unbounded strings", "anchors": ["src/events/common.rs: HttpMethod::from_str_slice"]}
{"id": "C56", "title": "MITRE identifiers", "statement": "Every MITRE tactic/technique identifier parses to its own variant; nothing else parses.", "quantifier": "every variant and every string", "why_tests_cant": "hundreds of hand-written table rows, all strings", "anchors": ["src/components/mitre.rs: TryFrom<&str> for MitreTactics / MitreTechniques"]}
{"id": "C57", "title": "Commands map to their function type", "statement": "Each command call reports the function type of the same name; two calls report the same type only if they are the same kind of command (and, for custom commands, have the same name).", "quantifier": "every pair of command calls", "why_tests_cant": "all pairs", "anchors": ["src/components/command.rs: SiemCommandCall::get_type"]}
{"id": "C58", "title": "GeoIP on-disk keys of IPv4 and IPv6 networks", "statement": "Two ways of writing an IPv4 network have the same storage key exactly when they are the same network; two IPv6 networks have the same key exactly when they start at the same address, whatever their lengths; an IPv4 and an IPv6 network can share a key only if the IPv4 one has length 1.", "quantifier": "every pair of networks", "why_tests_cant": "2^136 keys", "anchors": ["src/components/dataset/geo_ip/slow.rs: get_key (feature slow_geoip)"]}
{"id": "C59", "title": "What the MAC parsers do with any text", "statement": "A MAC parser cuts the text at ':' and '-', reads as many parts as it has places (the any-width one: all parts, which must be 6, 8 or 16), each a hexadecimal number with an optional '+', shifts each to its place, losing the bits shifted out, and adds them up: it returns that sum when it fits the word, aborts exactly when a partial sum does not, and otherwise returns none. If no part has more than two characters it never aborts and what it returns fits its width.", "quantifier": "every text given to the 48, 64, any-width MAC parsers", "why_tests_cant": "The inputs are unbounded texts; the failures (overflow aborts, oversized parts) appear only on unusual ones.", "anchors": ["src/utilities/mac.rs: mac_str_to_u48, mac_str_to_u64, mac_str_to_u128"]}
{"id": "C60", "title": "IPv6 printing", "statement": "Two different IPv6 addresses never print the same text; what is printed is a valid text of the address (IPv4-mapped addresses print in dotted form); the printed text parses back to the address exactly when the address is not IPv4-mapped and some group has fewer than four significant hex digits.", "quantifier": "every 128-bit value", "why_tests_cant": "2^128 values, several textual forms (compressed, full, IPv4-mapped)", "anchors": ["src/utilities/ip_utils.rs: ipv6_to_str, ipv6_from_str"]}
{"id": "C61", "title": "SiemIp text and comparison", "statement": "Different SiemIp values display differently; parsing never aborts; every IPv4 value is read back from its text, and an IPv6 value exactly when ipv6_from_str reads what ipv6_to_str prints of it; equals(text) is true exactly when the text parses to the address in its family; an address built from octets takes the low byte of each, most significant first.", "quantifier": "every SiemIp value and every text", "why_tests_cant": "The value space is 2^32 + 2^128 and the text space infinite", "anchors": ["src/events/ip.rs: SiemIp::from_ip_str, SiemIp::equals, Display, From<[u32; 4]>, From<[u32; 16]>"]}
{"id": "C62", "title": "The default schema covers the structured events but for two fields", "statement": "Every field of the log of a structured event except the two timestamps, dns.answer.data and requested_ip is declared by the default schema, so applying the schema keeps it.", "quantifier": "every event of the seven structured kinds", "why_tests_cant": "needs all combinations of event kinds and optional components against the whole schema", "anchors": ["src/events/base_schema.rs: get_default_schema", "src/events/schema.rs: FieldSchema::apply", "src/events/{firewall,dns,dhcp,webproxy,webserver,intrusion,auth}.rs: From<..> for SiemLog"]}
{"id": "C63", "title": "Gauges lose no updates", "statement": "After any interleaving of inc/dec calls a gauge holds the sum of the amounts (in hundred-thousandths, modulo 2^64); setting a gauge to a whole number below 2^53/100000 in absolute value and reading it gives that value back; setting it to any finite number below 2^51/100000 reads a number less than 0.00002 away, and after any interleaving of increments and decrements by decimals the reading is within 1.25 units per call plus half a unit (a unit is 0.00001) of their sum. A gauge set or reset holds that value and what was added since.", "quantifier": "every schedule of updates; every value with at most five decimals", "why_tests_cant": "schedules cannot be enumerated and the loss of decimals depends on binary rounding", "anchors": ["src/components/metrics/gauge.rs: inc_by, dec_by, set, get, normalize_f64, normalize_i64"]}
{"id": "C64", "title": "Accepted one-line definitions encode cleanly", "statement": "A counter vector whose definition was accepted and whose description has one line produces an exposition a Prometheus reader accepts, with a zero sample for each series it was created with.", "quantifier": "every accepted definition", "why_tests_cant": "unbounded descriptions", "anchors": ["src/components/metrics/mod.rs: SiemMetricDefinition::new, valid_description", "src/components/metrics/counter.rs: Encoder for CounterVec"]}
{"id": "C65", "title": "Histograms are consistent at every instant", "statement": "At every instant of every schedule of observing threads no bucket of a histogram exceeds its count (fewer than 2^64 observations).", "quantifier": "every schedule of observing threads and of the encoder", "why_tests_cant": "depends on the interleaving", "anchors": ["src/components/metrics/histogram.rs: observe, Encoder for Histogram"]}
{"id": "C66", "title": "What lookups in the on-disk GeoIP dataset answer", "statement": "After any insertions of IPv4 networks every IPv4 lookup in the on-disk GeoIP dataset answers like the in-memory dataset. After any insertions of IPv6 networks an IPv6 lookup returns the record last stored for a network that starts at the address cut at the smallest length, from its number of trailing zero bits up to 127, for which there is one, and nothing if there is none.", "quantifier": "every sequence of insertions and every address of both families", "why_tests_cant": "2^32 + 2^128 addresses times every set of networks; the fault needs two networks or addresses that share a key", "anchors": ["src/components/dataset/geo_ip/slow.rs: insert, get, get_key", "src/components/dataset/geo_ip/fast.rs: get"]}
{"id": "C67", "title": "Language codes", "statement": "A two letter language code in any letter case denotes the language of that code, and every other text denotes the unknown language.", "quantifier": "every text", "why_tests_cant": "unbounded texts; 183 codes times four letter cases", "anchors": ["src/components/dataset/i18n.rs: From<String> for Language, Language"]}
{"id": "C68", "title": "Commands are taken in turn", "statement": "A component that has taken more messages than were sent before a STOP_COMPONENT command has taken that command and returned Ok.", "quantifier": "every schedule of the component, its senders and the reader of its output", "why_tests_cant": "Depends on the state of two bounded channels and on who acts next", "anchors": ["src/components/simplified.rs: SimpleComponent::run, process_message, process_log_for_component"]}
{"id": "C69", "title": "Due ticks and traffic", "statement": "A component that found nothing to take can tick as soon as the deadline its last tick set has passed, and a component that always finds something to take does not tick again.", "quantifier": "every schedule of arrivals and every tick period", "why_tests_cant": "The failure needs sustained traffic", "anchors": ["src/components/simplified.rs: SimpleComponent::run, deadline_of_tick"]}
{"id": "C70", "title": "A component with log channels processes each log once", "statement": "A component that was given its log channels takes exactly the logs others sent, in order, each once; the logs it forwards do not come back.", "quantifier": "every wiring of the log channels and every schedule", "why_tests_cant": "The failure is an endless loop or a deadlock under particular wirings", "anchors": ["src/components/simplified.rs: SimpleComponent::new, set_log_channel, process_log_for_component"]}
{"id": "C71", "title": "Messages to the kernel are delivered or reported", "statement": "send, try_send and send_timeout either append the message to the channel and return Ok, or leave the channel unchanged and return the error that tells a full channel, a timeout and a disconnected kernel apart; what is sent arrives as a message of its kind with an empty header.", "quantifier": "every channel state and every message", "why_tests_cant": "All combinations of channel states, messages and calls", "anchors": ["src/components/kernel_message.rs: send, try_send, send_timeout", "src/err.rs: From<TrySendError>, From<SendError>, From<SendTimeoutError>", "src/components/common.rs: From<..> for SiemMessage"]}
{"id": "C72", "title": "Tasks report their type", "statement": "The type of a task identifies its kind (and the name of a custom task) and displays as that name; two types display alike only if one is custom and has a predefined name, or they are the same.", "quantifier": "every pair of tasks and of task types", "why_tests_cant": "Custom names are arbitrary texts", "anchors": ["src/components/task.rs: SiemTaskData::class, Display for SiemTaskType"]}
{"id": "C73", "title": "Rules whose one trigger group names every subrule", "statement": "A rule with one trigger group that names every subrule matches a log (when evaluation yields an answer and no operators are nested) exactly when all the subrules of that group hold.", "quantifier": "every rule and every log", "why_tests_cant": "All rules times all logs", "anchors": ["src/components/rule/mod.rs: SiemRule (field conditions), SiemRule::matches"]}
{"id": "C74", "title": "Sigma maps", "statement": "A map of Sigma conditions becomes a subrule that requires all of them, each translated on its own.", "quantifier": "every map and list of Sigma conditions", "why_tests_cant": "Unbounded lists and maps", "anchors": ["src/components/rule/sigma.rs: From<SigmaRuleCondition> for SiemSubRule"]}
{"id": "C75", "title": "Sigma rules keep their metadata", "statement": "Converting a Sigma rule keeps its identifier, title, description and tags, its level as severity, has one subrule per search identifier and lists the MITRE techniques and tactics its attack tags identify, in order; conversion succeeds whenever its conditions can be translated.", "quantifier": "every Sigma rule", "why_tests_cant": "Unbounded tags and conditions, hundreds of identifiers", "anchors": ["src/components/rule/sigma.rs: From<SigmaRule> for SiemRule, parse_subrules"]}
{"id": "C76", "title": "References in alert texts end at a space", "statement": "In a description, $name followed by a space or the end of the text refers to the field of that name.", "quantifier": "every description", "why_tests_cant": "Unbounded strings", "anchors": ["src/components/rule/sigma.rs: SigmaDescriptionLexer::next_token (read_field)"]}
{"id": "C77", "title": "Alert dictionaries", "statement": "Looking up a text returns the text stored for that identifier in that language, and nothing otherwise.", "quantifier": "every dictionary, language and identifier", "why_tests_cant": "Unbounded dictionaries", "anchors": ["src/components/rule/mod.rs: AlertDictionary::get_mappings_for, get_mappings_for_id"]}
{"id": "C78", "title": "Comparing rule operators without field values", "statement": "Equality of rule operators is reflexive, and for operators without embedded field values it is identity.", "quantifier": "every pair and triple of operators", "why_tests_cant": "Operators nest without bound", "anchors": ["src/components/rule/mod.rs: PartialEq for RuleOperator"]}
{"id": "C79", "title": "The tactic command_and_control in Sigma tags", "statement": "A tag attack.command_and_control of a Sigma rule adds that tactic to the rule.", "quantifier": "every Sigma rule and tactic", "why_tests_cant": "All rules times all tactics", "anchors": ["src/components/rule/sigma.rs: From<SigmaRule> for SiemRule", "src/components/mitre.rs: TryFrom<&str> for MitreTactics"]}
{"id": "C80", "title": "Sigma condition expressions", "statement": "The condition expression of a Sigma rule decides which search identifiers trigger the converted rule.", "quantifier": "every Sigma rule", "why_tests_cant": "Unbounded expressions", "anchors": ["src/components/rule/sigma.rs: From<SigmaRule> for SiemRule, SigmaRuleDetection"]}
{"id": "C81", "title": "Whole queries", "statement": "Lexing a query written in the language (blanks, symbols, numbers not starting with 0, words, single quoted strings, double quoted strings without one-sided wildcards) yields exactly its tokens in order, then EOF; so such a query has one reading.", "quantifier": "every query of the lexical grammar", "why_tests_cant": "unbounded inputs and token sequences", "anchors": ["src/components/query/mod.rs: QueryLexer, get_keyword_token"]}
{"id": "C82", "title": "Unterminated strings are reported", "statement": "A query that ends inside a quoted string is reported as illegal instead of being accepted.", "quantifier": "every unterminated string", "why_tests_cant": "unbounded inputs", "anchors": ["src/components/query/mod.rs: QueryLexer::next_token"]}
{"id": "C83", "title": "Metric conversions", "statement": "Turning a counter, gauge or histogram vector into a general metric and asking for it back by its kind gives the same vector; asking for another kind is an error.", "quantifier": "every metric", "why_tests_cant": "every content of every metric", "anchors": ["src/components/metrics/mod.rs: From<..> for SiemMetric, TryInto<GaugeVec/CounterVec/HistogramVec> for SiemMetric"]}
{"id": "C84", "title": "Synchronised datasets, end to end, while the channel holds", "statement": "Whatever calls are made on a synchronised dataset, and however its owner spreads the publications over them, as long as the channel never overflows the snapshot published after the last call is what the same calls made directly on the dataset would have left, and a reader finds exactly what was last inserted and not later removed.", "quantifier": "every history of calls and publications, every channel capacity", "why_tests_cant": "all interleavings of writers and publications", "anchors": ["src/components/dataset/ip_set.rs: IpSetSynDataset", "src/components/dataset/ip_map.rs: IpMapSynDataset", "src/components/dataset/text_map.rs: TextMapSynDataset", "src/components/dataset/ip_net.rs: IpNetSynDataset"]}
{"id": "C85", "title": "Addresses in JSON: what is written and what is read", "statement": "The text written for an address identifies it and the address parser reads it (every IPv4 address; IPv6 addresses whose printed form parses). What is read as an address is exactly an object with the family and the number.", "quantifier": "every address and every JSON value", "why_tests_cant": "2^128 addresses, every JSON value", "anchors": ["src/events/ip.rs: Serialize for SiemIp, derive(Deserialize) for SiemIp"]}
{"id": "C86", "title": "Field values in JSON: what they become", "statement": "A field value written as JSON and read back becomes exactly the value the table `becomes` gives; nothing, texts, lists, unsigned and negative integers and finite floats come back as they were and no others; a second trip changes nothing more; the displayed text stays the same but for dates, paths and floats.", "quantifier": "every field value", "why_tests_cant": "every text, number, address and list", "anchors": ["src/events/field.rs: SiemField (serde untagged)"]}
{"id": "C87", "title": "Logs in JSON: what is written and what is read", "statement": "A log is written as an object with exactly its fields under their names; one that can be read back has only lists of one text and is read as a log with those texts under the same names, without tags.", "quantifier": "every log", "why_tests_cant": "unbounded logs", "anchors": ["src/events/log.rs: SiemLog (serde)", "src/events/ifield.rs: InternalField (Serialize, Deserialize)"]}
{"id": "C88", "title": "Commands in JSON", "statement": "A command without an address, a header, a function type or a task written as JSON and read back is the same; a command with one is never read; every command is tagged with the name of its function, and different commands are written differently.", "quantifier": "every command, header and task", "why_tests_cant": "every payload of every command", "anchors": ["src/components/command.rs: SiemCommandCall, SiemCommandHeader, SiemFunctionType", "src/components/command_types.rs", "src/components/task.rs: SiemTask, SiemTaskData"]}
{"id": "C89", "title": "Command responses in JSON", "statement": "A command response written as JSON and read back is the same, except that the values in the rows of a log query change as field values do; results are tagged ok or err.", "quantifier": "every response", "why_tests_cant": "every payload of every response", "anchors": ["src/components/command.rs: SiemCommandResponse, CommandResult (Serialize, Deserialize)"]}
{"id": "C90", "title": "Task definitions in JSON", "statement": "A task definition written and read back is the same definition but for the function that runs it, which becomes one that answers OK; unknown keys are refused.", "quantifier": "every task definition and every JSON object", "why_tests_cant": "unbounded payloads, every object", "anchors": ["src/components/task.rs: TaskDefinition (Serialize, Deserialize)"]}
{"id": "C91", "title": "Rules in JSON", "statement": "A rule written as JSON and read back has the same identity, subrules and alert and decides the same on every log; what it becomes is exactly what a table gives: only the values in its comparisons change, as field values do, a network test or an expression that does not compile makes it unreadable.", "quantifier": "every rule, log and set of datasets", "why_tests_cant": "operators nest without bound; every log", "anchors": ["src/components/rule/mod.rs: SiemRule, SiemSubRule, RuleCondition, RuleOperator, RuleOperator, regex_to_string, string_to_regex (serde)"]}
{"id": "C92", "title": "Messages in JSON", "statement": "Notifications, tasks, their results, commands without addresses and responses that are not rows of a log query arrive in JSON as they were sent.", "quantifier": "every message", "why_tests_cant": "every payload of every kind of message", "anchors": ["src/components/common.rs: SiemMessage (serde)"]}
{"id": "C93", "title": "Metrics in JSON", "statement": "The JSON of a metric definition shows its name, its description and, per series in order, the labels and exactly what reading the metric through its API gives at that moment, under every schedule.", "quantifier": "every metric, every history and interleaving of updates", "why_tests_cant": "all schedules of updates, every label set", "anchors": ["src/components/metrics/mod.rs: Serialize for SiemMetricDefinition, SiemMetric", "src/components/metrics/counter.rs: Serialize", "src/components/metrics/gauge.rs: Serialize", "src/components/metrics/histogram.rs: Serialize"]}
{"id": "C94", "title": "Datasets, use cases and capabilities in JSON", "statement": "The JSON of a dataset shows its type and name and nothing of its contents; that of a use case reads as its definition and shows everything but what its steps do; that of a component's capabilities shows each part as it was declared.", "quantifier": "every dataset, use case and component description", "why_tests_cant": "unbounded contents, every dataset of a type", "anchors": ["src/components/dataset/mod.rs: Serialize for SiemDataset", "src/components/use_case.rs: SiemUseCase", "src/components/common.rs: CommandDefinition, DatasetDefinition", "src/components/mod.rs: capabilities"]}
{"id": "C95", "title": "Structured events in JSON", "statement": "An event can be written as JSON unless it has a protocol of its own or is a JSON value that is neither an object nor null; it shows each of its values under its own name. Logins, JSON objects without an event_type entry and the events without payload are read back as the same event, and every event but DHCP, with IPv4 addresses and a named protocol, is read from any object that has its values, addresses given as an object of family and number, or from the list of these values in order.", "quantifier": "every event", "why_tests_cant": "every payload of every kind of event", "anchors": ["src/events/event.rs: SiemEvent (serde)", "src/events/protocol.rs: NetworkProtocol", "src/events/firewall.rs", "src/events/intrusion.rs", "src/events/webproxy.rs", "src/events/webserver.rs", "src/events/dns.rs", "src/events/dhcp.rs", "src/events/auth.rs"]}
{"id": "C96", "title": "Only dotted quads are accepted as IPv4 addresses", "statement": "ipv4_from_str accepts a text only if it consists of four decimal octets separated by dots.", "quantifier": "every string", "why_tests_cant": "the input space is all strings; negative inputs cannot be enumerated", "anchors": ["src/utilities/ip_utils.rs: ipv4_from_str, is_ipv4"]}
{"id": "C97", "title": "The IPv6 parser accepts exactly the valid texts", "statement": "Every valid IPv6 text (eight groups of one to four hex digits, or at most seven groups around one '::') is accepted and anything else is rejected.", "quantifier": "every string", "why_tests_cant": "infinitely many texts, group widths and '::' positions", "anchors": ["src/utilities/ip_utils.rs: ipv6_from_str, read_hextet"]}
{"id": "C98", "title": "MAC text round trip for any width", "statement": "Parsing a 6, 8 or 16 octet MAC text with the any-width or the 128-bit parser and printing the value gives back the same text; different values print differently.", "quantifier": "every list of 6, 8 or 16 octets", "why_tests_cant": "2^128 values", "anchors": ["src/utilities/mac.rs: mac_str_to_u128, mac_str_to_u128_any, mac_u128_to_str"]}
{"id": "C99", "title": "Field equality is an equivalence relation", "statement": "Equality of field values is symmetric and transitive, and values holding different content are different.", "quantifier": "every pair and triple of field values, including nested arrays", "why_tests_cant": "12 variants, unbounded payloads, triples", "anchors": ["src/events/field.rs: PartialEq for SiemField"]}
{"id": "C100", "title": "Equal fields hash equally", "statement": "Any two field values that compare equal feed the same data to the hasher, so they can be used as hash-map keys.", "quantifier": "every pair of field values", "why_tests_cant": "needs all pairs, including pairs of different variants", "anchors": ["src/events/field.rs: Hash for SiemField, PartialEq for SiemField"]}
{"id": "C101", "title": "Substring predicate on assets", "statement": "contains_str(s) is true of an asset identifier exactly when its text contains s.", "quantifier": "every field value and every string", "why_tests_cant": "unbounded strings; wrong variants are only visible on negative inputs", "anchors": ["src/events/field.rs: SiemField::contains_str"]}
{"id": "C102", "title": "No conversion changes a number", "statement": "Converting a field to u64/i64/f64 fails or returns the number the field denotes.", "quantifier": "every field value and target type", "why_tests_cant": "64-bit ranges and arbitrary strings", "anchors": ["src/events/field.rs: TryInto<u64>/<i64>/<&str>/<LogString> for &SiemField, Display for SiemField"]}
{"id": "C103", "title": "Typed reads are transparent after edits in place", "statement": "A typed read returns the conversion of the current value also after the value was edited in place (field_mut, iter_mut).", "quantifier": "every interleaving of insertions, in-place edits and typed reads", "why_tests_cant": "cache coherence is a property of all histories", "anchors": ["src/events/log.rs: u64_field, i64_field, f64_field, txt_field, ip_field, array_field, field_mut", "src/events/ifield.rs"]}
{"id": "C104", "title": "ip_fields reports nothing but fields holding an IP", "statement": "At any moment, also after a schema was applied, ip_fields() yields exactly the fields whose current value is an IP address.", "quantifier": "every sequence of log operations", "why_tests_cant": "the index is maintained incrementally, so only some histories break it", "anchors": ["src/events/log.rs: SiemLog::insert, ip_fields, EventFieldIter", "src/events/schema.rs: FieldSchema::apply"]}
{"id": "C105", "title": "Tags are found as they were given", "statement": "After add_tag(t), has_tag(t) is true.", "quantifier": "every tag string and every history of add_tag calls", "why_tests_cant": "unbounded strings (letter case) and histories", "anchors": ["src/events/log.rs: add_tag, has_tag, tags"]}
{"id": "C106", "title": "The creation time set is read back", "statement": "After set_event_created(z), event_created() is z.", "quantifier": "every log and every value", "why_tests_cant": "needs every pair (setter, getter) on every log state", "anchors": ["src/events/log.rs: SiemLog setters and getters"]}
{"id": "C107", "title": "The default schema keeps the timestamps", "statement": "Applying the default schema to a freshly created log keeps both its timestamps readable.", "quantifier": "every message, origin and receive time", "why_tests_cant": "the field names on both sides are maintained separately", "anchors": ["src/events/schema.rs: FieldSchema::new, apply", "src/events/log.rs: SiemLog::new"]}
{"id": "C108", "title": "DNS queries keep their data when turned into a log", "statement": "Different DNS events give different logs.", "quantifier": "every event value", "why_tests_cant": "every combination of component values and optional parts", "anchors": ["src/events/event.rs, dns.rs, dhcp.rs, webserver.rs, webproxy.rs, firewall.rs, auth.rs, intrusion.rs"]}
{"id": "C109", "title": "Histogram get_count reads the requested bucket", "statement": "get_count(le) returns the number of observations recorded for the bucket bounded by le.", "quantifier": "every bucket configuration, history and bound", "why_tests_cant": "wrong bucket selection is only visible with more than one populated bucket", "anchors": ["src/components/metrics/histogram.rs: get_count"]}
{"id": "C110", "title": "Label combinations enumerate the Cartesian product", "statement": "label_combinations returns every choice of one value per label.", "quantifier": "every list of labels with any number of values each", "why_tests_cant": "the number of label shapes is unbounded and only mixed sizes fail", "anchors": ["src/components/metrics/mod.rs: label_combinations"]}
{"id": "C111", "title": "Prometheus exposition of histograms and unusual label values can be read back", "statement": "Every text a histogram vector, or a counter vector with any label values it was created with, encodes follows the Prometheus text format.", "quantifier": "every list of series with any labels, including empty values and values with special characters", "why_tests_cant": "all combinations of empty and non-empty labels and all label texts", "anchors": ["src/components/metrics/counter.rs, gauge.rs, histogram.rs: Encoder::encode"]}
{"id": "C112", "title": "An empty batch of updates is harmless", "statement": "Applying an empty batch of updates leaves the dataset as it was.", "quantifier": "every dataset, every batch", "why_tests_cant": "unbounded batches", "anchors": ["src/components/dataset/*: apply_updates, update"]}
{"id": "C113", "title": "Network lookup is complete and prefers the most specific network", "statement": "If some stored network contains the address the lookup finds one, and it returns the value of the longest matching prefix.", "quantifier": "every insertion history, every address of both families", "why_tests_cant": "depends on bit patterns (trailing zeros) of the address", "anchors": ["src/components/dataset/ip_net.rs: IpNetDataset::get", "src/components/dataset/geo_ip/fast.rs"]}
{"id": "C114", "title": "Synchronised dataset writes are delivered or reported", "statement": "A writer that is told nothing went wrong can rely on its update reaching the dataset owner.", "quantifier": "every channel capacity and every sequence of writes and drains", "why_tests_cant": "depends on queue occupancy and receiver lifetime", "anchors": ["src/components/dataset/ip_set.rs: IpSetSynDataset and siblings", "src/components/dataset/rules.rs: try_insert, insert_timeout"]}
{"id": "C115", "title": "Calendar lookups are complete", "statement": "After inserting an event [start,end] the calendar reports it for every instant in that interval.", "quantifier": "every set of events and every instant", "why_tests_cant": "64-bit time range and multi-day splits", "anchors": ["src/components/dataset/calendar.rs: insert, get"]}
{"id": "C116", "title": "GeoIP dataset conversion", "statement": "Building a dataset from a (type, GeoIP value) pair succeeds exactly when the type is the GeoIP type.", "quantifier": "every dataset type and kind of dataset value", "why_tests_cant": "all pairs", "anchors": ["src/components/dataset/mod.rs: TryFrom<(SiemDatasetType, ..)>, dataset_type"]}
{"id": "C117", "title": "State storage file ranges", "statement": "Writing a byte range of a file changes exactly that range, and reading a range returns exactly those bytes for every range within the file.", "quantifier": "every file content and range", "why_tests_cant": "all ranges", "anchors": ["src/components/storage.rs: TestingStorage::get_file_range, set_file_range"]}
{"id": "C118", "title": "Rule matching", "statement": "A rule matches a log exactly when all its conditions hold and evaluation never aborts.", "quantifier": "every rule and every log", "why_tests_cant": "all rules times all logs", "anchors": ["src/components/rule/mod.rs: SiemRule::matches, RuleCondition::matches"]}
{"id": "C119", "title": "Sigma wildcards, other modifiers and nulls are translated faithfully", "statement": "Every Sigma condition is translated to an operator of the same meaning: wildcards anywhere in a text, every modifier, lists under every modifier, and nulls; translation never aborts.", "quantifier": "every Sigma field expression and value", "why_tests_cant": "unbounded strings", "anchors": ["src/components/rule/sigma.rs: parse_rule_condition, translate_operator, translate_content_to_operator"]}
{"id": "C120", "title": "Numbers that start with 0 are tokens", "statement": "A run of digits that starts with 0 is returned as one INT token.", "quantifier": "every run and every following character", "why_tests_cant": "unbounded inputs", "anchors": ["src/components/query/mod.rs: QueryLexer::next_token, get_keyword_token"]}
{"id": "C121", "title": "One-sided and escaped wildcards in query strings", "statement": "A double-quoted string with only a trailing wildcard means starts-with, only a leading wildcard means ends-with; escaped asterisks are literal.", "quantifier": "every quoted string", "why_tests_cant": "unbounded inputs", "anchors": ["src/components/query/mod.rs: QueryLexer::next_token, count_asterix"]}
{"id": "C122", "title": "The HTTP method PUT", "statement": "Parsing PUT yields the method PUT.", "quantifier": "every string", "why_tests_cant": "unbounded strings", "anchors": ["src/events/common.rs: HttpMethod::from_str_slice"]}
{"id": "C123", "title": "GeoIP on-disk keys are collision free", "statement": "Two different networks of any family never share a storage key in the on-disk GeoIP dataset.", "quantifier": "every pair of networks", "why_tests_cant": "2^136 keys", "anchors": ["src/components/dataset/geo_ip/slow.rs: get_key (feature slow_geoip)"]}
{"id": "C124", "title": "MAC parsers are total and width-exact", "statement": "The MAC parsers never abort on any text, accept only texts of their width made of two-digit octets, and what they return fits that width.", "quantifier": "every text given to the 48, 64, any-width MAC parsers", "why_tests_cant": "The inputs are unbounded texts; the failures (overflow aborts, oversized parts) appear only on unusual ones.", "anchors": ["src/utilities/mac.rs: mac_str_to_u48, mac_str_to_u64, mac_str_to_u128"]}
{"id": "C125", "title": "IPv6 text round trip", "statement": "Printing any IPv6 address held as a u128 and parsing the printed text gives back the same u128.", "quantifier": "every 128-bit value", "why_tests_cant": "2^128 values, several textual forms (compressed, full, IPv4-mapped)", "anchors": ["src/utilities/ip_utils.rs: ipv6_to_str, ipv6_from_str"]}
{"id": "C126", "title": "The default schema covers the structured events", "statement": "Applying the default schema (get_default_schema) to the log of any structured event removes none of the fields the event contributed.", "quantifier": "every event of the seven structured kinds", "why_tests_cant": "needs all combinations of event kinds and optional components against the whole schema", "anchors": ["src/events/base_schema.rs: get_default_schema", "src/events/schema.rs: FieldSchema::apply", "src/events/{firewall,dns,dhcp,webproxy,webserver,intrusion,auth}.rs: From<..> for SiemLog"]}
{"id": "C127", "title": "Gauges keep decimals", "statement": "Setting a gauge to a value with at most five decimals and reading it gives that value back.", "quantifier": "every schedule of updates; every value with at most five decimals", "why_tests_cant": "schedules cannot be enumerated and the loss of decimals depends on binary rounding", "anchors": ["src/components/metrics/gauge.rs: inc_by, dec_by, set, get, normalize_f64, normalize_i64"]}
{"id": "C128", "title": "Accepted metric definitions encode cleanly", "statement": "A metric whose definition was accepted (valid name and description) always produces an exposition a Prometheus reader accepts.", "quantifier": "every accepted definition", "why_tests_cant": "unbounded descriptions", "anchors": ["src/components/metrics/mod.rs: SiemMetricDefinition::new, valid_description", "src/components/metrics/counter.rs: Encoder for CounterVec"]}
{"id": "C129", "title": "Scrapes racing with observations are consistent", "statement": "A histogram encoded while other threads observe never shows a bucket larger than its count.", "quantifier": "every schedule of observing threads and of the encoder", "why_tests_cant": "depends on the interleaving", "anchors": ["src/components/metrics/histogram.rs: observe, Encoder for Histogram"]}
{"id": "C130", "title": "The on-disk GeoIP dataset answers soundly", "statement": "A lookup in the on-disk GeoIP dataset only returns a record inserted for a network that contains the address.", "quantifier": "every sequence of insertions and every address of both families", "why_tests_cant": "2^32 + 2^128 addresses times every set of networks; the fault needs two networks or addresses that share a key", "anchors": ["src/components/dataset/geo_ip/slow.rs: insert, get, get_key", "src/components/dataset/geo_ip/fast.rs: get"]}
{"id": "C131", "title": "A stop command takes effect however the logs flow", "statement": "A STOP_COMPONENT command sent to a running component makes it return, whatever happens to the logs it forwards.", "quantifier": "every schedule of the component, its senders and the reader of its output", "why_tests_cant": "Depends on the state of two bounded channels and on who acts next", "anchors": ["src/components/simplified.rs: SimpleComponent::run, process_message, process_log_for_component"]}
{"id": "C132", "title": "Due ticks are performed", "statement": "A tick whose time has come is performed even if messages and logs keep arriving.", "quantifier": "every schedule of arrivals and every tick period", "why_tests_cant": "The failure needs sustained traffic", "anchors": ["src/components/simplified.rs: SimpleComponent::run, deadline_of_tick"]}
{"id": "C133", "title": "A component without log channels processes each log once", "statement": "Also when set_log_channel was never called, a log given to a running component is handed to its handler once, and the component never blocks on itself.", "quantifier": "every wiring of the log channels and every schedule", "why_tests_cant": "The failure is an endless loop or a deadlock under particular wirings", "anchors": ["src/components/simplified.rs: SimpleComponent::new, set_log_channel, process_log_for_component"]}
{"id": "C134", "title": "Displayed task types are distinct", "statement": "Two different task types never display alike.", "quantifier": "every pair of tasks and of task types", "why_tests_cant": "Custom names are arbitrary texts", "anchors": ["src/components/task.rs: SiemTaskData::class, Display for SiemTaskType"]}
{"id": "C135", "title": "Trigger groups of a rule", "statement": "A rule matches a log exactly when all the subrules of one of its trigger groups hold.", "quantifier": "every rule and every log", "why_tests_cant": "All rules times all logs", "anchors": ["src/components/rule/mod.rs: SiemRule (field conditions), SiemRule::matches"]}
{"id": "C136", "title": "Sigma lists of maps", "statement": "A list of maps of Sigma conditions requires one of the maps.", "quantifier": "every map and list of Sigma conditions", "why_tests_cant": "Unbounded lists and maps", "anchors": ["src/components/rule/sigma.rs: From<SigmaRuleCondition> for SiemSubRule"]}
{"id": "C137", "title": "References in alert texts", "statement": "In a description, $name followed by any character that cannot be part of a field name refers to the field of that name.", "quantifier": "every description", "why_tests_cant": "Unbounded strings", "anchors": ["src/components/rule/sigma.rs: SigmaDescriptionLexer::next_token (read_field)"]}
{"id": "C138", "title": "Comparing rule operators", "statement": "Equality of rule operators is an equivalence that tells different operators apart.", "quantifier": "every pair and triple of operators", "why_tests_cant": "Operators nest without bound", "anchors": ["src/components/rule/mod.rs: PartialEq for RuleOperator"]}
{"id": "C139", "title": "Tactics named in Sigma tags", "statement": "A tag attack.<tactic name> of a Sigma rule adds that tactic to the rule.", "quantifier": "every Sigma rule and tactic", "why_tests_cant": "All rules times all tactics", "anchors": ["src/components/rule/sigma.rs: From<SigmaRule> for SiemRule", "src/components/mitre.rs: TryFrom<&str> for MitreTactics"]}
{"id": "C140", "title": "Whole queries with numbers from 0 and one-sided wildcards", "statement": "Lexing any query written in the language yields exactly its tokens in order, then EOF.", "quantifier": "every query of the lexical grammar", "why_tests_cant": "unbounded inputs and token sequences", "anchors": ["src/components/query/mod.rs: QueryLexer, get_keyword_token"]}
{"id": "C141", "title": "Synchronised datasets, end to end", "statement": "Whatever calls are made on a synchronised dataset, and however its owner spreads the publications over them, the snapshot published after the last call is what the same calls made directly on the dataset would have left.", "quantifier": "every history of calls and publications, every channel capacity", "why_tests_cant": "all interleavings of writers and publications", "anchors": ["src/components/dataset/ip_set.rs: IpSetSynDataset", "src/components/dataset/ip_map.rs: IpMapSynDataset", "src/components/dataset/text_map.rs: TextMapSynDataset", "src/components/dataset/ip_net.rs: IpNetSynDataset"]}
{"id": "C142", "title": "Addresses in JSON round trip", "statement": "An address written as JSON is read back as the same address.", "quantifier": "every address and every JSON value", "why_tests_cant": "2^128 addresses, every JSON value", "anchors": ["src/events/ip.rs: Serialize for SiemIp, derive(Deserialize) for SiemIp"]}
{"id": "C143", "title": "Field values in JSON round trip", "statement": "A field value written as JSON and read back is the same value, of the same kind.", "quantifier": "every field value", "why_tests_cant": "every text, number, address and list", "anchors": ["src/events/field.rs: SiemField (serde untagged)"]}
{"id": "C144", "title": "Logs in JSON round trip", "statement": "Reading the JSON of a log gives a log with the same fields.", "quantifier": "every log", "why_tests_cant": "unbounded logs", "anchors": ["src/events/log.rs: SiemLog (serde)", "src/events/ifield.rs: InternalField (Serialize, Deserialize)"]}
{"id": "C145", "title": "Commands with addresses in JSON round trip", "statement": "Any command written as JSON and read back is the same.", "quantifier": "every command, header and task", "why_tests_cant": "every payload of every command", "anchors": ["src/components/command.rs: SiemCommandCall, SiemCommandHeader, SiemFunctionType", "src/components/command_types.rs", "src/components/task.rs: SiemTask, SiemTaskData"]}
{"id": "C146", "title": "Query responses in JSON round trip", "statement": "Any command response written as JSON and read back is the same.", "quantifier": "every response", "why_tests_cant": "every payload of every response", "anchors": ["src/components/command.rs: SiemCommandResponse, CommandResult (Serialize, Deserialize)"]}
{"id": "C147", "title": "Task definitions in JSON keep their function and must be complete", "statement": "A task definition written and read back runs the same function; incomplete definitions are refused.", "quantifier": "every task definition and every JSON object", "why_tests_cant": "unbounded payloads, every object", "anchors": ["src/components/task.rs: TaskDefinition (Serialize, Deserialize)"]}
{"id": "C148", "title": "Rules in JSON round trip", "statement": "Every rule written as JSON can be read back and is the same rule.", "quantifier": "every rule, log and set of datasets", "why_tests_cant": "operators nest without bound; every log", "anchors": ["src/components/rule/mod.rs: SiemRule, SiemSubRule, RuleCondition, RuleOperator, RuleOperator, regex_to_string, string_to_regex (serde)"]}
{"id": "C149", "title": "All messages in JSON round trip", "statement": "Every message between components written as JSON and read back is the same message.", "quantifier": "every message", "why_tests_cant": "every payload of every kind of message", "anchors": ["src/components/common.rs: SiemMessage (serde)"]}
{"id": "C150", "title": "Metrics in JSON have one shape", "statement": "The kind and the series of a metric are found in its JSON under the same keys for every kind.", "quantifier": "every metric, every history and interleaving of updates", "why_tests_cant": "all schedules of updates, every label set", "anchors": ["src/components/metrics/mod.rs: Serialize for SiemMetricDefinition, SiemMetric", "src/components/metrics/counter.rs: Serialize", "src/components/metrics/gauge.rs: Serialize", "src/components/metrics/histogram.rs: Serialize"]}
{"id": "C151", "title": "The steps of use cases in JSON", "statement": "Use cases that differ in a step are written differently.", "quantifier": "every dataset, use case and component description", "why_tests_cant": "unbounded contents, every dataset of a type", "anchors": ["src/components/dataset/mod.rs: Serialize for SiemDataset", "src/components/use_case.rs: SiemUseCase", "src/components/common.rs: CommandDefinition, DatasetDefinition", "src/components/mod.rs: capabilities"]}
{"id": "C152", "title": "Structured events in JSON round trip", "statement": "Every structured event can be written as JSON and is read back as the same event.", "quantifier": "every event", "why_tests_cant": "every payload of every kind of event", "anchors": ["src/events/event.rs: SiemEvent (serde)", "src/events/protocol.rs: NetworkProtocol", "src/events/firewall.rs", "src/events/intrusion.rs", "src/events/webproxy.rs", "src/events/webserver.rs", "src/events/dns.rs", "src/events/dhcp.rs", "src/events/auth.rs"]}
{"id": "C153", "title": "JSON objects are read by their keys", "statement": "Reading a header, task, task result, notification, alert, aggregation, query, pagination, definition, rule or rule part from a JSON object depends only on what is given under its own keys: the order of the entries and other keys do not matter, a key given twice or a required key that is missing is refused, and a missing optional key counts as null.", "quantifier": "every JSON object, with any keys in any order and number", "why_tests_cant": "unboundedly many objects; the order in which another writer emits the keys is not under our control", "anchors": ["src/components/common.rs", "src/components/command.rs", "src/components/command_types.rs", "src/components/task.rs", "src/components/alert.rs", "src/components/rule/mod.rs"]}
{"id": "C154", "title": "Components sharing log channels take each log once and in order", "statement": "However components are connected through log channels (none reads from the channel it writes to), the logs received from a channel, by whomever, are the first of those sent into it, in order; each is received by exactly one component (or by the outside world) and was sent once by one; and each component forwards exactly what its own handler kept of what it was given, whatever the others do.", "quantifier": "any number of components, any wiring and channel capacities, any handlers, every interleaving of their threads and of the outside world", "why_tests_cant": "the interleavings of several threads cannot be enumerated", "anchors": ["src/components/simplified.rs", "src/components/mod.rs"]}
{"id": "C155", "title": "A pipeline of components loses and invents no logs", "statement": "In a pipeline of stages, each with any number of duplicates of a component that treats each log by a function of the stage, what came out with what waits in the last channel or is under way is, as a multiset, what the stages one after the other let through of what was put in; when nothing is under way nothing is missing.", "quantifier": "any number of stages and duplicates, any functions and capacities, every interleaving", "why_tests_cant": "the interleavings of several threads cannot be enumerated", "anchors": ["src/components/simplified.rs", "src/components/mod.rs"]}
{"id": "C156", "title": "A pipeline with one component per stage keeps the order", "statement": "With one component per stage the logs come out in the order in which they were put in.", "quantifier": "any number of stages, every interleaving", "why_tests_cant": "the interleavings of several threads cannot be enumerated", "anchors": ["src/components/simplified.rs", "src/components/mod.rs"]}
{"id": "C157", "title": "Closing the input of a pipeline shuts it down without loss", "statement": "Once the sender of the first channel is dropped, and provided the receiver of the last one is kept, no stop command is sent and no tick fails: when the components can do nothing more every one of them has returned, and everything that was put in and let through has come out or waits in the last channel. No component returns before its own input is closed and empty.", "quantifier": "any pipeline, every interleaving", "why_tests_cant": "the interleavings of several threads cannot be enumerated", "anchors": ["src/components/simplified.rs", "src/components/mod.rs"]}
{"id": "C158", "title": "A pipeline comes to rest", "statement": "Left to themselves the components of a pipeline do, from any state, at most a number of steps given by the logs and messages waiting, the number of components and stages and the ticks.", "quantifier": "any pipeline in any state, every interleaving", "why_tests_cant": "a bound on all executions cannot be tested", "anchors": ["src/components/simplified.rs", "src/components/mod.rs"]}
{"id": "C159", "title": "The test parsers", "statement": "DummyParserText takes exactly the logs whose message contains DUMMY, DummyParserAll takes all, DummyParserError none. A log that is taken gets the field `parser` with the name of the parser and is otherwise unchanged; a log that is not taken is handed back unchanged with the error; parsing again changes nothing. The logs made by the generator of DummyParserAll are taken by it.", "quantifier": "every log", "why_tests_cant": "unboundedly many messages and fields", "anchors": ["src/testing/parsers.rs"]}
{"id": "C160", "title": "Parsing errors in JSON", "statement": "The JSON of a parsing error shows its kind, its reason and what the JSON of its log shows; it is read back exactly if the log is, as the same kind with the same reason. An error about a log as it was created cannot be read back.", "quantifier": "every error about every log", "why_tests_cant": "unboundedly many logs", "anchors": ["src/components/parsing.rs", "src/events/log.rs"]}
{"id": "C161", "title": "The test harness stops a component after the action", "statement": "When do_before_stoping_component was called and nobody else stops the component, the component takes all messages sent to it by the action, in order and whatever others send in between, before it takes the stop command of the harness; then it returns without error. Once the stop command waits in its channel and nothing more arrives it returns after a bounded number of steps, unless its output is full.", "quantifier": "any component, any action and other senders, every interleaving, every state of the component", "why_tests_cant": "the interleavings of several threads cannot be enumerated", "anchors": ["src/testing/mod.rs", "src/components/simplified.rs"]}
{"id": "C162", "title": "Schemas in JSON", "statement": "Two different schemas have different JSON; the JSON names exactly the fields of the schema, whether unknown fields are allowed, and the protected fields.", "quantifier": "every schema", "why_tests_cant": "unboundedly many schemas", "anchors": ["src/events/schema.rs"]}
{"id": "C163", "title": "The predefined tags", "statement": "Each predefined tag is found on a log under its own name once added, and adding it makes no other text a tag of the log; no two are the same.", "quantifier": "every predefined tag and every log", "why_tests_cant": "unboundedly many logs", "anchors": ["src/events/tags.rs", "src/events/log.rs"]}
{"id": "C164", "title": "Names made by the default generators", "statement": "At any time the default user is called User and the default host is called Host, each followed by a number below 65536 that is the clock's nanoseconds modulo 65536; a user is never called like a host.", "quantifier": "every reading of the clock", "why_tests_cant": "the clock cannot be enumerated", "anchors": ["src/components/parsing.rs"]}
{"id": "C165", "title": "The generator of the test parser for texts", "statement": "The logs made by the generator of DummyParserText are taken by it.", "quantifier": "every time and origin", "why_tests_cant": "the theorem shows that no log is", "anchors": ["src/testing/parsers.rs"]}
{"id": "C166", "title": "The documents on the wire", "statement": "The JSON of commands, responses, tasks and their definitions, alerts, notifications, messages and rules is the documented one: every member of a struct under its own name, every variant under its name, with its payload if it has one; a message that carries a dataset is not written.", "quantifier": "every value of these types", "why_tests_cant": "the types are recursive and carry unbounded texts, lists and maps", "anchors": ["src/components/command.rs", "src/components/command_types.rs", "src/components/task.rs", "src/components/alert.rs", "src/components/common.rs", "src/components/rule/mod.rs"]}
{"id": "C167", "title": "Errors of dataset conversions name the kind", "statement": "When a dataset value cannot become a dataset of the wanted type, the error names the kind of the value.", "quantifier": "every kind, type and value", "why_tests_cant": "the theorem shows the error of five conversions for all their inputs", "anchors": ["src/components/dataset/mod.rs: try_from impls"]}
{"id": "C168", "title": "What errors say", "statement": "A refused IPv4 text is reported as not a number below 256 exactly when one of its four rightmost parts is not one, and as having too many dots exactly when these are and there are more parts. A refused IPv6 text is reported by its size, by its single leading colon, or by one of six texts. A refused port, field conversion or metric conversion is reported by its fixed text, naming both kinds for metrics; a refused metric definition by the name or the description that is invalid.", "quantifier": "every text, field and metric", "why_tests_cant": "unboundedly many texts", "anchors": ["src/utilities/ip_utils.rs", "src/events/field.rs", "src/components/metrics/mod.rs"]}
{"id": "C169", "title": "New queries and headers", "statement": "A new query asks, in the storage's own language, for the first 128 rows with all fields and for every time from 1970 on that fits 64 bits and no earlier one; its results are kept for an hour; no user and no earlier query are named. A new header carries the given user and numbers, or zero.", "quantifier": "every query text, time and user", "why_tests_cant": "the times cannot be enumerated", "anchors": ["src/components/command.rs: QueryInfo::new, SiemCommandHeader"]}
{"id": "C170", "title": "Scraped counters and histograms never go backwards", "statement": "While counters are increased by amounts that are not negative and sum to less than 2^63, no later reading is below an earlier one or above the sum, however the threads are scheduled; the same holds for the count and every bucket of a histogram with fewer than 2^64 observations.", "quantifier": "every schedule and every two moments in it", "why_tests_cant": "schedules and moments are unbounded", "anchors": ["src/components/metrics/counter.rs", "src/components/metrics/histogram.rs"]}
{"id": "C171", "title": "No increment makes a counter go backwards", "statement": "A counter that is not reset never reads less than before.", "quantifier": "every schedule of increments", "why_tests_cant": "the theorems show two: an increment by a negative number, and one past the largest number", "anchors": ["src/components/metrics/counter.rs: inc_by"]}
{"id": "C172", "title": "The series of a histogram vec are independent", "statement": "However threads observing through the handles of different series are scheduled, each series holds what a histogram of its own would hold after just the observations made through its handle, and keeps its labels.", "quantifier": "every schedule, set of series and assignment of observations to them", "why_tests_cant": "schedules are unbounded", "anchors": ["src/components/metrics/histogram.rs: HistogramVec"]}
{"id": "C173", "title": "Dates are shown as RFC 3339 times", "statement": "A date whose time the calendar library represents is shown as its Gregorian date and time of day in UTC, with milliseconds and a Z; no other text is the time's, and no two times share one. Hence two such dates are equal exactly when they are the same time, and a text equals a date exactly when it is its time. The text has 24 characters exactly for the years 0 to 9999.", "quantifier": "every time in milliseconds and every text", "why_tests_cant": "the times cannot be enumerated; leap years, months and negative times are easily got wrong", "anchors": ["src/events/field.rs: Display, PartialEq for SiemField"]}
{"id": "C174", "title": "Different dates are different", "statement": "Two dates are equal only if they are the same time.", "quantifier": "every two dates", "why_tests_cant": "the theorem shows all the dates that are not: those the calendar library does not represent", "anchors": ["src/events/field.rs: Display, PartialEq for SiemField"]}
{"id": "C175", "title": "What is read fits its type", "statement": "Whatever JSON is received: a field, log, event, rule, task definition or message that is read from it has every number within the range of its type, maps without repeated keys, and finite floats in plain JSON values.", "quantifier": "every JSON document", "why_tests_cant": "documents are unbounded trees", "anchors": ["src/events/field.rs", "src/events/mod.rs", "src/events/log.rs", "src/components/command.rs", "src/components/common.rs", "src/components/rule/mod.rs", "src/components/task.rs"]}
{"id": "C176", "title": "What was received can be passed on", "statement": "A message read from JSON (a command without an address, a notification, task or task result, a response whose rows hold no address and no float that is not a number) can be written, and reading that gives the same message; so does a rule that compares with no address, network or float that is not a number.", "quantifier": "every JSON document that is read as such a message or rule", "why_tests_cant": "documents are unbounded trees; the one read may differ in order, unknown members and defaults from the one written", "anchors": ["src/components/common.rs", "src/components/command.rs", "src/components/rule/mod.rs", "src/components/task.rs"]}
{"id": "C177", "title": "User identifiers tell the user", "statement": "The identifier made from a user's name and domain is the domain, a bar and the name; two of them are the same only for the same name and domain, if the domains have no bar.", "quantifier": "every two names and domains", "why_tests_cant": "texts are unbounded", "anchors": ["src/events/field.rs: generate_user_id"]}
{"id": "C178", "title": "User identifiers are unambiguous", "statement": "Identifiers made from different users are different.", "quantifier": "every two names and domains", "why_tests_cant": "the theorem shows all the pairs that are not: those that move a bar between the domain and the name", "anchors": ["src/events/field.rs: generate_user_id"]}
{"id": "C179", "title": "Sigma rules survive JSON", "statement": "A Sigma rule is written with every text, list and condition it has under its own name, and absent ones left out; reading gives the same rule exactly if no search identifier is called condition and no value is a float that is not finite. A detection with one condition text and identifiers that are maps, or lists of maps, of fields to texts, numbers, nulls and lists of these is read and means what it says, the last of two members of one name counting; whatever rule is read can be written and read again.", "quantifier": "every Sigma rule, every JSON document and every identifier, map and list in it", "why_tests_cant": "documents are unbounded trees and the identifiers are flattened beside the condition under any names", "anchors": ["src/components/rule/sigma.rs: SigmaRule, SigmaRuleDetection, SigmaRuleCondition, SigmaValue"]}
{"id": "C180", "title": "Every written Sigma rule is read", "statement": "A Sigma rule that is written to JSON can be read again.", "quantifier": "every Sigma rule", "why_tests_cant": "the theorem shows that no rule with a search identifier called condition is", "anchors": ["src/components/rule/sigma.rs: SigmaRuleDetection"]}
{"id": "C181", "title": "Sigma documents are read", "statement": "A detection of the Sigma language, with identifiers that are maps, lists of maps or lists of keywords and values that are texts, numbers, truth values or nulls, and a time frame, is read.", "quantifier": "every detection of the language", "why_tests_cant": "the theorems show all those that are refused: lists with a keyword, maps with a truth value, members with a text", "anchors": ["src/components/rule/sigma.rs: SigmaRuleCondition, SigmaValue, SigmaRuleDetection"]}
{"id": "C182", "title": "Alert dictionaries survive JSON", "statement": "An alert dictionary is written as one object for each language with its texts; reading that gives the same dictionary, and a dictionary that was read can be written and read again.", "quantifier": "every dictionary and every JSON document", "why_tests_cant": "dictionaries have any number of languages and texts", "anchors": ["src/components/rule/mod.rs: AlertDictionary"]}
{"id": "C183", "title": "Expositions say what they are", "statement": "An exposition of a counter or a gauge has exactly these comments: what the metric is for, if help was asked for, and its type; so has one of a histogram with series, and one without series says nothing.", "quantifier": "every name and one-line description that is accepted, every set of series and every state of them", "why_tests_cant": "names, descriptions and labels are unbounded texts that must not be taken for comments", "anchors": ["src/components/metrics/counter.rs", "src/components/metrics/gauge.rs", "src/components/metrics/histogram.rs: Encoder"]}
{"id": "C184", "title": "Declared types are types of the format", "statement": "The type an exposition declares for a metric is one of the types of the Prometheus text format.", "quantifier": "every metric with series", "why_tests_cant": "the theorem shows that no histogram's is", "anchors": ["src/components/metrics/histogram.rs: Encoder for HistogramVec"]}
{"id": "C185", "title": "Stored GeoIP records are found as they were stored", "statement": "A record stored in the on-disk GeoIP dataset is written as JSON with its seven members; if its coordinates are numbers, every lookup answers what a dataset that keeps the records themselves answers, so with IPv4 networks what the in-memory dataset answers. Whatever is read has an autonomous system number of 32 bits and all members, and its coordinates are the nearest numbers of 32 bits.", "quantifier": "every sequence of insertions of records with numbers as coordinates, every address, and every JSON document", "why_tests_cant": "histories, networks and texts are unbounded, and the records go through their text form", "anchors": ["src/components/dataset/geo_ip/mod.rs: GeoIpInfo, From<IVec>, Into<IVec>", "src/components/dataset/geo_ip/slow.rs: insert, get"]}
{"id": "C186", "title": "Lookups of GeoIP records do not abort", "statement": "No lookup in the on-disk GeoIP dataset aborts, whatever records were stored.", "quantifier": "every sequence of insertions and every address", "why_tests_cant": "the theorem gives all records that break it", "anchors": ["src/components/dataset/geo_ip/mod.rs: From<IVec> for GeoIpInfo"]}
{"id": "C187", "title": "What is written is within the reader's nesting limit", "statement": "A JSON text is read as its tree is if at most 127 arrays and objects are inside each other, and refused otherwise. Commands, responses, tasks, definitions, alerts, notifications, logs, structured events, errors, dictionaries, GeoIP records and messages nest at most eight deep whatever they hold, so they are never refused for it; nor is a rule whose operators are at most 59 inside each other, nor an event carrying a JSON object that is itself within the limit.", "quantifier": "every value of these types and every JSON tree", "why_tests_cant": "values hold lists, maps and operators of any size and nesting", "anchors": ["src/components/common.rs: SiemMessage", "src/components/command.rs", "src/components/task.rs", "src/components/alert.rs", "src/components/rule/mod.rs: RuleOperator", "src/events/event.rs: SiemEvent"]}
{"id": "C188", "title": "Rules are read however deeply their operators nest", "statement": "A rule, or Sigma rule, that can be written as JSON text can be read from it, whatever the nesting of its operators and values.", "quantifier": "every rule and Sigma rule", "why_tests_cant": "the theorems give exactly the rules that are refused: operators that take more than 122 levels, lists of values more than 124 (in a list of alternatives 123) inside each other", "anchors": ["src/components/rule/mod.rs: RuleOperator", "src/components/rule/sigma.rs: SigmaValue"]}
{"id": "C189", "title": "Converted Sigma rules ask what the Sigma rule asks", "statement": "A Sigma rule whose identifiers are maps from fields, with modifiers, to nulls or to values without wildcards (and whose tags are text) is converted; and the conditions of the rule hold of a log exactly if every entry of every identifier does: a null asks that the log has no such field, a value that the text of the field is it, contains it, starts or ends with it, for a list some (with all: each) of its values.", "quantifier": "every such Sigma rule and every log", "why_tests_cant": "rules have any number of identifiers, entries and values, and logs any fields", "anchors": ["src/components/rule/sigma.rs: From<SigmaRule> for SiemRule, From<SigmaRuleCondition> for SiemSubRule, parse_rule_condition", "src/components/rule/mod.rs: SiemRule, SiemSubRule, RuleCondition"]}
{"id": "C190", "title": "A Sigma rule detects the logs it describes", "statement": "Evaluating a converted Sigma rule on a log answers yes exactly if the log has what the Sigma rule asks for.", "quantifier": "every Sigma rule and every log", "why_tests_cant": "the theorems show that a rule with one test on a value, anywhere, answers yes on no log, and that rules of nulls answer rightly", "anchors": ["src/components/rule/sigma.rs: From<SigmaRule> for SiemRule", "src/components/rule/mod.rs: SiemRule::matches"]}
{"id": "C191", "title": "Addresses are printed in their recommended form", "statement": "An IPv6 address is printed as RFC 5952 asks: groups in lower-case hexadecimal without leading zeros, the first of the longest runs of two or more zero groups shortened to '::', a single zero group not; addresses that stand for IPv4 ones as ::ffff: and the dotted decimal. An IPv4 address is printed as four decimal numbers without leading zeros. Every address has one text of this form only.", "quantifier": "every 128-bit and every 32-bit address", "why_tests_cant": "there are 2^128 addresses", "anchors": ["src/utilities/ip_utils.rs: ipv4_to_str, ipv6_to_str"]}
{"id": "C192", "title": "Documents are written as JSON texts", "statement": "A text is at most one JSON document (RFC 8259). What is written of a JSON tree, on one line or on several, is a text that stands for that tree and no other, whatever characters its texts and keys hold, if its floats are printed as numbers that stand for them; on one line it has no control characters, so no line break. No message, definition, event, rule, error, dictionary or GeoIP record is written with a float that is not a finite number. So commands without addresses, tasks and headers, messages that carry these or notifications or responses without rows, logins, dictionaries, and Sigma rules whose values are nested at most 123 deep read back from their text as they were; rules with at most 59 operators inside each other as ones that decide every log as before.", "quantifier": "every JSON tree, every text, every value of these types", "why_tests_cant": "texts and trees are unbounded", "anchors": ["src/components/dataset/geo_ip/mod.rs: Into<IVec>", "src/components/simplified.rs: process_log_for_component", "src/components/command.rs", "src/components/rule/mod.rs"]}
{"id": "C193", "title": "What typed reads answer when fields are also edited in place", "statement": "After any history of insertions, setters, tags, typed reads, in-place edits (field_mut, iter_mut) and schema applications on a log: nothing aborts, and a typed read of a field answers for exactly one value: the value that was last written, if it is of the kind of the read already; otherwise what the first such read after the last write answered; otherwise, with no such read since, the current value. Reading changes no value. The fields reported by ip_fields are, of the names that ever received an address, in order, those before the first one that is gone, with their current values.", "quantifier": "every history of calls on a log, every name and every kind of read", "why_tests_cant": "histories are unbounded and the answer depends on the order of reads, writes and edits", "anchors": ["src/events/log.rs: SiemLog::field_mut, iter_mut, i64_field, u64_field, f64_field, ip_field, txt_field, array_field, ip_fields", "src/events/ifield.rs: PreStoredField, InternalField", "src/events/schema.rs: FieldSchema::apply"]}
{"id": "C194", "title": "Stopping some components of a pipeline loses no logs", "statement": "Components of a pipeline may be sent stop commands, and their ticks may fail, at any moment: as long as each stage keeps a component that has not returned, and somebody goes on listening at the end, no component ever finds nobody to send a log to; and when no component can go on, with room in the last channel, everything that was put in and let through by the stages has been delivered, each log once, no channel before the last holds a log, and every component that is left waits for more.", "quantifier": "every pipeline with any number of stages, components per stage and channel capacities above zero, every interleaving, every time of the stop commands", "why_tests_cant": "which component takes which log, and at what moment the others are stopped, depends on the schedule", "anchors": ["src/components/simplified.rs: SimpleComponent::run, process_message, process_log_for_component, set_log_channel"]}
{"id": "C195", "title": "What a synchronised dataset keeps when its channel overflows", "statement": "Whatever the capacity of the channel and however many calls are made between publications: after a last publication the snapshot is what the calls that were heard, made directly on the dataset, would have left. A call is heard iff fewer calls than the capacity have been heard since the last publication. So all calls are heard exactly if the channel never overflows, and if the receiver is gone none is. A reader of a published set finds an address iff the last call about it that was heard inserted it, and a reader of a map the value that call inserted.", "quantifier": "every history of calls and publications, every channel capacity", "why_tests_cant": "all interleavings of writers and publications", "anchors": ["src/components/dataset/ip_set.rs: IpSetSynDataset", "src/components/dataset/ip_map.rs: IpMapSynDataset", "src/components/dataset/text_map.rs: TextMapSynDataset", "src/components/dataset/ip_net.rs: IpNetSynDataset"]}
{"id": "C196", "title": "Rules that were accepted are published", "statement": "Writers insert rules with insert, try_insert and insert_timeout while the owner of the dataset receives and publishes. At any moment the rules whose insertion succeeded are, in the order of the insertions, those published, then those the owner holds, then those in the channel: none is lost, none is there twice, and no more wait than the channel has slots. The owner can always go on until all are published, without aborting; then a reader finds under a name the last rule of that name whose insertion succeeded. A rule that is refused comes back as it was; try_insert refuses and insert waits exactly when the channel is full; insert_timeout is nothing but repeated calls of try_insert, the last of which gives its answer.", "quantifier": "every interleaving of writers and owner, every capacity, every set of rules, while the receiver exists", "why_tests_cant": "which insertion finds the channel full depends on the schedule", "anchors": ["src/components/dataset/rules.rs: CorrelationRulesDataset::insert, try_insert, insert_timeout, apply_updates, get"]}
