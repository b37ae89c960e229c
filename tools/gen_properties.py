#!/usr/bin/env python3
"""Regenerates properties.jsonl (one JSON object per line)."""
import json, os
P = []
def p(title, statement, quantifier, why, anchors):
    P.append(dict(id="C%02d" % (len(P) + 1), title=title, statement=statement,
                  quantifier=quantifier, why_tests_cant=why, anchors=anchors))

# ---------------------------------------------------------------- IP / MAC text
p("IPv4 text round trip",
  "Printing any IPv4 address held as a u32 and parsing the printed text gives back the same u32; two different addresses never print the same text.",
  "every 32-bit value",
  "2^32 values; a test samples a handful of addresses",
  ["src/utilities/ip_utils.rs: ipv4_from_str, ipv4_to_str"])
p("IPv4 parser accepts exactly dotted quads and computes their value",
  "ipv4_from_str accepts a text only if it consists of four decimal octets (0..255) separated by dots, and then returns o1*2^24+o2*2^16+o3*2^8+o4.",
  "every string",
  "the input space is all strings; negative inputs cannot be enumerated",
  ["src/utilities/ip_utils.rs: ipv4_from_str, is_ipv4"])
p("IPv6 parser is total",
  "ipv6_from_str never panics (no out-of-bounds index, no arithmetic overflow, no endless loop) and any value it returns fits in 128 bits.",
  "every byte string of every length",
  "a panic or hang on a hostile log text hides in inputs nobody sampled",
  ["src/utilities/ip_utils.rs: ipv6_from_str, read_hextet, hex_to_digit, ipv4_to_u32_bytes"])
p("IPv6 parser computes the address every textual form denotes",
  "Every valid IPv6 text (eight groups of one to four hex digits, or at most seven groups around one '::') is accepted and yields the 128-bit value that RFC 4291 assigns to it; anything else is rejected.",
  "every string",
  "infinitely many texts, group widths and '::' positions",
  ["src/utilities/ip_utils.rs: ipv6_from_str, read_hextet"])
p("Private address classification is exact",
  "is_local answers true exactly for 10/8, 172.16/12, 192.168/16, 100.64/10 (IPv4) and fc00::/7 (IPv6).",
  "every 32-bit and every 128-bit value",
  "2^32 + 2^128 values; boundaries are where mistakes hide",
  ["src/utilities/ip_utils.rs: is_local_ipv4, is_local_ipv6", "src/events/ip.rs: SiemIp::is_local"])
p("IPv4:port text",
  "Text made of a printed IPv4 address, ':' and a printed port is parsed to exactly that pair, is_ipv4_port agrees with parse_ipv4_port on every text, and text without ':' is never accepted.",
  "every address, port and string",
  "unbounded strings",
  ["src/utilities/ip_utils.rs: parse_ipv4_port, is_ipv4_port, port_to_u16"])
p("MAC text round trip (48 and 64 bit)",
  "Printing a 48-bit (64-bit) MAC and parsing the text gives back the same value.",
  "every 48-bit and 64-bit value",
  "2^48 and 2^64 values",
  ["src/utilities/mac.rs: mac_str_to_u48, mac_str_to_u64, mac_u48_to_str, mac_u64_to_str"])
p("MAC text round trip for any width",
  "Parsing a 6, 8 or 16 octet MAC text with the any-width parser and printing the value gives back the same text.",
  "every list of 6, 8 or 16 octets",
  "2^128 values",
  ["src/utilities/mac.rs: mac_str_to_u128, mac_str_to_u128_any, mac_u128_to_str"])
# ---------------------------------------------------------------- rule selector
p("Rule selector returns the best matching rule",
  "After any sequence of add calls, search(text) returns a rule whose number of query-word hits is maximal, the lexicographically first such rule on ties, and None exactly when no query word was indexed.",
  "every sequence of add calls and every query text",
  "the index is history dependent and unbounded",
  ["src/utilities/rule_selector.rs: RuleSelector::add, RuleSelector::search"])
# ---------------------------------------------------------------- fields
p("Field equality is an equivalence relation",
  "Equality of field values is reflexive (for non-NaN content), symmetric and transitive, and values holding different content are different.",
  "every pair and triple of field values, including nested arrays",
  "12 variants, unbounded payloads, triples",
  ["src/events/field.rs: PartialEq for SiemField"])
p("Equal fields hash equally",
  "Two field values that compare equal feed the same data to the hasher, so they can be used as hash-map keys.",
  "every pair of field values",
  "needs all pairs, including pairs of different variants",
  ["src/events/field.rs: Hash for SiemField, PartialEq for SiemField"])
p("Substring predicate on fields",
  "contains_str(s) is true of a textual field exactly when its text contains s.",
  "every field value and every string",
  "unbounded strings; wrong variants are only visible on negative inputs",
  ["src/events/field.rs: SiemField::contains_str"])
p("Numeric and text conversions of fields",
  "Converting a field to u64/i64/f64/text either fails or returns the number or text the field denotes: integers survive a print/parse round trip and no conversion turns one number into a different one.",
  "every field value and target type",
  "64-bit ranges and arbitrary strings",
  ["src/events/field.rs: TryInto<u64>/<i64>/<&str>/<LogString> for &SiemField, Display for SiemField"])
# ---------------------------------------------------------------- logs
p("A log is a map from field names to values",
  "After any sequence of insertions a field reads as the last value inserted under that name, and inserting one field leaves every other field unchanged.",
  "every log, every sequence of insert/add_field calls, every name",
  "history dependent, unbounded",
  ["src/events/log.rs: SiemLog::insert, add_field, field, has_field"])
p("Typed reads are transparent",
  "A typed read of a field returns the conversion of the value the field currently holds, no matter which typed reads happened before (the cast caches are invisible), and a typed read never changes any field.",
  "every interleaving of insertions, in-place edits and typed reads",
  "cache coherence is a property of all histories",
  ["src/events/log.rs: u64_field, i64_field, f64_field, txt_field, ip_field, array_field, field_mut", "src/events/ifield.rs"])
p("ip_fields reports exactly the fields holding an IP",
  "At any moment ip_fields() yields exactly the fields whose current value is an IP address.",
  "every sequence of log operations",
  "the index is maintained incrementally, so only some histories break it",
  ["src/events/log.rs: SiemLog::insert, ip_fields, EventFieldIter", "src/events/schema.rs: FieldSchema::apply"])
p("Tags",
  "After add_tag(t), has_tag(t) is true, all previously present tags remain, no other tag appears, and the 'tags' field lists exactly the tags of the log.",
  "every tag string and every history of add_tag calls",
  "unbounded strings (letter case) and histories",
  ["src/events/log.rs: add_tag, has_tag, tags"])
p("Header setters are read back by their getters",
  "Each setter of the log header (message, origin, tenant, product, service, category, vendor, event created/received) makes its own getter return the value set and changes no other getter.",
  "every log and every value",
  "needs every pair (setter, getter) on every log state",
  ["src/events/log.rs: SiemLog setters and getters"])
p("Schema application keeps exactly the declared fields",
  "Applying a schema to a log removes every field the schema does not declare, keeps the others with their values, and applying it twice is the same as once.",
  "every schema and every log",
  "all subsets of fields",
  ["src/events/schema.rs: FieldSchema::apply"])
p("The default schema keeps the standard header",
  "Applying the default schema (FieldSchema::new) to a freshly created log keeps the message, the origin and both timestamps readable.",
  "every message, origin and receive time",
  "the field names on both sides are maintained separately",
  ["src/events/schema.rs: FieldSchema::new, apply", "src/events/log.rs: SiemLog::new"])
p("Schema merging",
  "Merging schemas yields the union of their declared fields; the merged-in schema wins on conflicts except that text options are united; the GDPR marks of the receiving schema stay in force.",
  "every pair of schemas and every field name",
  "all pairs of maps",
  ["src/events/schema.rs: FieldSchema::add_schema, insert, set_gdpr, get_field, field_names, remove_fields"])
p("Structured events keep their data when turned into a log",
  "Converting a structured event (firewall, DNS, web proxy, web server, DHCP, intrusion, auth) to a log yields one field per component of the event with exactly the component's value.",
  "every event value",
  "every combination of component values and optional parts",
  ["src/events/event.rs, dns.rs, dhcp.rs, webserver.rs, webproxy.rs, firewall.rs, auth.rs, intrusion.rs"])
# ---------------------------------------------------------------- metrics
p("Counters lose no increments",
  "After any interleaving of increments from any number of threads a counter reads the sum of all increments (modulo 2^64), and reset returns it to zero.",
  "every schedule of every set of increments",
  "schedules cannot be enumerated",
  ["src/components/metrics/counter.rs"])
p("Histogram buckets are cumulative and exact",
  "After any sequence of observations the count is their number, and the bucket with bound le counts exactly the observations <= le; bucket values never decrease as le grows; the sum reads the sum of the observed numbers up to 1.25 units each plus half a unit, a unit being 0.00001. A new histogram has the ten default buckets from 0.001 to 10, all empty.",
  "every bucket configuration and observation sequence",
  "unbounded histories",
  ["src/components/metrics/histogram.rs: observe"])
p("Histogram get_count reads the requested bucket",
  "get_count(le) returns the number of observations recorded for the bucket bounded by le.",
  "every bucket configuration, history and bound",
  "wrong bucket selection is only visible with more than one populated bucket",
  ["src/components/metrics/histogram.rs: get_count"])
p("Label combinations enumerate the Cartesian product",
  "label_combinations returns every choice of one value per label exactly once and nothing else.",
  "every list of labels with any number of values each",
  "the number of label shapes is unbounded and only mixed sizes fail",
  ["src/components/metrics/mod.rs: label_combinations"])
p("Prometheus exposition can be read back",
  "Every text a counter, gauge or histogram vector encodes follows the Prometheus text format, and a reader of that format recovers exactly the metric name, the labels with a value and the number of each series.",
  "every list of series with any labels, including empty values and values with special characters",
  "all combinations of empty and non-empty labels and all label texts",
  ["src/components/metrics/counter.rs, gauge.rs, histogram.rs: Encoder::encode"])
p("Metric selection by labels",
  "with_labels returns the series registered with exactly those labels and never another one, and None otherwise.",
  "every registered set and every query",
  "unbounded label sets",
  ["src/components/metrics/counter.rs, gauge.rs, histogram.rs: with_labels"])
p("Metric names",
  "A name is accepted exactly when it has at least three characters, starts and ends with a lower-case letter and otherwise uses lower-case letters, digits and underscores; the predefined names are accepted.",
  "every string",
  "unbounded strings",
  ["src/components/metrics/mod.rs: valid_name"])
# ---------------------------------------------------------------- datasets
p("IP sets and IP maps behave like mathematical maps",
  "After any sequence of inserts and removes a lookup returns the last inserted, not later removed value for that address; IPv4 and IPv6 entries never interfere.",
  "every operation sequence, every address",
  "history dependent",
  ["src/components/dataset/ip_set.rs, ip_map.rs, ip_map_list.rs"])
p("Text maps and sets behave like mathematical maps",
  "After any sequence of inserts and removes a lookup returns the last inserted, not later removed value for that key.",
  "every operation sequence, every key",
  "history dependent",
  ["src/components/dataset/text_map.rs, text_map_list.rs, text_set.rs"])
p("Dataset updates are applied in order, atomically and completely",
  "Applying a batch of updates produces the dataset obtained by applying them one by one in order (a Replace discards everything before it), the snapshot readers hold is never modified, and the batch can be split anywhere.",
  "every dataset, every batch",
  "unbounded batches",
  ["src/components/dataset/*: apply_updates, update"])
p("Network lookup is sound",
  "A network lookup only returns a value that was inserted, and not removed, for a network containing the address.",
  "every insertion/removal history, every address of both families",
  "2^128 addresses times unbounded histories",
  ["src/components/dataset/ip_net.rs: IpNetDataset::get, insert, remove", "src/components/dataset/geo_ip/fast.rs"])
p("Network lookup is complete and prefers the most specific network",
  "If some stored network contains the address the lookup finds one, and it returns the value of the longest matching prefix.",
  "every insertion history, every address of both families",
  "depends on bit patterns (trailing zeros) of the address",
  ["src/components/dataset/ip_net.rs: IpNetDataset::get", "src/components/dataset/geo_ip/fast.rs"])
p("Synchronised dataset writes are delivered or reported",
  "A writer that is told nothing went wrong can rely on its update reaching the dataset owner.",
  "every channel capacity and every sequence of writes and drains",
  "depends on queue occupancy and receiver lifetime",
  ["src/components/dataset/ip_set.rs: IpSetSynDataset and siblings", "src/components/dataset/rules.rs: try_insert, insert_timeout"])
p("Calendar lookups",
  "After inserting an event [start,end] the calendar reports it for every instant in that interval and for no instant outside it, in insertion order.",
  "every set of events and every instant",
  "64-bit time range and multi-day splits",
  ["src/components/dataset/calendar.rs: insert, get"])
p("I18n lookup and fallback",
  "A text inserted for (key, language) is returned for that pair; get_or_default prefers the requested language, then English, then the first available one, and is None only if the key is unknown.",
  "every dictionary history, key and language",
  "unbounded dictionaries",
  ["src/components/dataset/i18n.rs"])
p("Dataset holder",
  "The holder has at most one dataset per dataset type, the last one registered; a subset contains exactly the requested and available ones.",
  "every list of datasets and requested types",
  "unbounded lists",
  ["src/components/dataset/holder.rs"])
p("Dataset type conversions",
  "Building a dataset from a (type, value) pair succeeds exactly when the value's kind matches the type, and the built dataset reports that type back.",
  "every dataset type and kind of dataset value",
  "all pairs",
  ["src/components/dataset/mod.rs: TryFrom<(SiemDatasetType, ..)>, dataset_type"])
# ---------------------------------------------------------------- components
p("A component forwards exactly its unfiltered logs, in order",
  "Under every schedule a running component that was given its log channels processes the logs it receives in arrival order, forwards exactly those its handler keeps, in that order, and an error in one log or message does not stop the following ones.",
  "every interleaving of log arrivals, messages, timeouts",
  "schedules cannot be enumerated",
  ["src/components/simplified.rs: SimpleComponent::run"])
p("A stop command stops the component",
  "Once the component takes a STOP_COMPONENT command from its channel it returns Ok without processing anything else; without such a command, a disconnect, a tick failure or an output failure it does not terminate. Once all senders of its logs are gone it takes the logs that wait and returns, and once nobody reads its output it forwards nothing more.",
  "every schedule",
  "schedules cannot be enumerated",
  ["src/components/simplified.rs: SimpleComponent::run"])
p("Periodic ticks",
  "The component ticks once at start and then only when the configured deadline passes; a failing tick ends the run with that error.",
  "every schedule of arrivals and timeouts",
  "time dependent",
  ["src/components/simplified.rs: SimpleComponent::run"])
p("Log level filtering of kernel notifications",
  "A notification is delivered exactly when its level is at most the messager's configured level (and the channel has room); order is preserved; changing the level affects only later notifications.",
  "every sequence of level changes and notifications",
  "histories",
  ["src/components/kernel_message.rs", "src/components/common.rs: NotificationLevel"])
p("State storage behaves like a key/value store",
  "get_value returns the last value effectively set; setting without replace keeps an existing value; all clones observe the same state.",
  "every operation sequence through any clone",
  "histories",
  ["src/components/storage.rs: TestingStorage"])
p("State storage file ranges",
  "Writing a byte range of a file changes exactly that range, and reading a range returns exactly those bytes for every range within the file.",
  "every file content and range",
  "all ranges",
  ["src/components/storage.rs: TestingStorage::get_file_range, set_file_range"])
# ---------------------------------------------------------------- rules
p("Rule matching",
  "A rule matches a log exactly when all its conditions hold: existence conditions test the presence of the field, null conditions its absence; evaluation never aborts.",
  "every rule and every log",
  "all rules times all logs",
  ["src/components/rule/mod.rs: SiemRule::matches, RuleCondition::matches"])
p("Sigma modifiers are translated faithfully",
  "A Sigma field|modifier condition is translated to the operator of the same meaning; wildcard texts translate to prefix/suffix/substring tests with exactly the text between the wildcards.",
  "every Sigma field expression and value",
  "unbounded strings",
  ["src/components/rule/sigma.rs: parse_rule_condition, translate_operator, translate_content_to_operator"])
p("Sigma alert templates lose no text",
  "Splitting an alert description into text and field references preserves it: concatenating the parts gives the original description, every part is non-empty progress, and splitting terminates.",
  "every description",
  "unbounded strings",
  ["src/components/rule/sigma.rs: SigmaDescriptionLexer, transform_alert_content"])
p("Sigma severity levels",
  "Sigma levels map to the alert severity of the same name and unknown levels to LOW.",
  "every string",
  "unbounded strings",
  ["src/components/rule/sigma.rs: level_to_severity"])
# ---------------------------------------------------------------- query lexer
p("The query lexer is total and makes progress",
  "For every query text the lexer never panics, every call that returns a token other than EOF or ILLEGAL consumes at least one character, and repeatedly calling it reaches EOF or ILLEGAL.",
  "every character sequence",
  "unbounded inputs; hangs are not observable by a finite test",
  ["src/components/query/mod.rs: QueryLexer::next_token"])
p("The query lexer tokenises numbers and words maximally",
  "A run of digits is returned as one INT token with exactly that text, a run of identifier characters as one keyword/function/FIELD token with exactly that text.",
  "every run and every following character",
  "unbounded inputs",
  ["src/components/query/mod.rs: QueryLexer::next_token, get_keyword_token"])
p("Wildcards in query strings",
  "A double-quoted string with only a trailing wildcard means starts-with, only a leading wildcard means ends-with, both mean contains; escaped asterisks are literal.",
  "every quoted string",
  "unbounded inputs",
  ["src/components/query/mod.rs: QueryLexer::next_token, count_asterix"])
p("Quoted literals round trip",
  "Escaping a text and lexing it between single quotes gives back exactly that text and leaves the lexer right after the closing quote.",
  "every text",
  "unbounded inputs",
  ["src/components/query/mod.rs: read_literal_string"])
# ---------------------------------------------------------------- tables
p("Network protocol identifiers",
  "Parsing an IANA protocol number yields the protocol assigned to it, unassigned or out of range numbers yield UNKNOWN.",
  "every integer",
  "all integers",
  ["src/events/protocol.rs: parse_protocol_id"])
p("HTTP methods",
  "Parsing the text of a standard HTTP method in any letter case yields that method; other texts are kept as unknown.",
  "every string",
  "unbounded strings",
  ["src/events/common.rs: HttpMethod::from_str_slice"])
p("MITRE identifiers",
  "Every MITRE tactic/technique identifier parses to its own variant; nothing else parses.",
  "every variant and every string",
  "hundreds of hand-written table rows, all strings",
  ["src/components/mitre.rs: TryFrom<&str> for MitreTactics / MitreTechniques"])
p("Commands map to their function type",
  "Each command call reports the function type of the same name; two calls report the same type only if they are the same kind of command (and, for custom commands, have the same name).",
  "every pair of command calls",
  "all pairs",
  ["src/components/command.rs: SiemCommandCall::get_type"])
p("GeoIP on-disk keys are collision free",
  "Two different networks never share a storage key in the on-disk GeoIP dataset.",
  "every pair of networks",
  "2^136 keys",
  ["src/components/dataset/geo_ip/slow.rs: get_key (feature slow_geoip)"])

exec(open(os.path.join(os.path.dirname(__file__), "more_properties.py")).read()) if os.path.exists(os.path.join(os.path.dirname(__file__), "more_properties.py")) else None
import sys
sys.path.insert(0, os.path.dirname(os.path.abspath(__file__)))
import split
by = {o["id"]: o for o in P}
for i, (t, s) in split.OV.items():
    by[i]["title"], by[i]["statement"] = t, s
for i, old, t, s in split.NEW:
    assert i == "C%02d" % (len(P) + 1)
    p(t, s, by[old]["quantifier"], by[old]["why_tests_cant"], by[old]["anchors"])
_later = os.path.join(os.path.dirname(__file__), "later_properties.py")
if os.path.exists(_later): exec(open(_later).read())
out = os.path.join(os.path.dirname(__file__), "..", "properties.jsonl")
with open(out, "w") as f:
    for o in P:
        f.write(json.dumps(o, ensure_ascii=False) + "\n")
print(len(P))
