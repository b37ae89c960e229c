p("MAC parsers are total and width-exact",
  "The MAC parsers never abort on any text, accept only texts of their width made of two-digit octets, and what they return fits that width.",
  "every text given to the 48, 64, any-width MAC parsers",
  "The inputs are unbounded texts; the failures (overflow aborts, oversized parts) appear only on unusual ones.",
  ["src/utilities/mac.rs: mac_str_to_u48, mac_str_to_u64, mac_str_to_u128"])
p("IPv6 text round trip",
  "Printing any IPv6 address held as a u128 and parsing the printed text gives back the same u128; two different addresses never print the same text.",
  "every 128-bit value",
  "2^128 values, several textual forms (compressed, full, IPv4-mapped)",
  ["src/utilities/ip_utils.rs: ipv6_to_str, ipv6_from_str"])
p("SiemIp text and comparison",
  "Displaying a SiemIp and reading it with from_ip_str gives the same address of the same family; equals(text) is true exactly when the text denotes the address; different addresses display differently; parsing never aborts.",
  "every SiemIp value and every text",
  "The value space is 2^32 + 2^128 and the text space infinite",
  ["src/events/ip.rs: SiemIp::from_ip_str, SiemIp::equals, Display, From<[u32; 4]>, From<[u32; 16]>"])
p("The default schema covers the structured events",
  "Applying the default schema (get_default_schema) to the log of any structured event removes none of the fields the event contributed.",
  "every event of the seven structured kinds",
  "needs all combinations of event kinds and optional components against the whole schema",
  ["src/events/base_schema.rs: get_default_schema", "src/events/schema.rs: FieldSchema::apply", "src/events/{firewall,dns,dhcp,webproxy,webserver,intrusion,auth}.rs: From<..> for SiemLog"])
p("Gauges lose no updates and keep their values",
  "After any interleaving of inc/dec calls a gauge holds the sum of the amounts; setting a gauge to a value with at most five decimals and reading it gives that value back.",
  "every schedule of updates; every value with at most five decimals",
  "schedules cannot be enumerated and the loss of decimals depends on binary rounding",
  ["src/components/metrics/gauge.rs: inc_by, dec_by, set, get, normalize_f64, normalize_i64"])
p("Accepted metric definitions encode cleanly",
  "A metric whose definition was accepted (valid name and description) always produces an exposition a Prometheus reader accepts.",
  "every accepted definition",
  "unbounded descriptions",
  ["src/components/metrics/mod.rs: SiemMetricDefinition::new, valid_description", "src/components/metrics/counter.rs: Encoder for CounterVec"])
p("Scrapes racing with observations are consistent",
  "A histogram encoded while other threads observe never shows a bucket larger than its count.",
  "every schedule of observing threads and of the encoder",
  "depends on the interleaving",
  ["src/components/metrics/histogram.rs: observe, Encoder for Histogram"])
p("The on-disk GeoIP dataset answers soundly",
  "A lookup in the on-disk GeoIP dataset only returns a record inserted for a network that contains the address, and answers like the in-memory dataset.",
  "every sequence of insertions and every address of both families",
  "2^32 + 2^128 addresses times every set of networks; the fault needs two networks or addresses that share a key",
  ["src/components/dataset/geo_ip/slow.rs: insert, get, get_key", "src/components/dataset/geo_ip/fast.rs: get"])
p("Language codes",
  "A two letter language code in any letter case denotes the language of that code, and every other text denotes the unknown language.",
  "every text",
  "unbounded texts; 183 codes times four letter cases",
  ["src/components/dataset/i18n.rs: From<String> for Language, Language"])
p("A stop command takes effect however the logs flow",
  "A STOP_COMPONENT command sent to a running component makes it return, whatever happens to the logs it forwards.",
  "every schedule of the component, its senders and the reader of its output",
  "Depends on the state of two bounded channels and on who acts next",
  ["src/components/simplified.rs: SimpleComponent::run, process_message, process_log_for_component"])
p("Due ticks are performed",
  "A tick whose time has come is performed even if messages and logs keep arriving.",
  "every schedule of arrivals and every tick period",
  "The failure needs sustained traffic",
  ["src/components/simplified.rs: SimpleComponent::run, deadline_of_tick"])
p("A component processes each log once",
  "A log given to a running component is handed to its handler once; logs it forwards do not come back to it, and it never blocks on itself.",
  "every wiring of the log channels and every schedule",
  "The failure is an endless loop or a deadlock under particular wirings",
  ["src/components/simplified.rs: SimpleComponent::new, set_log_channel, process_log_for_component"])
p("Messages to the kernel are delivered or reported",
  "send, try_send and send_timeout either append the message to the channel and return Ok, or leave the channel unchanged and return the error that tells a full channel, a timeout and a disconnected kernel apart; what is sent arrives as a message of its kind with an empty header.",
  "every channel state and every message",
  "All combinations of channel states, messages and calls",
  ["src/components/kernel_message.rs: send, try_send, send_timeout", "src/err.rs: From<TrySendError>, From<SendError>, From<SendTimeoutError>", "src/components/common.rs: From<..> for SiemMessage"])
p("Tasks report their type",
  "The type of a task identifies its kind (and the name of a custom task) and displays as that name; two different types never display alike.",
  "every pair of tasks and of task types",
  "Custom names are arbitrary texts",
  ["src/components/task.rs: SiemTaskData::class, Display for SiemTaskType"])
p("Trigger groups of a rule",
  "A rule matches a log exactly when all the subrules of one of its trigger groups hold.",
  "every rule and every log",
  "All rules times all logs",
  ["src/components/rule/mod.rs: SiemRule (field conditions), SiemRule::matches"])
p("Sigma search identifiers",
  "A map of Sigma conditions requires all of them, a list of maps requires one of the maps.",
  "every map and list of Sigma conditions",
  "Unbounded lists and maps",
  ["src/components/rule/sigma.rs: From<SigmaRuleCondition> for SiemSubRule"])
p("Sigma rules keep their metadata",
  "Converting a Sigma rule keeps its identifier, title, description and tags, its level as severity, has one subrule per search identifier and lists the MITRE techniques and tactics its attack tags identify, in order; conversion succeeds whenever its conditions can be translated.",
  "every Sigma rule",
  "Unbounded tags and conditions, hundreds of identifiers",
  ["src/components/rule/sigma.rs: From<SigmaRule> for SiemRule, parse_subrules"])
p("References in alert texts",
  "In a description, $name followed by a character that cannot be part of a field name refers to the field of that name.",
  "every description",
  "Unbounded strings",
  ["src/components/rule/sigma.rs: SigmaDescriptionLexer::next_token (read_field)"])
p("Alert dictionaries",
  "Looking up a text returns the text stored for that identifier in that language, and nothing otherwise.",
  "every dictionary, language and identifier",
  "Unbounded dictionaries",
  ["src/components/rule/mod.rs: AlertDictionary::get_mappings_for, get_mappings_for_id"])
p("Comparing rule operators",
  "Equality of rule operators is an equivalence that tells different operators apart.",
  "every pair and triple of operators",
  "Operators nest without bound",
  ["src/components/rule/mod.rs: PartialEq for RuleOperator"])
p("Tactics named in Sigma tags",
  "A tag attack.<tactic name> of a Sigma rule adds that tactic to the rule.",
  "every Sigma rule and tactic",
  "All rules times all tactics",
  ["src/components/rule/sigma.rs: From<SigmaRule> for SiemRule", "src/components/mitre.rs: TryFrom<&str> for MitreTactics"])
p("Sigma condition expressions",
  "The condition expression of a Sigma rule decides which search identifiers trigger the converted rule.",
  "every Sigma rule",
  "Unbounded expressions",
  ["src/components/rule/sigma.rs: From<SigmaRule> for SiemRule, SigmaRuleDetection"])
p("Whole queries", "Lexing a query written in the language (blanks, symbols, numbers, words, single and double quoted strings) yields exactly its tokens in order, then EOF.", "every query of the lexical grammar", "unbounded inputs and token sequences", ["src/components/query/mod.rs: QueryLexer, get_keyword_token"])
p("Unterminated strings are reported", "A query that ends inside a quoted string is reported as illegal instead of being accepted.", "every unterminated string", "unbounded inputs", ["src/components/query/mod.rs: QueryLexer::next_token"])
p("Metric conversions", "Turning a counter, gauge or histogram vector into a general metric and asking for it back by its kind gives the same vector; asking for another kind is an error.", "every metric", "every content of every metric", ["src/components/metrics/mod.rs: From<..> for SiemMetric, TryInto<GaugeVec/CounterVec/HistogramVec> for SiemMetric"])
p("Synchronised datasets, end to end", "Whatever calls are made on a synchronised dataset, and however its owner spreads the publications over them, the snapshot published after the last call is what the same calls made directly on the dataset would have left.", "every history of calls and publications, every channel capacity", "all interleavings of writers and publications", ["src/components/dataset/ip_set.rs: IpSetSynDataset", "src/components/dataset/ip_map.rs: IpMapSynDataset", "src/components/dataset/text_map.rs: TextMapSynDataset", "src/components/dataset/ip_net.rs: IpNetSynDataset"])
p("Addresses in JSON", "An address written as JSON is read back as the same address; the text written identifies the address.", "every address and every JSON value", "2^128 addresses, every JSON value", ["src/events/ip.rs: Serialize for SiemIp, derive(Deserialize) for SiemIp"])
p("Field values in JSON", "A field value written as JSON and read back is the same value, of the same kind, and a second trip changes nothing more.", "every field value", "every text, number, address and list", ["src/events/field.rs: SiemField (serde untagged)"])
p("Logs in JSON", "A log is written as an object with exactly its fields under their names, and reading it back gives a log with the same fields.", "every log", "unbounded logs", ["src/events/log.rs: SiemLog (serde)", "src/events/ifield.rs: InternalField (Serialize, Deserialize)"])
p("Commands in JSON", "A command, its header or a task written as JSON and read back is the same, is tagged with the name of its function, and different commands are written differently.", "every command, header and task", "every payload of every command", ["src/components/command.rs: SiemCommandCall, SiemCommandHeader, SiemFunctionType", "src/components/command_types.rs", "src/components/task.rs: SiemTask, SiemTaskData"])
p("Command responses in JSON", "A command response written as JSON and read back is the same, results tagged ok or err.", "every response", "every payload of every response", ["src/components/command.rs: SiemCommandResponse, CommandResult (Serialize, Deserialize)"])
p("Task definitions in JSON", "A task definition written and read back is the same definition; incomplete definitions and unknown keys are refused.", "every task definition and every JSON object", "unbounded payloads, every object", ["src/components/task.rs: TaskDefinition (Serialize, Deserialize)"])
p("Rules in JSON", "A rule written as JSON and read back has the same identity, subrules and alert and decides the same on every log.", "every rule, log and set of datasets", "operators nest without bound; every log", ["src/components/rule/mod.rs: SiemRule, SiemSubRule, RuleCondition, RuleOperator, RuleOperator, regex_to_string, string_to_regex (serde)"])
p("Messages in JSON", "A message between components written as JSON and read back is the same message.", "every message", "every payload of every kind of message", ["src/components/common.rs: SiemMessage (serde)"])
p("Metrics in JSON", "The JSON of a metric definition shows its name, its description and, per series in order, the labels and exactly what reading the metric through its API gives at that moment; the kind and the series are found under the same keys for every kind.", "every metric, every history and interleaving of updates", "all schedules of updates, every label set", ["src/components/metrics/mod.rs: Serialize for SiemMetricDefinition, SiemMetric", "src/components/metrics/counter.rs: Serialize", "src/components/metrics/gauge.rs: Serialize", "src/components/metrics/histogram.rs: Serialize"])
p("Datasets, use cases and capabilities in JSON", "The JSON of a dataset shows its type and name and nothing of its contents; that of a use case reads as its definition and shows every step; that of a component's capabilities shows each part as it was declared.", "every dataset, use case and component description", "unbounded contents, every dataset of a type", ["src/components/dataset/mod.rs: Serialize for SiemDataset", "src/components/use_case.rs: SiemUseCase", "src/components/common.rs: CommandDefinition, DatasetDefinition", "src/components/mod.rs: capabilities"])
p("Structured events in JSON", "Every structured event can be written as JSON, shows each of its values under its own name, and is read back as the same event.", "every event", "every payload of every kind of event", ["src/events/event.rs: SiemEvent (serde)", "src/events/protocol.rs: NetworkProtocol", "src/events/firewall.rs", "src/events/intrusion.rs", "src/events/webproxy.rs", "src/events/webserver.rs", "src/events/dns.rs", "src/events/dhcp.rs", "src/events/auth.rs"])
