p("JSON objects are read by their keys",
  "Reading a header, task, task result, notification, alert, aggregation, query, pagination, definition, rule or rule part from a JSON object depends only on what is given under its own keys: the order of the entries and other keys do not matter, a key given twice or a required key that is missing is refused, and a missing optional key counts as null.",
  "every JSON object, with any keys in any order and number",
  "unboundedly many objects; the order in which another writer emits the keys is not under our control",
  ["src/components/common.rs", "src/components/command.rs", "src/components/command_types.rs", "src/components/task.rs", "src/components/alert.rs", "src/components/rule/mod.rs"])
A=["src/components/simplified.rs", "src/components/mod.rs"]
p("Components sharing log channels take each log once and in order",
  "However components are connected through log channels (none reads from the channel it writes to), the logs received from a channel, by whomever, are the first of those sent into it, in order; each is received by exactly one component (or by the outside world) and was sent once by one; and each component forwards exactly what its own handler kept of what it was given, whatever the others do.",
  "any number of components, any wiring and channel capacities, any handlers, every interleaving of their threads and of the outside world",
  "the interleavings of several threads cannot be enumerated", A)
p("A pipeline of components loses and invents no logs",
  "In a pipeline of stages, each with any number of duplicates of a component that treats each log by a function of the stage, what came out with what waits in the last channel or is under way is, as a multiset, what the stages one after the other let through of what was put in; when nothing is under way nothing is missing.",
  "any number of stages and duplicates, any functions and capacities, every interleaving",
  "the interleavings of several threads cannot be enumerated", A)
p("A pipeline with one component per stage keeps the order",
  "With one component per stage the logs come out in the order in which they were put in.",
  "any number of stages, every interleaving",
  "the interleavings of several threads cannot be enumerated", A)
p("Closing the input of a pipeline shuts it down without loss",
  "Once the sender of the first channel is dropped, and provided the receiver of the last one is kept, no stop command is sent and no tick fails: when the components can do nothing more every one of them has returned, and everything that was put in and let through has come out or waits in the last channel. No component returns before its own input is closed and empty.",
  "any pipeline, every interleaving",
  "the interleavings of several threads cannot be enumerated", A)
p("A pipeline comes to rest",
  "Left to themselves the components of a pipeline do, from any state, at most a number of steps given by the logs and messages waiting, the number of components and stages and the ticks.",
  "any pipeline in any state, every interleaving",
  "a bound on all executions cannot be tested", A)
p("The test parsers",
  "DummyParserText takes exactly the logs whose message contains DUMMY, DummyParserAll takes all, DummyParserError none. A log that is taken gets the field `parser` with the name of the parser and is otherwise unchanged; a log that is not taken is handed back unchanged with the error; parsing again changes nothing. The logs made by the generator of DummyParserAll are taken by it.",
  "every log", "unboundedly many messages and fields",
  ["src/testing/parsers.rs"])
p("Parsing errors in JSON",
  "The JSON of a parsing error shows its kind, its reason and what the JSON of its log shows; it is read back exactly if the log is, as the same kind with the same reason. An error about a log as it was created cannot be read back.",
  "every error about every log", "unboundedly many logs",
  ["src/components/parsing.rs", "src/events/log.rs"])
p("The test harness stops a component after the action",
  "When do_before_stoping_component was called and nobody else stops the component, the component takes all messages sent to it by the action, in order and whatever others send in between, before it takes the stop command of the harness; then it returns without error. Once the stop command waits in its channel and nothing more arrives it returns after a bounded number of steps, unless its output is full.",
  "any component, any action and other senders, every interleaving, every state of the component", "the interleavings of several threads cannot be enumerated",
  ["src/testing/mod.rs", "src/components/simplified.rs"])
p("Schemas in JSON",
  "Two different schemas have different JSON; the JSON names exactly the fields of the schema, whether unknown fields are allowed, and the protected fields.",
  "every schema", "unboundedly many schemas",
  ["src/events/schema.rs"])
p("The predefined tags",
  "Each predefined tag is found on a log under its own name once added, and adding it makes no other text a tag of the log; no two are the same.",
  "every predefined tag and every log", "unboundedly many logs",
  ["src/events/tags.rs", "src/events/log.rs"])
p("Names made by the default generators",
  "At any time the default user is called User and the default host is called Host, each followed by a number below 65536 that is the clock's nanoseconds modulo 65536; a user is never called like a host.",
  "every reading of the clock", "the clock cannot be enumerated",
  ["src/components/parsing.rs"])
p("The generator of the test parser for texts",
  "The logs made by the generator of DummyParserText are taken by it.",
  "every time and origin", "the theorem shows that no log is",
  ["src/testing/parsers.rs"])
p("The documents on the wire",
  "The JSON of commands, responses, tasks and their definitions, alerts, notifications, messages and rules is the documented one: every member of a struct under its own name, every variant under its name, with its payload if it has one; a message that carries a dataset is not written.",
  "every value of these types", "the types are recursive and carry unbounded texts, lists and maps",
  ["src/components/command.rs", "src/components/command_types.rs", "src/components/task.rs", "src/components/alert.rs", "src/components/common.rs", "src/components/rule/mod.rs"])
p("Errors of dataset conversions name the kind",
  "When a dataset value cannot become a dataset of the wanted type, the error names the kind of the value.",
  "every kind, type and value", "the theorem shows the error of five conversions for all their inputs",
  ["src/components/dataset/mod.rs: try_from impls"])
p("What errors say",
  "A refused IPv4 text is reported as not a number below 256 exactly when one of its four rightmost parts is not one, and as having too many dots exactly when these are and there are more parts. A refused IPv6 text is reported by its size, by its single leading colon, or by one of six texts. A refused port, field conversion or metric conversion is reported by its fixed text, naming both kinds for metrics; a refused metric definition by the name or the description that is invalid.",
  "every text, field and metric", "unboundedly many texts",
  ["src/utilities/ip_utils.rs", "src/events/field.rs", "src/components/metrics/mod.rs"])
p("New queries and headers",
  "A new query asks, in the storage's own language, for the first 128 rows with all fields and for every time from 1970 on that fits 64 bits and no earlier one; its results are kept for an hour; no user and no earlier query are named. A new header carries the given user and numbers, or zero.",
  "every query text, time and user", "the times cannot be enumerated",
  ["src/components/command.rs: QueryInfo::new, SiemCommandHeader"])
p("Scraped counters and histograms never go backwards",
  "While counters are increased by amounts that are not negative and sum to less than 2^63, no later reading is below an earlier one or above the sum, however the threads are scheduled; the same holds for the count and every bucket of a histogram with fewer than 2^64 observations.",
  "every schedule and every two moments in it", "schedules and moments are unbounded",
  ["src/components/metrics/counter.rs", "src/components/metrics/histogram.rs"])
p("No increment makes a counter go backwards",
  "A counter that is not reset never reads less than before.",
  "every schedule of increments", "the theorems show two: an increment by a negative number, and one past the largest number",
  ["src/components/metrics/counter.rs: inc_by"])
p("The series of a histogram vec are independent",
  "However threads observing through the handles of different series are scheduled, each series holds what a histogram of its own would hold after just the observations made through its handle, and keeps its labels.",
  "every schedule, set of series and assignment of observations to them", "schedules are unbounded",
  ["src/components/metrics/histogram.rs: HistogramVec"])
p("Dates are shown as RFC 3339 times",
  "A date whose time the calendar library represents is shown as its Gregorian date and time of day in UTC, with milliseconds and a Z; no other text is the time's, and no two times share one. Hence two such dates are equal exactly when they are the same time, and a text equals a date exactly when it is its time. The text has 24 characters exactly for the years 0 to 9999.",
  "every time in milliseconds and every text", "the times cannot be enumerated; leap years, months and negative times are easily got wrong",
  ["src/events/field.rs: Display, PartialEq for SiemField"])
p("Different dates are different",
  "Two dates are equal only if they are the same time.",
  "every two dates", "the theorem shows all the dates that are not: those the calendar library does not represent",
  ["src/events/field.rs: Display, PartialEq for SiemField"])
p("What is read fits its type",
  "Whatever JSON is received: a field, log, event, rule, task definition or message that is read from it has every number within the range of its type, maps without repeated keys, and finite floats in plain JSON values.",
  "every JSON document", "documents are unbounded trees",
  ["src/events/field.rs", "src/events/mod.rs", "src/events/log.rs", "src/components/command.rs", "src/components/common.rs", "src/components/rule/mod.rs", "src/components/task.rs"])
p("What was received can be passed on",
  "A message read from JSON (a command without an address, a notification, task or task result, a response whose rows hold no address and no float that is not a number) can be written, and reading that gives the same message; so does a rule that compares with no address, network or float that is not a number.",
  "every JSON document that is read as such a message or rule", "documents are unbounded trees; the one read may differ in order, unknown members and defaults from the one written",
  ["src/components/common.rs", "src/components/command.rs", "src/components/rule/mod.rs", "src/components/task.rs"])
p("User identifiers tell the user",
  "The identifier made from a user's name and domain is the domain, a bar and the name; two of them are the same only for the same name and domain, if the domains have no bar.",
  "every two names and domains", "texts are unbounded",
  ["src/events/field.rs: generate_user_id"])
p("User identifiers are unambiguous",
  "Identifiers made from different users are different.",
  "every two names and domains", "the theorem shows all the pairs that are not: those that move a bar between the domain and the name",
  ["src/events/field.rs: generate_user_id"])
p("Sigma rules survive JSON",
  "A Sigma rule is written with every text, list and condition it has under its own name, and absent ones left out; reading gives the same rule exactly if no search identifier is called condition and no value is a float that is not finite. A detection with one condition text and identifiers that are maps, or lists of maps, of fields to texts, numbers, nulls and lists of these is read and means what it says, the last of two members of one name counting; whatever rule is read can be written and read again.",
  "every Sigma rule, every JSON document and every identifier, map and list in it", "documents are unbounded trees and the identifiers are flattened beside the condition under any names",
  ["src/components/rule/sigma.rs: SigmaRule, SigmaRuleDetection, SigmaRuleCondition, SigmaValue"])
p("Every written Sigma rule is read",
  "A Sigma rule that is written to JSON can be read again.",
  "every Sigma rule", "the theorem shows that no rule with a search identifier called condition is",
  ["src/components/rule/sigma.rs: SigmaRuleDetection"])
p("Sigma documents are read",
  "A detection of the Sigma language, with identifiers that are maps, lists of maps or lists of keywords and values that are texts, numbers, truth values or nulls, and a time frame, is read.",
  "every detection of the language", "the theorems show all those that are refused: lists with a keyword, maps with a truth value, members with a text",
  ["src/components/rule/sigma.rs: SigmaRuleCondition, SigmaValue, SigmaRuleDetection"])
p("Alert dictionaries survive JSON",
  "An alert dictionary is written as one object for each language with its texts; reading that gives the same dictionary, and a dictionary that was read can be written and read again.",
  "every dictionary and every JSON document", "dictionaries have any number of languages and texts",
  ["src/components/rule/mod.rs: AlertDictionary"])
p("Expositions say what they are",
  "An exposition of a counter or a gauge has exactly these comments: what the metric is for, if help was asked for, and its type; so has one of a histogram with series, and one without series says nothing.",
  "every name and one-line description that is accepted, every set of series and every state of them", "names, descriptions and labels are unbounded texts that must not be taken for comments",
  ["src/components/metrics/counter.rs", "src/components/metrics/gauge.rs", "src/components/metrics/histogram.rs: Encoder"])
p("Declared types are types of the format",
  "The type an exposition declares for a metric is one of the types of the Prometheus text format.",
  "every metric with series", "the theorem shows that no histogram's is",
  ["src/components/metrics/histogram.rs: Encoder for HistogramVec"])
p("Stored GeoIP records are found as they were stored",
  "A record stored in the on-disk GeoIP dataset is written as JSON with its seven members; if its coordinates are numbers, every lookup answers what a dataset that keeps the records themselves answers, so with IPv4 networks what the in-memory dataset answers. Whatever is read has an autonomous system number of 32 bits and all members, and its coordinates are the nearest numbers of 32 bits.",
  "every sequence of insertions of records with numbers as coordinates, every address, and every JSON document", "histories, networks and texts are unbounded, and the records go through their text form",
  ["src/components/dataset/geo_ip/mod.rs: GeoIpInfo, From<IVec>, Into<IVec>", "src/components/dataset/geo_ip/slow.rs: insert, get"])
p("Lookups of GeoIP records do not abort",
  "No lookup in the on-disk GeoIP dataset aborts, whatever records were stored.",
  "every sequence of insertions and every address", "the theorem gives all records that break it",
  ["src/components/dataset/geo_ip/mod.rs: From<IVec> for GeoIpInfo"])
p("What is written is within the reader's nesting limit",
  "A JSON text is read as its tree is if at most 127 arrays and objects are inside each other, and refused otherwise. Commands, responses, tasks, definitions, alerts, notifications, logs, structured events, errors, dictionaries, GeoIP records and messages nest at most eight deep whatever they hold, so they are never refused for it; nor is a rule whose operators are at most 59 inside each other, nor an event carrying a JSON object that is itself within the limit.",
  "every value of these types and every JSON tree", "values hold lists, maps and operators of any size and nesting",
  ["src/components/common.rs: SiemMessage", "src/components/command.rs", "src/components/task.rs", "src/components/alert.rs", "src/components/rule/mod.rs: RuleOperator", "src/events/event.rs: SiemEvent"])
p("Rules are read however deeply their operators nest",
  "A rule, or Sigma rule, that can be written as JSON text can be read from it, whatever the nesting of its operators and values.",
  "every rule and Sigma rule", "the theorems give exactly the rules that are refused: operators that take more than 122 levels, lists of values more than 124 (in a list of alternatives 123) inside each other",
  ["src/components/rule/mod.rs: RuleOperator", "src/components/rule/sigma.rs: SigmaValue"])
p("Converted Sigma rules ask what the Sigma rule asks",
  "A Sigma rule whose identifiers are maps from fields, with modifiers, to nulls or to values without wildcards (and whose tags are text) is converted; and the conditions of the rule hold of a log exactly if every entry of every identifier does: a null asks that the log has no such field, a value that the text of the field is it, contains it, starts or ends with it, for a list some (with all: each) of its values.",
  "every such Sigma rule and every log", "rules have any number of identifiers, entries and values, and logs any fields",
  ["src/components/rule/sigma.rs: From<SigmaRule> for SiemRule, From<SigmaRuleCondition> for SiemSubRule, parse_rule_condition", "src/components/rule/mod.rs: SiemRule, SiemSubRule, RuleCondition"])
p("A Sigma rule detects the logs it describes",
  "Evaluating a converted Sigma rule on a log answers yes exactly if the log has what the Sigma rule asks for.",
  "every Sigma rule and every log", "the theorems show that a rule with one test on a value, anywhere, answers yes on no log, and that rules of nulls answer rightly",
  ["src/components/rule/sigma.rs: From<SigmaRule> for SiemRule", "src/components/rule/mod.rs: SiemRule::matches"])
p("Addresses are printed in their recommended form",
  "An IPv6 address is printed as RFC 5952 asks: groups in lower-case hexadecimal without leading zeros, the first of the longest runs of two or more zero groups shortened to '::', a single zero group not; addresses that stand for IPv4 ones as ::ffff: and the dotted decimal. An IPv4 address is printed as four decimal numbers without leading zeros. Every address has one text of this form only.",
  "every 128-bit and every 32-bit address", "there are 2^128 addresses",
  ["src/utilities/ip_utils.rs: ipv4_to_str, ipv6_to_str"])
p("Documents are written as JSON texts",
  "A text is at most one JSON document (RFC 8259). What is written of a JSON tree, on one line or on several, is a text that stands for that tree and no other, whatever characters its texts and keys hold, if its floats are printed as numbers that stand for them; on one line it has no control characters, so no line break. No message, definition, event, rule, error, dictionary or GeoIP record is written with a float that is not a finite number. So commands without addresses, tasks and headers, messages that carry these or notifications or responses without rows, logins, dictionaries, and Sigma rules whose values are nested at most 123 deep read back from their text as they were; rules with at most 59 operators inside each other as ones that decide every log as before.",
  "every JSON tree, every text, every value of these types", "texts and trees are unbounded",
  ["src/components/dataset/geo_ip/mod.rs: Into<IVec>", "src/components/simplified.rs: process_log_for_component", "src/components/command.rs", "src/components/rule/mod.rs"])
p("What typed reads answer when fields are also edited in place",
  "After any history of insertions, setters, tags, typed reads, in-place edits (field_mut, iter_mut) and schema applications on a log: nothing aborts, and a typed read of a field answers for exactly one value: the value that was last written, if it is of the kind of the read already; otherwise what the first such read after the last write answered; otherwise, with no such read since, the current value. Reading changes no value. The fields reported by ip_fields are, of the names that ever received an address, in order, those before the first one that is gone, with their current values.",
  "every history of calls on a log, every name and every kind of read", "histories are unbounded and the answer depends on the order of reads, writes and edits",
  ["src/events/log.rs: SiemLog::field_mut, iter_mut, i64_field, u64_field, f64_field, ip_field, txt_field, array_field, ip_fields", "src/events/ifield.rs: PreStoredField, InternalField", "src/events/schema.rs: FieldSchema::apply"])
p("Stopping some components of a pipeline loses no logs",
  "Components of a pipeline may be sent stop commands, and their ticks may fail, at any moment: as long as each stage keeps a component that has not returned, and somebody goes on listening at the end, no component ever finds nobody to send a log to; and when no component can go on, with room in the last channel, everything that was put in and let through by the stages has been delivered, each log once, no channel before the last holds a log, and every component that is left waits for more.",
  "every pipeline with any number of stages, components per stage and channel capacities above zero, every interleaving, every time of the stop commands", "which component takes which log, and at what moment the others are stopped, depends on the schedule",
  ["src/components/simplified.rs: SimpleComponent::run, process_message, process_log_for_component, set_log_channel"])
p("What a synchronised dataset keeps when its channel overflows",
  "Whatever the capacity of the channel and however many calls are made between publications: after a last publication the snapshot is what the calls that were heard, made directly on the dataset, would have left. A call is heard iff fewer calls than the capacity have been heard since the last publication. So all calls are heard exactly if the channel never overflows, and if the receiver is gone none is. A reader of a published set finds an address iff the last call about it that was heard inserted it, and a reader of a map the value that call inserted.",
  "every history of calls and publications, every channel capacity", "all interleavings of writers and publications",
  ["src/components/dataset/ip_set.rs: IpSetSynDataset", "src/components/dataset/ip_map.rs: IpMapSynDataset", "src/components/dataset/text_map.rs: TextMapSynDataset", "src/components/dataset/ip_net.rs: IpNetSynDataset"])
p("Rules that were accepted are published",
  "Writers insert rules with insert, try_insert and insert_timeout while the owner of the dataset receives and publishes. At any moment the rules whose insertion succeeded are, in the order of the insertions, those published, then those the owner holds, then those in the channel: none is lost, none is there twice, and no more wait than the channel has slots. The owner can always go on until all are published, without aborting; then a reader finds under a name the last rule of that name whose insertion succeeded. A rule that is refused comes back as it was; try_insert refuses and insert waits exactly when the channel is full; insert_timeout is nothing but repeated calls of try_insert, the last of which gives its answer.",
  "every interleaving of writers and owner, every capacity, every set of rules, while the receiver exists", "which insertion finds the channel full depends on the schedule",
  ["src/components/dataset/rules.rs: CorrelationRulesDataset::insert, try_insert, insert_timeout, apply_updates, get"])
