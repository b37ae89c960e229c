# Formal model of u-siem-core in Rocq (Coq 8.16.1)

## Layout

`rocq/theories/` (logical prefix `Verif`):

| directory | content |
|---|---|
| `Base/` | Rust-flavoured primitives: byte strings, `split`, `parse::<uN>`, decimal and hex printing, `BTreeMap` as a sorted association list, fixed-width arithmetic, interleavings of threads, regular expressions, `outcome` (value, abort, out of fuel) |
| `Model/` | the model: one Gallina definition per Rust function, each citing file and lines. No proofs |
| `Spec/` | small specifications used in the statements: what a network contains, what a dotted quad denotes, what a stream of logs should become, which keys an object has. They do not use the functions under test |
| `Proofs/` | lemmas |
| `Props/` | the theorems `Cnn_…`, their `Print Assumptions`, and an `Example` or `_case` beside them that meets the hypotheses |

`tools/` holds the generators of the large tables (`gen_enums`, `gen_mitre`, `gen_base_schema`, `gen_datasets`, `gen_event_names`: they read `/repo` and write Coq), of `properties.jsonl`, `MANIFEST.json` and this file, and `mutate.py`, which builds wrong variants of the model and reports the theorems that no longer hold. `seeded/` holds those variants and the log.

Conventions: a Rust function that mutates `&mut self` returns the new value; `Result` and `Option` stay data; a panic (index out of bounds, arithmetic overflow in a debug build, `unwrap` on `None`, `todo!()`) is an explicit `Panic` outcome, never a default value. Where overflow differs between debug and release builds, the model takes the kind of build as an argument and the theorems quantify over it or name it. Loops are structural recursion; where Rust's loop is unbounded the model uses fuel with a distinguished `OutOfFuel` value and a theorem that it is never returned.

Strings: a Rust `&str` is its UTF-8 byte sequence, a Coq `string`. All delimiters the code splits on are ASCII, for which byte-wise and char-wise splitting coincide. Where the code works on `Vec<char>` or lower-cases, the model works on ASCII letters, and says so at the definition.

Names: `Cnn_…` proves (part of) property Cnn for all inputs; `Cnn_…_refuted` proves that the code as it is violates Cnn. Where the code satisfies one half of a natural property and violates the other, the halves are separate ids (C96–C152 are the violated ones), so that each id is either proved in full or violated.


## Plan per property

| id | property | modelled | method |
|---|---|---|---|
| C01 | IPv4 text round trip | ipv4_to_str, ipv4_from_str | arithmetic on four octets; round trip for all n < 2^32 |
| C02 | IPv4 parser: language and value | ipv4_from_str | exact characterisation of the accepted texts and of the value, by induction on the parts |
| C03 | IPv6 parser is total | ipv6_from_str with explicit panic and fuel | loop invariant; the fuel is bounded by the text length |
| C04 | IPv6 parser: language and value | ipv6_from_str | grammar in Spec/TextSpec.v; the language accepted and the value, both directions, by induction over the groups |
| C05 | Private address classification is exact | is_local_*, SiemIp::is_local | interval specification, lia |
| C06 | IPv4:port text | parse_ipv4_port, is_ipv4_port | from C01 and a lemma on rfind; exact language |
| C07 | MAC text round trip (48 and 64 bit) | utilities/mac.rs | base-256 digit lists |
| C08 | MAC addresses of any width: parsing and printing | utilities/mac.rs | base-256 digit lists |
| C09 | Rule selector returns the best matching rule | RuleSelector as sorted maps | refinement of the inverted index to "number of common words" |
| C10 | Field equality where it is an equivalence | SiemField: PartialEq, Hash, contains | case analysis, nested induction on arrays |
| C11 | Equal texts, integers and addresses hash equally | SiemField: PartialEq, Hash, contains | case analysis, nested induction on arrays |
| C12 | Substring predicate on fields | SiemField: PartialEq, Hash, contains | case analysis, nested induction on arrays |
| C13 | Conversions of fields | the TryInto conversions of SiemField, floats as SpecFloat | case analysis; number printing and parsing are inverse by induction on digits; rounding to nearest even of SpecFloat proved from its shifts |
| C14 | A log is a map from field names to values | SiemLog, InternalField with its caches | operations as a step function; invariants over all histories of operations |
| C15 | Typed reads are transparent over insertions, tags and headers | SiemLog, InternalField with its caches | operations as a step function; invariants over all histories of operations |
| C16 | ip_fields reports every field holding an IP | SiemLog, InternalField with its caches | operations as a step function; invariants over all histories of operations |
| C17 | Tags | SiemLog, InternalField with its caches | operations as a step function; invariants over all histories of operations |
| C18 | Header setters are read back by their getters | SiemLog, InternalField with its caches | operations as a step function; invariants over all histories of operations |
| C19 | Schema application keeps exactly the declared fields | FieldSchema, get_default_schema (generated table) | map laws on sorted association lists |
| C20 | The default schema keeps the header texts | FieldSchema, get_default_schema (generated table) | map laws on sorted association lists |
| C21 | Schema merging | FieldSchema, get_default_schema (generated table) | map laws on sorted association lists |
| C22 | Structured events become logs field by field | From<Event> for SiemLog | unfolding into field lists and a "last writer wins" lemma |
| C23 | Counters lose no increments | Counter as atomic steps | induction over interleavings of threads |
| C24 | Histogram buckets are cumulative and exact | Histogram | induction over observations, floats as SpecFloat |
| C25 | Histogram get_count reads the first bucket not above its argument | Histogram | induction over observations, floats as SpecFloat |
| C26 | Label combinations are choices | label_combinations | odometer invariant |
| C27 | Prometheus exposition of counters and gauges can be read back | prometheus.rs encoders | a separate parser of the exposition format in Spec; round trip by induction over series |
| C28 | Metric selection by labels | with_labels, the two regular expressions | list search; regular expressions as an inductive relation and a decision procedure proved equal |
| C29 | Metric names | with_labels, the two regular expressions | list search; regular expressions as an inductive relation and a decision procedure proved equal |
| C30 | IP sets and IP maps behave like mathematical maps | IP, text and rule datasets with their updates | refinement to finite maps, fold laws |
| C31 | Text maps and sets behave like mathematical maps | IP, text and rule datasets with their updates | refinement to finite maps, fold laws |
| C32 | Dataset updates are applied in order, atomically and completely | IP, text and rule datasets with their updates | refinement to finite maps, fold laws |
| C33 | Network lookup is sound | IpNetDataset, fast GeoIP | bit level reasoning with div and mod; the set of found networks is characterised exactly |
| C34 | Network lookup: exactly what it finds | IpNetDataset, fast GeoIP | bit level reasoning with div and mod; the set of found networks is characterised exactly |
| C35 | Synchronised dataset writes: delivery and report | *SynDataset over a bounded channel | case analysis of try_send, schedules for the timed retry |
| C36 | Calendar lookups are sound | CalendarDataset | induction over insertions and days |
| C37 | I18n lookup and fallback | i18n, holder, dataset enum | map laws, case analysis |
| C38 | Dataset holder | i18n, holder, dataset enum | map laws, case analysis |
| C39 | Dataset type conversions | i18n, holder, dataset enum | map laws, case analysis |
| C40 | A component forwards exactly its unfiltered logs, in order | SimpleComponent::run as a transition system | adversarial schedule; invariant arrived = taken ++ waiting; progress from every state |
| C41 | A stop command stops the component | SimpleComponent::run as a transition system | adversarial schedule; invariant arrived = taken ++ waiting; progress from every state |
| C42 | Periodic ticks | SimpleComponent::run as a transition system | adversarial schedule; invariant arrived = taken ++ waiting; progress from every state |
| C43 | Log level filtering of kernel notifications | KernelMessager and the logging macros | induction over histories |
| C44 | State storage behaves like a key/value store | TestingStorage, DummyStateStorage | refinement to a finite map |
| C45 | State storage: whole files and inner ranges | TestingStorage, DummyStateStorage | refinement to a finite map |
| C46 | Rule matching, when it yields an answer | SiemRule::matches with Panic | induction over conditions |
| C47 | Sigma modifiers on literal values are translated faithfully | sigma.rs | string lemmas; loop invariants with Panic |
| C48 | Sigma alert templates lose no text | sigma.rs | string lemmas; loop invariants with Panic |
| C49 | Sigma severity levels | sigma.rs | string lemmas; loop invariants with Panic |
| C50 | The query lexer is total and makes progress | QueryLexer | state invariant; fuel bounded by the text length; maximal munch by induction on the text |
| C51 | The query lexer tokenises numbers and words maximally | QueryLexer | state invariant; fuel bounded by the text length; maximal munch by induction on the text |
| C52 | Wildcards at both ends or inside query strings | QueryLexer | state invariant; fuel bounded by the text length; maximal munch by induction on the text |
| C53 | Quoted literals round trip | QueryLexer | state invariant; fuel bounded by the text length; maximal munch by induction on the text |
| C54 | Network protocol identifiers | the tables (generated from the source) | exhaustive case analysis |
| C55 | HTTP methods | the tables (generated from the source) | exhaustive case analysis |
| C56 | MITRE identifiers | the tables (generated from the source) | exhaustive case analysis |
| C57 | Commands map to their function type | the tables (generated from the source) | exhaustive case analysis |
| C58 | GeoIP on-disk keys of IPv4 and IPv6 networks | keys of the slow GeoIP dataset | byte arithmetic |
| C59 | What the MAC parsers do with any text | the three MAC parsers | induction over the parts, with shift overflow as Panic |
| C60 | IPv6 printing | Ipv6Addr display (std), SiemIp | grammar of C04 and induction over the groups |
| C61 | SiemIp text and comparison | Ipv6Addr display (std), SiemIp | grammar of C04 and induction over the groups |
| C62 | The default schema covers the structured events but for two fields | all conversions and get_default_schema | every written name looked up in the generated table |
| C63 | Gauges lose no updates | Gauge over fixed point atomics | interleavings; SpecFloat exactness of whole numbers below 2^53 / 10^5; rounding errors of the product, the truncation and the quotient added up over Q |
| C64 | Accepted one-line definitions encode cleanly | valid_description and the encoders | induction on the text |
| C65 | Histograms are consistent at every instant | Histogram as atomic steps | interleavings |
| C66 | What lookups in the on-disk GeoIP dataset answer | slow GeoIP over a sorted store (sled as a map) | refinement to the fast one |
| C67 | Language codes | Language codes (generated) | exhaustive case analysis and a string lemma for all other texts |
| C68 | Commands are taken in turn | SimpleComponent::run | transition system of C40 |
| C69 | Due ticks and traffic | SimpleComponent::run | transition system of C40 |
| C70 | A component with log channels processes each log once | SimpleComponent::run | transition system of C40 |
| C71 | Messages to the kernel are delivered or reported | KernelMessager, Notification conversions | case analysis over channel states |
| C72 | Tasks report their type | SiemTask, TaskType display | case analysis |
| C73 | Rules whose one trigger group names every subrule | SiemRule::matches against trigger groups | induction over subrules |
| C74 | Sigma maps | from_sigma | induction over the YAML tree; panics explicit |
| C75 | Sigma rules keep their metadata | from_sigma | induction over the YAML tree; panics explicit |
| C76 | References in alert texts end at a space | transform_alert_content | loop invariant |
| C77 | Alert dictionaries | AlertDictionary | map laws |
| C78 | Comparing rule operators without field values | derived PartialEq of operators | nested induction |
| C79 | The tactic command_and_control in Sigma tags | recognise, tactic_try_from | case analysis |
| C80 | Sigma condition expressions | from_sigma | counterexample; nothing of the property holds |
| C81 | Whole queries | QueryLexer | a printer of token lists in Spec; lexing the printed text returns the tokens |
| C82 | Unterminated strings are reported | QueryLexer | counterexample; nothing of the property holds |
| C83 | Metric conversions | From/TryFrom of metrics | case analysis |
| C84 | Synchronised datasets, end to end, while the channel holds | Syn datasets, channel and manager loop | induction over schedules of writers, manager and readers |
| C85 | Addresses in JSON: what is written and what is read | Serialize/Deserialize of SiemIp, SiemField, SiemLog at the level of JSON trees | induction on values |
| C86 | Field values in JSON: what they become | Serialize/Deserialize of SiemIp, SiemField, SiemLog at the level of JSON trees | induction on values |
| C87 | Logs in JSON: what is written and what is read | Serialize/Deserialize of SiemIp, SiemField, SiemLog at the level of JSON trees | induction on values |
| C88 | Commands in JSON | derived and hand-written serde of commands, responses, task definitions, messages | induction on values; readers opened key by key |
| C89 | Command responses in JSON | derived and hand-written serde of commands, responses, task definitions, messages | induction on values; readers opened key by key |
| C90 | Task definitions in JSON | derived and hand-written serde of commands, responses, task definitions, messages | induction on values; readers opened key by key |
| C91 | Rules in JSON | serde of rules; regex compilation as a parameter | nested induction on operators |
| C92 | Messages in JSON | derived and hand-written serde of commands, responses, task definitions, messages | induction on values; readers opened key by key |
| C93 | Metrics in JSON | Serialize of metrics, datasets, use cases, capabilities | unfolding |
| C94 | Datasets, use cases and capabilities in JSON | Serialize of metrics, datasets, use cases, capabilities | unfolding |
| C95 | Structured events in JSON | serde of SiemEvent (internally tagged) | case analysis per event kind |
| C96 | Only dotted quads are accepted as IPv4 addresses | as for C02 | counterexample run through the model (see Faults) |
| C97 | The IPv6 parser accepts exactly the valid texts | as for C04 | counterexample run through the model (see Faults) |
| C98 | MAC text round trip for any width | as for C08, C07 | counterexample run through the model (see Faults) |
| C99 | Field equality is an equivalence relation | as for C10 | counterexample run through the model (see Faults) |
| C100 | Equal fields hash equally | as for C11 | counterexample run through the model (see Faults) |
| C101 | Substring predicate on assets | as for C12 | counterexample run through the model (see Faults) |
| C102 | No conversion changes a number | as for C13 | counterexample run through the model (see Faults) |
| C103 | Typed reads are transparent after edits in place | as for C15, C193 | counterexample run through the model (see Faults) |
| C104 | ip_fields reports nothing but fields holding an IP | as for C16, C193 | counterexample run through the model (see Faults) |
| C105 | Tags are found as they were given | as for C17 | counterexample run through the model (see Faults) |
| C106 | The creation time set is read back | as for C18 | counterexample run through the model (see Faults) |
| C107 | The default schema keeps the timestamps | as for C20 | counterexample run through the model (see Faults) |
| C108 | DNS queries keep their data when turned into a log | as for C22 | counterexample run through the model (see Faults) |
| C109 | Histogram get_count reads the requested bucket | as for C25 | counterexample run through the model (see Faults) |
| C110 | Label combinations enumerate the Cartesian product | as for C26 | counterexample run through the model (see Faults) |
| C111 | Prometheus exposition of histograms and unusual label values can be read back | as for C27 | counterexample run through the model (see Faults) |
| C112 | An empty batch of updates is harmless | as for C32 | counterexample run through the model (see Faults) |
| C113 | Network lookup is complete and prefers the most specific network | as for C34, C33 | counterexample run through the model (see Faults) |
| C114 | Synchronised dataset writes are delivered or reported | as for C35, C84, C195, C196 | counterexample run through the model (see Faults) |
| C115 | Calendar lookups are complete | as for C36 | counterexample run through the model (see Faults) |
| C116 | GeoIP dataset conversion | as for C39 | counterexample run through the model (see Faults) |
| C117 | State storage file ranges | as for C45 | counterexample run through the model (see Faults) |
| C118 | Rule matching | as for C46 | counterexample run through the model (see Faults) |
| C119 | Sigma wildcards, other modifiers and nulls are translated faithfully | as for C47 | counterexample run through the model (see Faults) |
| C120 | Numbers that start with 0 are tokens | as for C51 | counterexample run through the model (see Faults) |
| C121 | One-sided and escaped wildcards in query strings | as for C52 | counterexample run through the model (see Faults) |
| C122 | The HTTP method PUT | as for C55 | counterexample run through the model (see Faults) |
| C123 | GeoIP on-disk keys are collision free | as for C58 | counterexample run through the model (see Faults) |
| C124 | MAC parsers are total and width-exact | as for C59 | counterexample run through the model (see Faults) |
| C125 | IPv6 text round trip | as for C60 | counterexample run through the model (see Faults) |
| C126 | The default schema covers the structured events | as for C62 | counterexample run through the model (see Faults) |
| C127 | Gauges keep decimals | as for C63 | counterexample run through the model (see Faults) |
| C128 | Accepted metric definitions encode cleanly | as for C64 | counterexample run through the model (see Faults) |
| C129 | Scrapes racing with observations are consistent | as for C65 | counterexample run through the model (see Faults) |
| C130 | The on-disk GeoIP dataset answers soundly | as for C66 | counterexample run through the model (see Faults) |
| C131 | A stop command takes effect however the logs flow | as for C68, C41 | counterexample run through the model (see Faults) |
| C132 | Due ticks are performed | as for C69, C42 | counterexample run through the model (see Faults) |
| C133 | A component without log channels processes each log once | as for C70, C40 | counterexample run through the model (see Faults) |
| C134 | Displayed task types are distinct | as for C72 | counterexample run through the model (see Faults) |
| C135 | Trigger groups of a rule | as for C73, C46 | counterexample run through the model (see Faults) |
| C136 | Sigma lists of maps | as for C74 | counterexample run through the model (see Faults) |
| C137 | References in alert texts | as for C76 | counterexample run through the model (see Faults) |
| C138 | Comparing rule operators | as for C78 | counterexample run through the model (see Faults) |
| C139 | Tactics named in Sigma tags | as for C79, C56 | counterexample run through the model (see Faults) |
| C140 | Whole queries with numbers from 0 and one-sided wildcards | as for C81 | counterexample run through the model (see Faults) |
| C141 | Synchronised datasets, end to end | as for C84, C195 | counterexample run through the model (see Faults) |
| C142 | Addresses in JSON round trip | as for C85 | counterexample run through the model (see Faults) |
| C143 | Field values in JSON round trip | as for C86 | counterexample run through the model (see Faults) |
| C144 | Logs in JSON round trip | as for C87 | counterexample run through the model (see Faults) |
| C145 | Commands with addresses in JSON round trip | as for C88 | counterexample run through the model (see Faults) |
| C146 | Query responses in JSON round trip | as for C89 | counterexample run through the model (see Faults) |
| C147 | Task definitions in JSON keep their function and must be complete | as for C90 | counterexample run through the model (see Faults) |
| C148 | Rules in JSON round trip | as for C91 | counterexample run through the model (see Faults) |
| C149 | All messages in JSON round trip | as for C92 | counterexample run through the model (see Faults) |
| C150 | Metrics in JSON have one shape | as for C93 | counterexample run through the model (see Faults) |
| C151 | The steps of use cases in JSON | as for C94 | counterexample run through the model (see Faults) |
| C152 | Structured events in JSON round trip | as for C95 | counterexample run through the model (see Faults) |
| C153 | JSON objects are read by their keys | all struct readers | a record by_keys in Spec, proved for each reader |
| C154 | Components sharing log channels take each log once and in order | several component loops over shared log channels (Model/Fleet.v), on top of the loop of one component | invariants over runs of any interleaving; the run of one component inside the fleet is a run of the component alone; induction on the stages |
| C155 | A pipeline of components loses and invents no logs | several component loops over shared log channels (Model/Fleet.v), on top of the loop of one component | invariants over runs of any interleaving; the run of one component inside the fleet is a run of the component alone; induction on the stages |
| C156 | A pipeline with one component per stage keeps the order | several component loops over shared log channels (Model/Fleet.v), on top of the loop of one component | invariants over runs of any interleaving; the run of one component inside the fleet is a run of the component alone; induction on the stages |
| C157 | Closing the input of a pipeline shuts it down without loss | as C154; channel ends dropped when a component is | invariant (a component returned only if its input is closed and empty), then induction on stages |
| C158 | A pipeline comes to rest | as C154 | a potential that every step but ticks decreases |
| C159 | The test parsers | the three test parsers (Model/Testing.v) on the model of logs; datasets, which they do not read, are left out | case analysis, field lookups after insertion; C165 by computation |
| C160 | Parsing errors in JSON | LogParsingError with its derived JSON, on the JSON of logs | case analysis over the kinds |
| C161 | The test harness stops a component after the action | the messages of the harness as one of two interleaved senders, on the loop of one component | invariant of the loop (messages are taken in order); last action of an interleaving; a potential for the bound |
| C162 | Schemas in JSON | derived Serialize of schemas | injectivity, field by field |
| C163 | The predefined tags | the tags as a list; the name generators as functions of the clock | lookup after insertion; arithmetic modulo 2^16 |
| C164 | Names made by the default generators | the tags as a list; the name generators as functions of the clock | lookup after insertion; arithmetic modulo 2^16 |
| C165 | The generator of the test parser for texts | the three test parsers (Model/Testing.v) on the model of logs; datasets, which they do not read, are left out | case analysis, field lookups after insertion; C165 by computation |
| C166 | The documents on the wire | the writers of Model/JsonCommand.v and Model/JsonRule.v | equality with documents written out in Spec/WireSpec.v; structural induction over rule operators |
| C167 | Errors of dataset conversions name the kind | the conversions of Model/Holder.v | case analysis over all dataset types |
| C168 | What errors say | the error results of Model/IpUtils.v, Field.v and Metrics.v | induction over the parts of the text; case analysis |
| C169 | New queries and headers | the constructors of Model/Command.v | arithmetic on the bounds |
| C170 | Scraped counters and histograms never go backwards | the atomic cells of Model/Metrics.v at two points of one interleaving | sums over a prefix; C171 by computation on a schedule |
| C171 | No increment makes a counter go backwards | the atomic cells of Model/Metrics.v at two points of one interleaving | sums over a prefix; C171 by computation on a schedule |
| C172 | The series of a histogram vec are independent | a vec of histograms, each action addressed to one series | projection of an interleaving to one series is an interleaving |
| C173 | Dates are shown as RFC 3339 times | the calendar and the RFC 3339 writer of chrono (Model/Date.v), given to the Display of Model/Field.v | a closed form of the day number, periodic over 400 years; one period checked by the kernel day by day; digits by induction. The calendar of the specification counts days one by one |
| C174 | Different dates are different | the calendar and the RFC 3339 writer of chrono (Model/Date.v), given to the Display of Model/Field.v | a closed form of the day number, periodic over 400 years; one period checked by the kernel day by day; digits by induction. The calendar of the specification counts days one by one |
| C175 | What is read fits its type | the readers and writers of JSON (Model/JsonField.v, JsonCommand.v, JsonRule.v, JsonEvent.v) | what each combinator of readers guarantees, composed; induction on the JSON tree; C176 from C175 and the round trips of C86 to C92 |
| C176 | What was received can be passed on | the readers and writers of JSON (Model/JsonField.v, JsonCommand.v, JsonRule.v, JsonEvent.v) | what each combinator of readers guarantees, composed; induction on the JSON tree; C176 from C175 and the round trips of C86 to C92 |
| C177 | User identifiers tell the user | generate_user_id of Model/Field.v | induction on the domain; C178 by a pair of users for every place of a bar |
| C178 | User identifiers are unambiguous | generate_user_id of Model/Field.v | induction on the domain; C178 by a pair of users for every place of a bar |
| C179 | Sigma rules survive JSON | the derived readers and writers of Sigma rules, with the flattened identifiers and the untagged values, and of AlertDictionary (Model/JsonSigma.v) | induction on the JSON tree and on values; a relation between documents and what they mean (Spec/SigmaJsonSpec.v) that the reader is shown to follow |
| C180 | Every written Sigma rule is read | the derived readers and writers of Sigma rules, with the flattened identifiers and the untagged values, and of AlertDictionary (Model/JsonSigma.v) | induction on the JSON tree and on values; a relation between documents and what they mean (Spec/SigmaJsonSpec.v) that the reader is shown to follow |
| C181 | Sigma documents are read | the derived readers and writers of Sigma rules, with the flattened identifiers and the untagged values, and of AlertDictionary (Model/JsonSigma.v) | induction on the JSON tree and on values; a relation between documents and what they mean (Spec/SigmaJsonSpec.v) that the reader is shown to follow |
| C182 | Alert dictionaries survive JSON | the derived readers and writers of Sigma rules, with the flattened identifiers and the untagged values, and of AlertDictionary (Model/JsonSigma.v) | induction on the JSON tree and on values; a relation between documents and what they mean (Spec/SigmaJsonSpec.v) that the reader is shown to follow |
| C183 | Expositions say what they are | the encoders of Model/Metrics.v | texts made of lines without comments are closed under concatenation; the lines of the header are read back |
| C184 | Declared types are types of the format | the encoders of Model/Metrics.v | texts made of lines without comments are closed under concatenation; the lines of the header are read back |
| C185 | Stored GeoIP records are found as they were stored | Model/GeoIp.v: the record, its JSON and the on-disk dataset of records | the tree of JSON texts is the image of the tree of records; writing and reading one record; how floats of 32 bits are written is a parameter |
| C186 | Lookups of GeoIP records do not abort | Model/GeoIp.v: the record, its JSON and the on-disk dataset of records | the tree of JSON texts is the image of the tree of records; writing and reading one record; how floats of 32 bits are written is a parameter |
| C187 | What is written is within the reader's nesting limit | Model/JsonText.v: the nesting of JSON trees and the limit of serde_json's reader; the writers of all documents | a bound on the nesting of each writer, exact for rules and Sigma rules by induction on operators and values |
| C188 | Rules are read however deeply their operators nest | Model/JsonText.v: the nesting of JSON trees and the limit of serde_json's reader; the writers of all documents | a bound on the nesting of each writer, exact for rules and Sigma rules by induction on operators and values |
| C189 | Converted Sigma rules ask what the Sigma rule asks | from_sigma of Model/Sigma.v with the evaluation of Model/Rule.v | the translation of entries (C47, C74, C75) composed over identifiers; what a converted entry is, by cases on its value, and that evaluation of it is never yes (C46) |
| C190 | A Sigma rule detects the logs it describes | from_sigma of Model/Sigma.v with the evaluation of Model/Rule.v | the translation of entries (C47, C74, C75) composed over identifiers; what a converted entry is, by cases on its value, and that evaluation of it is never yes (C46) |
| C191 | Addresses are printed in their recommended form | ipv4_to_str of Model/IpUtils.v and std's Display for Ipv6Addr in Model/Ip.v | an invariant of the loop that looks for the longest run; numerals by induction on their digits; uniqueness from the specification alone |
| C192 | Documents are written as JSON texts | Model/JsonText.v: serde_json's two formatters (trusted reading of the crate); the writers of all documents | the grammar of RFC 8259 as a relation between texts and trees; that a text has one reading by mutual induction on values, elements and members; that what is written is a reading of the tree by induction on the tree; that floats are finite by cases on the writers |
| C193 | What typed reads answer when fields are also edited in place | Model/Log.v and apply of Model/Schema.v | a relation between histories and answers (Spec/LogEditSpec.v) that every history satisfies once, by induction on the history from its end; what each step keeps of a field, by cases |
| C194 | Stopping some components of a pipeline loses no logs | as C154 | who is not dropped still receives, so no send is refused; at rest, induction from the last stage to the first |
| C195 | What a synchronised dataset keeps when its channel overflows | as C84 | the history without the calls that are not heard never overflows the channel and runs alike, by induction; then C84 |
| C196 | Rules that were accepted are published | the rules dataset and its channel in Model/Datasets.v; a timed insertion is interleaved with the owner only; it is shown to be calls of try_insert, which are interleaved with everybody | an invariant of the steps: accepted = published, received, waiting |

## Faults of the code

Each is the reason a property below is `partial`: the theorem `Cnn_…_refuted` exhibits inputs on which the model of the unchanged code violates it. The ids in brackets say, exactly, what holds instead.

* **C80** From<SigmaRule> for SiemRule never looks at detection.condition: rules that differ only in it convert to the same rule, without trigger groups. Nothing of the property holds.
* **C82** read_literal and read_string stop at the end of the input as at a closing quote: the unterminated string is returned as a token, then EOF.
* **C96** ipv4_from_str pads missing octets: '1.2' is read as 0.0.1.2. [C02]
* **C97** ipv6_from_str refuses every text longer than 38 characters, so the 39 character ones with eight full groups, and accepts '::1:'. [C04]
* **C98** mac_u128_to_str chooses the width by the value, so leading zero octets are lost; mac_str_to_u128 does not compute the value of 16 octets. [C08, C07]
* **C99** PartialEq for SiemField: a number, date, array, path or null equals every text but not conversely; arrays are compared as joined texts; any two paths are equal. [C10]
* **C100** Hash feeds the variant's own data, equality compares across variants (text against address, number, array). [C11]
* **C101** contains_str on AssetID answers true whatever the argument. [C12]
* **C102** 'as' casts: -1 becomes 2^64-1, 2^63 becomes -2^63, 2^53+1 loses its last bit. [C13]
* **C103** field_mut and iter_mut hand out the value without clearing the cached conversions. [C15, C193]
* **C104** Insert never removes a name from the list of address fields, and ip_fields stops at the first listed name that is gone. [C16, C193]
* **C105** add_tag stores the lower-cased text, has_tag looks up the text as given. [C17]
* **C106** set_event_created stores an I64, event_created only reads a Date: the answer is always 0. [C18]
* **C107** The schema declares event_created and event_received, logs use event.created and event.received. [C20]
* **C108** From<DnsEvent> writes dns.answer.data for answers only. [C22]
* **C109** get_count compares le >= bucket bound, so it stops at the first bucket not above le. [C25]
* **C110** The odometer of label_combinations takes the size of the wrong label: with sizes 2, 2, 3 rows repeat and choices are missing. [C26]
* **C111** Bucket bounds are written without quotes (le=1), which is not Prometheus text; label values are not escaped. [C27]
* **C112** The apply functions unwrap the first update: an empty batch aborts. [C32]
* **C113** The lookup loop of IpNetDataset::get starts at the number of trailing zeros and ends before the width: a /32 is never found, an address with more trailing zeros than the prefix length is not found, and the shortest matching prefix wins. [C34, C33]
* **C114** The Syn datasets use try_send and drop the error; empty() makes a dataset without receiver. [C35, C84, C195, C196]
* **C115** CalendarDataset::insert ends the first of several days at the beginning of that day (day * 86400000), before its start: nothing is found on that day (only midnight itself, for a start at midnight). [C36]
* **C116** TryFrom<(SiemDatasetType, GeoIpDataset)> has the test the wrong way round: refused for GeoIp and accepted for every other type. [C39]
* **C117** get_file_range refuses stop = length; set_file_range replaces the whole file by the content. [C45]
* **C118** RuleCondition::matches is todo!() for every operator on a present field except Exists and IsNull; a negated condition on an absent field is false. [C46]
* **C119** parse_rule_condition: a leading wildcard becomes StartsWith, wildcards on both sides cut the last byte, unknown modifiers become All([]), lists under startswith/endswith are printed, inner wildcards are literal, null aborts under modifiers and in lists. [C47]
* **C120** The end of the query is the character '0' in the lexer, so a number that starts with 0 ends the query. [C51]
* **C121** read_string swaps StartsWith and EndsWith, and treats escaped asterisks as wildcards or keeps their backslash. [C52]
* **C122** FromStr for HttpMethod has no arm for PUT. [C55]
* **C123** get_key writes the length of an IPv6 network over address bytes that then hide it: 2001::/16 and 2001::/32 share a key; 128.0.0.0/1 and 8000::/1 too. [C58]
* **C124** A part between separators may have any number of hex digits: 64-bit shifts overflow (abort), 48-bit values exceed 48 bits; extra parts are ignored. [C59]
* **C125** ipv6_to_str prints ::ffff:a.b.c.d, which the parser never accepts, and 39 character texts, which it refuses. [C60]
* **C126** get_default_schema declares no dns.answer.data, and dhcp.requested_ip where the conversion writes requested_ip: applying the schema drops both fields. [C62]
* **C127** Set multiplies by 100000 and truncates: some values with five decimals lose one unit. [C63]
* **C128** valid_description accepts a line break, which ends the HELP line in the exposition. [C64]
* **C129** The encoder reads the count before the buckets; observations in between show in the buckets only. [C65]
* **C130** Because keys collide (C123), 2001:1::1 is found in 2001::/32. [C66]
* **C131** process_log sends with a blocking send: while the output is full the component does not look at its messages. [C68, C41]
* **C132** The deadline is only looked at when no message and no log is ready. [C69, C42]
* **C133** SimpleComponent::new connects the log output to the log input; without set_log_channel every forwarded log comes back, and the second one blocks the component on itself. [C70, C40]
* **C134** TaskType::OTHER displays its name, which may be that of a predefined type. [C72]
* **C135** SiemRule::matches requires every condition of every subrule and never reads the trigger groups. [C73, C46]
* **C136** From<SigmaRuleCondition> for SiemSubRule puts the conditions of all maps of a list into one subrule, which requires all. [C74]
* **C137** transform_alert_content ends a reference only at a space: a comma, bracket or line end becomes part of the name. [C76]
* **C138** Derived equality of operators uses the equality of fields (C99). [C78]
* **C139** MitreTactics::try_from knows the identifiers and command_and_control; the other tactic names are refused, so their tags are dropped. [C79, C56]
* **C140** See C120 and C121. [C81]
* **C141** An overflowing channel loses updates silently (C114). [C84, C195]
* **C142** SiemIp is written as text by its own Serialize but read by the derived Deserialize as {"V4": n}. [C85]
* **C143** SiemField is untagged: domains, users, assets, paths and dates come back as texts and numbers, addresses as texts, non-negative I64 as U64, non-finite floats as null. [C86]
* **C144** SiemLog is flattened when written, but read as a map of {"original": ...} objects. [C87]
* **C145** Commands that carry an address cannot be read because of C142. [C88]
* **C146** Rows hold field values, which change as in C143. [C89]
* **C147** The reader of TaskDefinition replaces the builder by a stub and takes defaults for missing keys. [C90]
* **C148** A network test carries an address and is unreadable (C142); values in comparisons change (C143). [C91]
* **C149** Datasets cannot be written, logs and alerts of usual logs cannot be read (C144), commands with addresses neither (C145). [C92]
* **C150** Counters write metric_type and valuess, gauges metric_type and values, histograms type and value. [C93]
* **C151** SiemAutomatedStep's Serialize leaves out the action. [C94]
* **C152** A protocol with a text cannot be written internally tagged; addresses are unreadable (C142); no 128-bit MAC is read from buffered content, so no DHCP event at all; an entry event_type in a JSON event clashes with the tag; null becomes {}. [C95]
* **C174** A time outside chrono's range is shown as 1970-01-01T00:00:00.000Z, so these dates all equal each other and the epoch. [C173]
* **C180** The identifiers are flattened into the object that also has the member condition, so an identifier of that name gives a duplicate member, which is refused. [C179]
* **C181** SigmaRuleCondition has no list of keywords and SigmaValue no boolean, and every member but condition must be an identifier: keyword lists, truth values and timeframe are refused. [C179]
* **C184** The type of a histogram is written 'histogram ' with a blank before the end of the line, and the rest of the line is the type. [C183]
* **C186** A latitude or longitude that is infinite or not a number is written as null, which is not read as a number, and the reader unwraps: every lookup that finds the record aborts. [C185]
* **C188** A rule with 123 operators inside each other, such as negations, is written but not read from the text: serde_json's reader refuses the 128th array or object inside each other. [C187]
* **C190** A converted Sigma rule with any test on a value never answers yes on a log: its tests are operators whose evaluation answers no or aborts. Only rules that ask for nothing but absent fields answer rightly. [C189]
* **C178** The domain and the name are joined with a bar that neither is checked for: domain a|b with name c and domain a with name b|c give the same identifier. [C177]
* **C171** inc_by takes negative numbers, and the cell wraps around past 2^63 - 1. [C170]
* **C167** Five of the conversions into SiemDataset say 'IpMapSynDataset not valid for this type' for every kind of dataset. [C39]
* **C165** The generator makes the text 'This is a dummy log', which does not contain DUMMY. [C159]

## What is modelled

Every function of these files, at the level said above: `utilities/{ip_utils,mac,rule_selector}.rs`; `events/{ip,field,ifield,log,schema,base_schema,event,firewall,intrusion,webproxy,webserver,auth,dns,dhcp,protocol,common,field_dictionary}.rs`; `components/metrics/{mod,counter,gauge,histogram,prometheus}.rs`; `components/dataset/*` (with `geo_ip/slow.rs` over a sorted map in place of `sled`); `components/{simplified,kernel_message,storage,command,command_types,common,task,alert,use_case,mitre}.rs`; `components/rule/{mod,sigma}.rs`; `components/query/mod.rs`; `logging/{mod,macros}.rs`; `err.rs`; `components/parsing.rs`, `events/tags.rs`, `testing/{mod,parsers}.rs`. Several components over shared log channels are put together in `Model/Fleet.v`. Simplifications are stated at each definition; the ones that matter:

* **Channels** (crossbeam): a FIFO with a capacity, and disconnection. `select!`, timeouts and the order of threads are adversarial choices of the schedule.
* **Threads and atomics**: each atomic operation is one step; theorems quantify over all interleavings of the steps (sequential consistency; the code uses `Ordering::SeqCst` and `Relaxed` on single counters, for which the modification order is the same).
* **Time**: an argument.
* **Floats**: `f64` and `f32` arithmetic is Coq's `SpecFloat` (IEEE 754, round to nearest even). Printing and parsing of floats is a parameter (`float_io`) with the hypotheses stated in the theorems that need it: a printed float is read back.
* **serde and serde_json**: the derive macros and serde_json's data model, on JSON *trees*; the rules the derive macros follow are written at the top of `Model/Json.v` and `Model/JsonEvent.v` and are part of the reading of the code. JSON as text is modelled as far as it is written (`Model/JsonText.v`: serde_json's two formatters) and as a grammar that says which tree a text stands for (`Spec/JsonTextSpec.v`); that serde_json's parser follows the grammar is trusted, but for the limit on how deeply a text nests, which is modelled. How floats are printed is a parameter.
* **YAML** for Sigma: the tree `serde_yaml::Value`; the text level is not modelled.
* **Regular expressions**: the two of the metrics are modelled by their language; the expressions in rules are compiled by a function given as a parameter.
* **std**: `Ipv4Addr`/`Ipv6Addr` display, integer parsing and printing, `str` functions, `BTreeMap`, as in their documentation.

Not modelled: `sled`, `chrono` except its date texts (Model/Date.v), real sockets, clocks and memory; `components/enrichment.rs` (a trait without code), `components/metrics/summary.rs` (a private struct nothing uses), `utilities/http_utils.rs` (constants).

## Trusted base

* Coq's kernel (8.16.1) and its VM (`vm_compute`). No native compiler, no plugins but those of the standard library.
* The reading of the Rust code: nothing is extracted or executed; each definition cites its source.
* Assumptions: `Print Assumptions` after every theorem prints `Closed under the global context`. No axiom of the standard library is used by any theorem. `vcheck` (coqchk) lists seven constants `Coq.ssr.ssrunder.Under_rel.{Under_rel, Under_rel_from_rel, Under_relE, Over_rel, over_rel, over_rel_done, under_rel_done}`: they are the fields of a module type in the standard library's ssreflect support, loaded with the library; no theorem depends on them.
* Imports are from `Coq` (the standard library) only.

## Testing the model

`Props/RepoTests.v` runs the repository's own unit tests on the model: every assertion of those tests, with the arguments and the results their authors wrote, is an `Example` there (the sigma rules of the test data included). They are checks that the model follows the code, not proofs. One of them shows something the tests hide: the rule test reads a rule with an address back from JSON and only looks whether it can be read; on the model the address has become its text, as C91 says.

## Testing the theorems

`tools/mutate.py` copies the development, edits one definition of the model and rebuilds what depends on it, admitting the proofs that break; afterwards `Print Assumptions` tells which property theorems rest on a broken proof. `seeded/LOG.jsonl` has one line per attempt; where a wrong program survived, the line names the theorems added or tightened, and a later line repeats the attempt. Besides these hand-written edits, `tools/automutate.py` makes every small edit of a fixed set (numbers, comparisons, connectives, literals, swapped or dropped parts) in the definitions of the model; `seeded/sweep_1.jsonl` has the verdict for each well-typed one, and the survivors that were not equivalent programs became entries of the log and tighter theorems. `seeded/sweep_2.jsonl` has the verdicts of a second sweep over a copy without the `Example`s, so that only theorems for all inputs could notice an edit.
