def rows(row):
    row('C154 C155 C156', 'several component loops over shared log channels (Model/Fleet.v), on top of the loop of one component', 'invariants over runs of any interleaving; the run of one component inside the fleet is a run of the component alone; induction on the stages')
    row('C157', 'as C154; channel ends dropped when a component is', 'invariant (a component returned only if its input is closed and empty), then induction on stages')
    row('C158', 'as C154', 'a potential that every step but ticks decreases')
    row('C159 C165', 'the three test parsers (Model/Testing.v) on the model of logs; datasets, which they do not read, are left out', 'case analysis, field lookups after insertion; C165 by computation')
    row('C160', 'LogParsingError with its derived JSON, on the JSON of logs', 'case analysis over the kinds')
    row('C161', 'the messages of the harness as one of two interleaved senders, on the loop of one component', 'invariant of the loop (messages are taken in order); last action of an interleaving; a potential for the bound')
    row('C162', 'derived Serialize of schemas', 'injectivity, field by field')
    row('C163 C164', 'the tags as a list; the name generators as functions of the clock', 'lookup after insertion; arithmetic modulo 2^16')
    row('C166', 'the writers of Model/JsonCommand.v and Model/JsonRule.v', 'equality with documents written out in Spec/WireSpec.v; structural induction over rule operators')
    row('C167', 'the conversions of Model/Holder.v', 'case analysis over all dataset types')
    row('C168', 'the error results of Model/IpUtils.v, Field.v and Metrics.v', 'induction over the parts of the text; case analysis')
    row('C169', 'the constructors of Model/Command.v', 'arithmetic on the bounds')
    row('C170 C171', 'the atomic cells of Model/Metrics.v at two points of one interleaving', 'sums over a prefix; C171 by computation on a schedule')
    row('C172', 'a vec of histograms, each action addressed to one series', 'projection of an interleaving to one series is an interleaving')
    row('C173 C174', 'the calendar and the RFC 3339 writer of chrono (Model/Date.v), given to the Display of Model/Field.v', 'a closed form of the day number, periodic over 400 years; one period checked by the kernel day by day; digits by induction. The calendar of the specification counts days one by one')
    row('C175 C176', 'the readers and writers of JSON (Model/JsonField.v, JsonCommand.v, JsonRule.v, JsonEvent.v)', 'what each combinator of readers guarantees, composed; induction on the JSON tree; C176 from C175 and the round trips of C86 to C92')
    row('C177 C178', 'generate_user_id of Model/Field.v', 'induction on the domain; C178 by a pair of users for every place of a bar')
    row('C179 C180 C181 C182', 'the derived readers and writers of Sigma rules, with the flattened identifiers and the untagged values, and of AlertDictionary (Model/JsonSigma.v)', 'induction on the JSON tree and on values; a relation between documents and what they mean (Spec/SigmaJsonSpec.v) that the reader is shown to follow')
    row('C183 C184', 'the encoders of Model/Metrics.v', 'texts made of lines without comments are closed under concatenation; the lines of the header are read back')
    row('C185 C186', 'Model/GeoIp.v: the record, its JSON and the on-disk dataset of records', 'the tree of JSON texts is the image of the tree of records; writing and reading one record; how floats of 32 bits are written is a parameter')
    row('C187 C188', 'Model/JsonText.v: the nesting of JSON trees and the limit of serde_json\'s reader; the writers of all documents', 'a bound on the nesting of each writer, exact for rules and Sigma rules by induction on operators and values')
    row('C189 C190', 'from_sigma of Model/Sigma.v with the evaluation of Model/Rule.v', 'the translation of entries (C47, C74, C75) composed over identifiers; what a converted entry is, by cases on its value, and that evaluation of it is never yes (C46)')
    row('C191', 'ipv4_to_str of Model/IpUtils.v and std\'s Display for Ipv6Addr in Model/Ip.v', 'an invariant of the loop that looks for the longest run; numerals by induction on their digits; uniqueness from the specification alone')
    row('C192', 'Model/JsonText.v: serde_json\'s two formatters (trusted reading of the crate); the writers of all documents', 'the grammar of RFC 8259 as a relation between texts and trees; that a text has one reading by mutual induction on values, elements and members; that what is written is a reading of the tree by induction on the tree; that floats are finite by cases on the writers')
    row('C193', 'Model/Log.v and apply of Model/Schema.v', 'a relation between histories and answers (Spec/LogEditSpec.v) that every history satisfies once, by induction on the history from its end; what each step keeps of a field, by cases')
    row('C194', 'as C154', 'who is not dropped still receives, so no send is refused; at rest, induction from the last stage to the first')
    row('C195', 'as C84', 'the history without the calls that are not heard never overflows the channel and runs alike, by induction; then C84')
    row('C196', 'the rules dataset and its channel in Model/Datasets.v; a timed insertion is interleaved with the owner only; it is shown to be calls of try_insert, which are interleaved with everybody', 'an invariant of the steps: accepted = published, received, waiting')
