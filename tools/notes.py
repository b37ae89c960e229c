"""Notes of MANIFEST.json. FAULT[id] = (what the code does, ids of the properties that say what holds instead)."""
FAULT = {
'C80': ("From<SigmaRule> for SiemRule never looks at detection.condition: rules that differ only in it convert to the same rule, without trigger groups. Nothing of the property holds.", []),
'C82': ("read_literal and read_string stop at the end of the input as at a closing quote: the unterminated string is returned as a token, then EOF.", []),
'C96': ("ipv4_from_str pads missing octets: '1.2' is read as 0.0.1.2.", ['C02']),
'C97': ("ipv6_from_str refuses every text longer than 38 characters, so the 39 character ones with eight full groups, and accepts '::1:'.", ['C04']),
'C98': ("mac_u128_to_str chooses the width by the value, so leading zero octets are lost; mac_str_to_u128 does not compute the value of 16 octets.", ['C08', 'C07']),
'C99': ("PartialEq for SiemField: a number, date, array, path or null equals every text but not conversely; arrays are compared as joined texts; any two paths are equal.", ['C10']),
'C100': ("Hash feeds the variant's own data, equality compares across variants (text against address, number, array).", ['C11']),
'C101': ("contains_str on AssetID answers true whatever the argument.", ['C12']),
'C102': ("'as' casts: -1 becomes 2^64-1, 2^63 becomes -2^63, 2^53+1 loses its last bit.", ['C13']),
'C103': ("field_mut and iter_mut hand out the value without clearing the cached conversions.", ['C15', 'C193']),
'C104': ("insert never removes a name from the list of address fields, and ip_fields stops at the first listed name that is gone.", ['C16', 'C193']),
'C105': ("add_tag stores the lower-cased text, has_tag looks up the text as given.", ['C17']),
'C106': ("set_event_created stores an I64, event_created only reads a Date: the answer is always 0.", ['C18']),
'C107': ("the schema declares event_created and event_received, logs use event.created and event.received.", ['C20']),
'C108': ("From<DnsEvent> writes dns.answer.data for answers only.", ['C22']),
'C109': ("get_count compares le >= bucket bound, so it stops at the first bucket not above le.", ['C25']),
'C110': ("the odometer of label_combinations takes the size of the wrong label: with sizes 2, 2, 3 rows repeat and choices are missing.", ['C26']),
'C111': ("bucket bounds are written without quotes (le=1), which is not Prometheus text; label values are not escaped.", ['C27']),
'C112': ("the apply functions unwrap the first update: an empty batch aborts.", ['C32']),
'C113': ("the lookup loop of IpNetDataset::get starts at the number of trailing zeros and ends before the width: a /32 is never found, an address with more trailing zeros than the prefix length is not found, and the shortest matching prefix wins.", ['C34', 'C33']),
'C114': ("the Syn datasets use try_send and drop the error; empty() makes a dataset without receiver.", ['C35', 'C84', 'C195', 'C196']),
'C115': ("CalendarDataset::insert ends the first of several days at the beginning of that day (day * 86400000), before its start: nothing is found on that day (only midnight itself, for a start at midnight).", ['C36']),
'C116': ("TryFrom<(SiemDatasetType, GeoIpDataset)> has the test the wrong way round: refused for GeoIp and accepted for every other type.", ['C39']),
'C117': ("get_file_range refuses stop = length; set_file_range replaces the whole file by the content.", ['C45']),
'C118': ("RuleCondition::matches is todo!() for every operator on a present field except Exists and IsNull; a negated condition on an absent field is false.", ['C46']),
'C119': ("parse_rule_condition: a leading wildcard becomes StartsWith, wildcards on both sides cut the last byte, unknown modifiers become All([]), lists under startswith/endswith are printed, inner wildcards are literal, null aborts under modifiers and in lists.", ['C47']),
'C120': ("the end of the query is the character '0' in the lexer, so a number that starts with 0 ends the query.", ['C51']),
'C121': ("read_string swaps StartsWith and EndsWith, and treats escaped asterisks as wildcards or keeps their backslash.", ['C52']),
'C122': ("FromStr for HttpMethod has no arm for PUT.", ['C55']),
'C123': ("get_key writes the length of an IPv6 network over address bytes that then hide it: 2001::/16 and 2001::/32 share a key; 128.0.0.0/1 and 8000::/1 too.", ['C58']),
'C124': ("a part between separators may have any number of hex digits: 64-bit shifts overflow (abort), 48-bit values exceed 48 bits; extra parts are ignored.", ['C59']),
'C125': ("ipv6_to_str prints ::ffff:a.b.c.d, which the parser never accepts, and 39 character texts, which it refuses.", ['C60']),
'C126': ("get_default_schema declares no dns.answer.data, and dhcp.requested_ip where the conversion writes requested_ip: applying the schema drops both fields.", ['C62']),
'C127': ("set multiplies by 100000 and truncates: some values with five decimals lose one unit.", ['C63']),
'C128': ("valid_description accepts a line break, which ends the HELP line in the exposition.", ['C64']),
'C129': ("the encoder reads the count before the buckets; observations in between show in the buckets only.", ['C65']),
'C130': ("because keys collide (C123), 2001:1::1 is found in 2001::/32.", ['C66']),
'C131': ("process_log sends with a blocking send: while the output is full the component does not look at its messages.", ['C68', 'C41']),
'C132': ("the deadline is only looked at when no message and no log is ready.", ['C69', 'C42']),
'C133': ("SimpleComponent::new connects the log output to the log input; without set_log_channel every forwarded log comes back, and the second one blocks the component on itself.", ['C70', 'C40']),
'C134': ("TaskType::OTHER displays its name, which may be that of a predefined type.", ['C72']),
'C135': ("SiemRule::matches requires every condition of every subrule and never reads the trigger groups.", ['C73', 'C46']),
'C136': ("From<SigmaRuleCondition> for SiemSubRule puts the conditions of all maps of a list into one subrule, which requires all.", ['C74']),
'C137': ("transform_alert_content ends a reference only at a space: a comma, bracket or line end becomes part of the name.", ['C76']),
'C138': ("derived equality of operators uses the equality of fields (C99).", ['C78']),
'C139': ("MitreTactics::try_from knows the identifiers and command_and_control; the other tactic names are refused, so their tags are dropped.", ['C79', 'C56']),
'C140': ("see C120 and C121.", ['C81']),
'C141': ("an overflowing channel loses updates silently (C114).", ['C84', 'C195']),
'C142': ("SiemIp is written as text by its own Serialize but read by the derived Deserialize as {\"V4\": n}.", ['C85']),
'C143': ("SiemField is untagged: domains, users, assets, paths and dates come back as texts and numbers, addresses as texts, non-negative I64 as U64, non-finite floats as null.", ['C86']),
'C144': ("SiemLog is flattened when written, but read as a map of {\"original\": ...} objects.", ['C87']),
'C145': ("commands that carry an address cannot be read because of C142.", ['C88']),
'C146': ("rows hold field values, which change as in C143.", ['C89']),
'C147': ("the reader of TaskDefinition replaces the builder by a stub and takes defaults for missing keys.", ['C90']),
'C148': ("a network test carries an address and is unreadable (C142); values in comparisons change (C143).", ['C91']),
'C149': ("datasets cannot be written, logs and alerts of usual logs cannot be read (C144), commands with addresses neither (C145).", ['C92']),
'C150': ("counters write metric_type and valuess, gauges metric_type and values, histograms type and value.", ['C93']),
'C151': ("SiemAutomatedStep's Serialize leaves out the action.", ['C94']),
'C152': ("a protocol with a text cannot be written internally tagged; addresses are unreadable (C142); no 128-bit MAC is read from buffered content, so no DHCP event at all; an entry event_type in a JSON event clashes with the tag; null becomes {}.", ['C95']),
'C174': ("a time outside chrono's range is shown as 1970-01-01T00:00:00.000Z, so these dates all equal each other and the epoch.", ['C173']),
'C180': ("the identifiers are flattened into the object that also has the member condition, so an identifier of that name gives a duplicate member, which is refused.", ['C179']),
'C181': ("SigmaRuleCondition has no list of keywords and SigmaValue no boolean, and every member but condition must be an identifier: keyword lists, truth values and timeframe are refused.", ['C179']),
'C184': ("the type of a histogram is written 'histogram ' with a blank before the end of the line, and the rest of the line is the type.", ['C183']),
'C186': ("a latitude or longitude that is infinite or not a number is written as null, which is not read as a number, and the reader unwraps: every lookup that finds the record aborts.", ['C185']),
'C188': ("a rule with 123 operators inside each other, such as negations, is written but not read from the text: serde_json's reader refuses the 128th array or object inside each other.", ['C187']),
'C190': ("a converted Sigma rule with any test on a value never answers yes on a log: its tests are operators whose evaluation answers no or aborts. Only rules that ask for nothing but absent fields answer rightly.", ['C189']),
'C178': ("the domain and the name are joined with a bar that neither is checked for: domain a|b with name c and domain a with name b|c give the same identifier.", ['C177']),
'C171': ("inc_by takes negative numbers, and the cell wraps around past 2^63 - 1.", ['C170']),
'C167': ("five of the conversions into SiemDataset say 'IpMapSynDataset not valid for this type' for every kind of dataset.", ['C39']),
'C165': ("the generator makes the text 'This is a dummy log', which does not contain DUMMY.", ['C159']),
}
NOTE = {}
