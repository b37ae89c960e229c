#!/usr/bin/env python3
"""Writes DESIGN.md: the fixed text below, one row per property, and the faults from notes.py."""
import json, os, sys
root = os.path.join(os.path.dirname(os.path.abspath(__file__)), "..")
sys.path.insert(0, os.path.dirname(os.path.abspath(__file__)))
from notes import FAULT
PLAN = {}
def row(ids, modelled, method):
    for i in ids.split(): PLAN[i] = (modelled, method)
row('C01', 'ipv4_to_str, ipv4_from_str', 'arithmetic on four octets; round trip for all n < 2^32')
row('C02', 'ipv4_from_str', 'exact characterisation of the accepted texts and of the value, by induction on the parts')
row('C03', 'ipv6_from_str with explicit panic and fuel', 'loop invariant; the fuel is bounded by the text length')
row('C04', 'ipv6_from_str', 'grammar in Spec/TextSpec.v; the language accepted and the value, both directions, by induction over the groups')
row('C05', 'is_local_*, SiemIp::is_local', 'interval specification, lia')
row('C06', 'parse_ipv4_port, is_ipv4_port', 'from C01 and a lemma on rfind; exact language')
row('C07 C08', 'utilities/mac.rs', 'base-256 digit lists')
row('C09', 'RuleSelector as sorted maps', 'refinement of the inverted index to "number of common words"')
row('C10 C11 C12', 'SiemField: PartialEq, Hash, contains', 'case analysis, nested induction on arrays')
row('C13', 'the TryInto conversions of SiemField, floats as SpecFloat', 'case analysis; number printing and parsing are inverse by induction on digits; rounding to nearest even of SpecFloat proved from its shifts')
row('C14 C15 C16 C17 C18', 'SiemLog, InternalField with its caches', 'operations as a step function; invariants over all histories of operations')
row('C19 C20 C21', 'FieldSchema, get_default_schema (generated table)', 'map laws on sorted association lists')
row('C22', 'From<Event> for SiemLog', 'unfolding into field lists and a "last writer wins" lemma')
row('C23', 'Counter as atomic steps', 'induction over interleavings of threads')
row('C24 C25', 'Histogram', 'induction over observations, floats as SpecFloat')
row('C26', 'label_combinations', 'odometer invariant')
row('C27', 'prometheus.rs encoders', 'a separate parser of the exposition format in Spec; round trip by induction over series')
row('C28 C29', 'with_labels, the two regular expressions', 'list search; regular expressions as an inductive relation and a decision procedure proved equal')
row('C30 C31 C32', 'IP, text and rule datasets with their updates', 'refinement to finite maps, fold laws')
row('C33 C34', 'IpNetDataset, fast GeoIP', 'bit level reasoning with div and mod; the set of found networks is characterised exactly')
row('C35', '*SynDataset over a bounded channel', 'case analysis of try_send, schedules for the timed retry')
row('C36', 'CalendarDataset', 'induction over insertions and days')
row('C37 C38 C39', 'i18n, holder, dataset enum', 'map laws, case analysis')
row('C40 C41 C42', 'SimpleComponent::run as a transition system', 'adversarial schedule; invariant arrived = taken ++ waiting; progress from every state')
row('C43', 'KernelMessager and the logging macros', 'induction over histories')
row('C44 C45', 'TestingStorage, DummyStateStorage', 'refinement to a finite map')
row('C46', 'SiemRule::matches with Panic', 'induction over conditions')
row('C47 C48 C49', 'sigma.rs', 'string lemmas; loop invariants with Panic')
row('C50 C51 C52 C53', 'QueryLexer', 'state invariant; fuel bounded by the text length; maximal munch by induction on the text')
row('C54 C55 C56 C57', 'the tables (generated from the source)', 'exhaustive case analysis')
row('C58', 'keys of the slow GeoIP dataset', 'byte arithmetic')
row('C59', 'the three MAC parsers', 'induction over the parts, with shift overflow as Panic')
row('C60 C61', 'Ipv6Addr display (std), SiemIp', 'grammar of C04 and induction over the groups')
row('C62', 'all conversions and get_default_schema', 'every written name looked up in the generated table')
row('C63', 'Gauge over fixed point atomics', 'interleavings; SpecFloat exactness of whole numbers below 2^53 / 10^5; rounding errors of the product, the truncation and the quotient added up over Q')
row('C64', 'valid_description and the encoders', 'induction on the text')
row('C65', 'Histogram as atomic steps', 'interleavings')
row('C66', 'slow GeoIP over a sorted store (sled as a map)', 'refinement to the fast one')
row('C67', 'Language codes (generated)', 'exhaustive case analysis and a string lemma for all other texts')
row('C68 C69 C70', 'SimpleComponent::run', 'transition system of C40')
row('C71', 'KernelMessager, Notification conversions', 'case analysis over channel states')
row('C72', 'SiemTask, TaskType display', 'case analysis')
row('C73', 'SiemRule::matches against trigger groups', 'induction over subrules')
row('C74 C75', 'from_sigma', 'induction over the YAML tree; panics explicit')
row('C76', 'transform_alert_content', 'loop invariant')
row('C77', 'AlertDictionary', 'map laws')
row('C78', 'derived PartialEq of operators', 'nested induction')
row('C79', 'recognise, tactic_try_from', 'case analysis')
row('C80', 'from_sigma', 'counterexample; nothing of the property holds')
row('C81', 'QueryLexer', 'a printer of token lists in Spec; lexing the printed text returns the tokens')
row('C82', 'QueryLexer', 'counterexample; nothing of the property holds')
row('C83', 'From/TryFrom of metrics', 'case analysis')
row('C84', 'Syn datasets, channel and manager loop', 'induction over schedules of writers, manager and readers')
row('C85 C86 C87', 'Serialize/Deserialize of SiemIp, SiemField, SiemLog at the level of JSON trees', 'induction on values')
row('C88 C89 C90 C92', 'derived and hand-written serde of commands, responses, task definitions, messages', 'induction on values; readers opened key by key')
row('C91', 'serde of rules; regex compilation as a parameter', 'nested induction on operators')
row('C93 C94', 'Serialize of metrics, datasets, use cases, capabilities', 'unfolding')
row('C95', 'serde of SiemEvent (internally tagged)', 'case analysis per event kind')
row('C153', 'all struct readers', 'a record by_keys in Spec, proved for each reader')
HEAD = open(os.path.join(os.path.dirname(os.path.abspath(__file__)), "design_head.md")).read()
TAIL = open(os.path.join(os.path.dirname(os.path.abspath(__file__)), "design_tail.md")).read()
try:
    from design_rows import rows; rows(row)
except ImportError: pass
props = [json.loads(l) for l in open(os.path.join(root, "properties.jsonl"))]
man = {c["property"]: c for c in json.load(open(os.path.join(root, "MANIFEST.json")))["claims"]}
out = [HEAD, "## Plan per property\n", "| id | property | modelled | method |", "|---|---|---|---|"]
missing = []
for p in props:
    i = p["id"]
    if i in PLAN: a, b = PLAN[i]
    elif i in FAULT: a, b = "as for " + ", ".join(FAULT[i][1]), "counterexample run through the model (see Faults)"
    else: missing.append(i); continue
    out.append("| %s | %s | %s | %s |" % (i, p["title"], a, b))
out += ["", "## Faults of the code\n",
  "Each is the reason a property below is `partial`: the theorem `Cnn_…_refuted` exhibits inputs on which the model of the unchanged code violates it. The ids in brackets say, exactly, what holds instead.\n"]
for i, (w, hs) in FAULT.items():
    out.append("* **%s** %s%s" % (i, (w if '_' in w.split()[0] else w[0].upper() + w[1:]), " [%s]" % ", ".join(hs) if hs else ""))
out += ["", TAIL]
open(os.path.join(root, "DESIGN.md"), "w").write("\n".join(out))
print("rows missing:", missing)
