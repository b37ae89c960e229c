## What is modelled

Every function of these files, at the level said above: `utilities/{ip_utils,mac,rule_selector}.rs`; `events/{ip,field,ifield,log,schema,base_schema,event,firewall,intrusion,webproxy,webserver,auth,dns,dhcp,protocol,common,field_dictionary}.rs`; `components/metrics/{mod,counter,gauge,histogram,prometheus}.rs`; `components/dataset/*` (with `geo_ip/slow.rs` over a sorted map in place of `sled`); `components/{simplified,kernel_message,storage,command,command_types,common,task,alert,use_case,mitre}.rs`; `components/rule/{mod,sigma}.rs`; `components/query/mod.rs`; `logging/{mod,macros}.rs`; `err.rs`; `components/parsing.rs`, `events/tags.rs`, `testing/{mod,parsers}.rs`. Several components over shared log channels are put together in `Model/Fleet.v`. Simplifications are stated at each definition; the ones that matter:

* **Channels** (crossbeam): a FIFO with a capacity, and disconnection. `select!`, timeouts and the order of threads are adversarial choices of the schedule.
* **Threads and atomics**: each atomic operation is one step; theorems quantify over all interleavings of the steps (sequential consistency; the code uses `Ordering::SeqCst` and `Relaxed` on single counters, for which the modification order is the same).
* **Time**: an argument.
* **Floats**: `f64` and `f32` arithmetic is Coq's `SpecFloat` (IEEE 754, round to nearest even). Printing and parsing of floats is a parameter (`float_io`) with the hypotheses stated in the theorems that need it: a printed float is read back.
* **serde and serde_json**: the derive macros and serde_json's data model, on JSON *trees*; the rules the derive macros follow are written at the top of `Model/Json.v` and `Model/JsonEvent.v` and are part of the reading of the code. JSON as text is modelled as far as it is written (`Model/JsonText.v`: serde_json's two formatters) and as a grammar that says which tree a text stands for (`Spec/JsonTextSpec.v`); that serde_json's parser follows the grammar is trusted, but for the limit on how deeply a text nests, which is modelled. How floats are printed is a parameter.
* **YAML** for Sigma: the tree `serde_yaml::Value`; the text level is not modelled.
* **Regular expressions**: the two of the metrics are modelled by their language; the expressions in rules are compiled by a function given as a parameter.
* **std**: `Ipv4Addr`/`Ipv6Addr` display, integer parsing and printing, `str` functions, `BTreeMap`, as in their documentation.

Not modelled: `sled`, `chrono` except its date texts (Model/Date.v), real sockets, clocks and memory; `components/enrichment.rs` (a trait without code), `components/metrics/summary.rs` (a private struct nothing uses), `utilities/http_utils.rs` (constants).

## Trusted base

* Coq's kernel (8.16.1) and its VM (`vm_compute`). No native compiler, no plugins but those of the standard library.
* The reading of the Rust code: nothing is extracted or executed; each definition cites its source.
* Assumptions: `Print Assumptions` after every theorem prints `Closed under the global context`. No axiom of the standard library is used by any theorem. `vcheck` (coqchk) lists seven constants `Coq.ssr.ssrunder.Under_rel.{Under_rel, Under_rel_from_rel, Under_relE, Over_rel, over_rel, over_rel_done, under_rel_done}`: they are the fields of a module type in the standard library's ssreflect support, loaded with the library; no theorem depends on them.
* Imports are from `Coq` (the standard library) only.

## Testing the model

`Props/RepoTests.v` runs the repository's own unit tests on the model: every assertion of those tests, with the arguments and the results their authors wrote, is an `Example` there (the sigma rules of the test data included). They are checks that the model follows the code, not proofs. One of them shows something the tests hide: the rule test reads a rule with an address back from JSON and only looks whether it can be read; on the model the address has become its text, as C91 says.

## Testing the theorems

`tools/mutate.py` copies the development, edits one definition of the model and rebuilds what depends on it, admitting the proofs that break; afterwards `Print Assumptions` tells which property theorems rest on a broken proof. `seeded/LOG.jsonl` has one line per attempt; where a wrong program survived, the line names the theorems added or tightened, and a later line repeats the attempt. Besides these hand-written edits, `tools/automutate.py` makes every small edit of a fixed set (numbers, comparisons, connectives, literals, swapped or dropped parts) in the definitions of the model; `seeded/sweep_1.jsonl` has the verdict for each well-typed one, and the survivors that were not equivalent programs became entries of the log and tighter theorems. `seeded/sweep_2.jsonl` has the verdicts of a second sweep over a copy without the `Example`s, so that only theorems for all inputs could notice an edit.
