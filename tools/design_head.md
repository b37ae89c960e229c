# Formal model of u-siem-core in Rocq (Coq 8.16.1)

## Layout

`rocq/theories/` (logical prefix `Verif`):

| directory | content |
|---|---|
| `Base/` | Rust-flavoured primitives: byte strings, `split`, `parse::<uN>`, decimal and hex printing, `BTreeMap` as a sorted association list, fixed-width arithmetic, interleavings of threads, regular expressions, `outcome` (value, abort, out of fuel) |
| `Model/` | the model: one Gallina definition per Rust function, each citing file and lines. No proofs |
| `Spec/` | small specifications used in the statements: what a network contains, what a dotted quad denotes, what a stream of logs should become, which keys an object has. They do not use the functions under test |
| `Proofs/` | lemmas |
| `Props/` | the theorems `Cnn_…`, their `Print Assumptions`, and an `Example` or `_case` beside them that meets the hypotheses |

`tools/` holds the generators of the large tables (`gen_enums`, `gen_mitre`, `gen_base_schema`, `gen_datasets`, `gen_event_names`: they read `/repo` and write Coq), of `properties.jsonl`, `MANIFEST.json` and this file, and `mutate.py`, which builds wrong variants of the model and reports the theorems that no longer hold. `seeded/` holds those variants and the log.

Conventions: a Rust function that mutates `&mut self` returns the new value; `Result` and `Option` stay data; a panic (index out of bounds, arithmetic overflow in a debug build, `unwrap` on `None`, `todo!()`) is an explicit `Panic` outcome, never a default value. Where overflow differs between debug and release builds, the model takes the kind of build as an argument and the theorems quantify over it or name it. Loops are structural recursion; where Rust's loop is unbounded the model uses fuel with a distinguished `OutOfFuel` value and a theorem that it is never returned.

Strings: a Rust `&str` is its UTF-8 byte sequence, a Coq `string`. All delimiters the code splits on are ASCII, for which byte-wise and char-wise splitting coincide. Where the code works on `Vec<char>` or lower-cases, the model works on ASCII letters, and says so at the definition.

Names: `Cnn_…` proves (part of) property Cnn for all inputs; `Cnn_…_refuted` proves that the code as it is violates Cnn. Where the code satisfies one half of a natural property and violates the other, the halves are separate ids (C96–C152 are the violated ones), so that each id is either proved in full or violated.

