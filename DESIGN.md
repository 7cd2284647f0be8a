# limabean: formal model and proofs

Target: `/repo` (tesujimath/limabean at the pinned commit).  Prover: Coq 8.16.1,
with the standard library and std++.  Everything is under `rocq/theories`.

## Approach

The code is modelled function by function as total, computable Gallina
functions.  Each definition cites the file and lines it models.

* Panics (`unwrap`, index out of range, `panic!`) and thrown exceptions are
  explicit result values, so "never panics" is a theorem about reachability.
* Hash maps are `gmap`s.  Where the code iterates over a hash map, the order is
  an explicit parameter constrained only to be a permutation.
* Third-party libraries (`limabean_booking`, the beancount parser, `serde_json`
  text syntax, the source-map used for spans, the tabulator) are parameters.
  Facts assumed of them appear as premises of the theorems which need them,
  and for each such premise a concrete instance is exhibited.
* Decimals are exact: unbounded mantissa and scale.  Specifications speak about
  their rational value.  C111 says for which ledgers this is what the bounded decimals
  of the machine do.

File naming: `*Model.v` contains definitions only, `*Spec.v` the independent
specification vocabulary, `*Facts.v` and others lemmas, `*Props.v` the property theorems
with their non-vacuity examples and `Print Assumptions`.

When the code does not satisfy a property users would expect, the full property
is stated and refuted by a concrete witness (`..._refuted`), and the strongest
part that does hold is proved (`..._partial`).

## Plan per property

| Id | What is modelled | How it is proved |
|----|------------------|------------------|
| C01 | accumulator `collect` and everything below it | invariant over the directive list (snoc induction) |
| C02 | same, `validate` | case analysis; prefix monotonicity by induction |
| C03-C05 | same | history invariant linking the open/closed maps to the directive history |
| C06 | `open`, `close`, validation | same invariant, stated for runs that already have errors |
| C07 | `book` with the library's answer as oracle | equation between output and declarative expansion |
| C08 | `balance`, roll-up, tolerance | invariant: account totals = sums over booked postings |
| C09, C10 | margin computation | arithmetic over rationals |
| C11 | `is_nonstrict_subaccount` | string lemma, equivalence with declarative definition |
| C12, C14 | pads | invariant: pending pad points at its empty transaction |
| C13, C18 | `balance` state effect | roll-up sum lemma |
| C15 | final output with pads | refuted by witness; C08 is the provable part |
| C16 | all panics | invariant; refuted in full (unopened pad source), proved when pad sources were opened |
| C17 | pad source | refuted; padded account side proved |
| C19 | failed transaction | state equality under library contract |
| C20 | iteration order | two-run simulation |
| C21 | error indices, span resolution | invariant on the error list |
| C22, C23 | balance report | window invariant; C23 refuted |
| C24 | booking methods | case analysis |
| C25-C28 | JSON trees, encoders and decoders | round-trip proofs |
| C29-C33 | request loop, dispatch | induction over input lines |
| C34, C35 | launcher | list equations, case analysis |
| C36-C40 | client inventory | induction over postings; C38, C40 refuted, partial versions proved |
| C41, C42 | registry | C41 refuted; fold invariants |
| C43, C44 | roll-up | fold invariants on account trees; C44 refuted on empty inventory |
| C45 | journal | prefix induction |
| C46-C48 | filters | boolean reasoning, partition lemma |
| C49 | synthetic spans | alignment lemma for positional merge |
| C50-C52 | plugin chain with object identity | fold over stages; C51, C52 refuted |
| C53-C56 | loader pipeline over an abstract pod | case analysis; C54, C56 refuted |
| C57 | auto_accounts | fold invariant |
| C58, C59 | client decoding, formatting | refuted by witness; partial versions proved |
| C60 | conversion of parsed directives, `parser.*` requests | case analysis over directive kinds, field by field; injectivity for "nothing lost" |
| C61 | `resolve_span`, `format_errors`, `create_spans` batches | induction over the batch |
| C62 | `book` request | case analysis of the booking result |
| C63 | local-root path in EDN | lemma on the EDN reader of strings; refuted for quotes and backslashes |
| C64 | health sub-command | case analysis over the environment |
| C65 | client reading of booked directives | field lemmas for the encoder and the client's reader composed |
| C66 | cost total of merged positions | refuted; single-lot induction |
| C67 | roll-up columns | fold invariant over the account tree |
| C68 | plugin resolution | partition lemma |
| C69 | `spec.clj` as a boolean checker | field by field over the composed encoder and reader; refuted for whole-number tolerances and large integers |
| C70 | number formatting | digit lemmas; refuted for small numbers (exponent) |
| C71 | loader + server with plugins | two-run simulation |
| C72 | loader + server | case analysis of the start-up status |
| C73 | loader + server | totality; resolution of booking errors |
| C74 | number cells | reading the digits before the anchor; refuted for numbers with an exponent |
| C75 | cells of inventories, journals and roll-ups | injectivity of the cell constructors against what is to be shown |
| C76 | reports of plugin errors | membership; refuted as to the source (`(:span-p :dct)`) |
| C77 | a session as a list of loads | induction over the loads |
| C78 | servers started and stopped, `print-errors` | invariant over the loads; refuted where errors cannot be printed |
| C79 | `validate-args`, `-main` | case analysis |
| C80 | `try-eval`, `run` | case analysis; refuted for ledgers with errors; sessions by induction over the ledgers loaded |
| C81 | `load-user-cljs` | induction over the string and the files; refuted if loading throws |
| C82 | `print-errors`, `handle-exception` | refuted: independence of what was thrown; proved for plugins which cannot be used |
| C83 | the lines printed by `load-beanfile` | through the stages of loading; refuted if a plugin cannot be used |
| C84 | JSON text: reading by RFC 8259, writing by serde_json and by Jackson | the reader is sound and complete for a declarative grammar; both writers' texts are in the grammar; induction on trees |
| C85 | writing and reading lines at both ends of the pipe | induction on the calls, with C84 for each line; a bound on how deep answers are nested |
| C86 | auto_accounts (C57) through loading, JSON both ways, deserialising and booking | the plugin's output is read by the server as the ledger with opens filled in (`opens_filled_in`, stated on ledger directives alone); then C06's account of every report |
| C87 | loading (C53–C55), decoding (C65) and the client's inventory and journal (C36, C45) composed; `ViewSpec.v` says what should be shown in terms of the booked directives alone | views of the loaded directives are those booked (`C87_loaded`); filters see the same of a posting on both sides; sums agree by induction on the list of postings |
| C88 | C15 and C87 composed; `in_ledger_order` is the premise on the order of the ledger (the parser library's job) | filtering by account and day selects exactly what is before the assertion in the booked list (`order_divides`, `before_day`); refuted in full by C15's late pad |
| C89 | the reports of C36–C44 with the map orders as parameters, and two loads (C87) with different map orders on both sides | a list of keys no two of which compare equal has one sorted order (`sort_by_perm_eq`); folds whose steps commute do not see permutations (`fold_left_perm`, with exact decimal addition); C20 for the server; refuted where keys compare equal and are different, and on ties of `max-key` |
| C90 | `show` from a value to what is printed: cells of any value, their JSON text (C84), `limabean-pod tabulate` as a process with output, error output and exit code, `try-sh` | induction on values and cells: cells of the reports nest a constant number of levels, those of values 5 for each level, anchors are never negative; what serde reads back is the cell (`get_cell_json`); refuted for values nested more than 25 levels |
| C91 | the plugins of `clj/test-plugins` as transducers on client data; an edit is a relation between a directive of the server and those it becomes, stated on the server's types | each plugin `makes` its edit: if client data is read by the server as directive d, what the plugin emits is read as the edit of d; composed by induction on the chain, through marks, spans, JSON and the reader |
| C92 | chains in which `auto_accounts`, which has state, and the plugins of C91 alternate; each is to turn a ledger as a whole | `auto_accounts` keeps `holds` (`auto_turns`), hence induction on the chain; that opens come before postings is an invariant of all these turns (`C92_kept`) and all that booking needs (`C92_reported`) |
| C93 | plugins after booking as transducers; a change is a relation between a directive as the user sees it and those it becomes | each plugin `alters` what is seen as its change says; composed by induction on the chain, through marks and spans of a pod which is still alive after booking; the reports depend on transactions and opens alone, and sums shift by what is added per posting |
| C94 | EDN as a grammar (relations `gap`, `form`, `forms`) apart from the reader, a function on the text | the reader accepts exactly the grammar: soundness by induction on its fuel, completeness by mutual induction on the derivation with the fuel bounded by the length; printed values are derivations by induction on the value; the loader is C68 with this reader; refuted for printing regular expressions |
| C95 | the printer (`FormatModel`, `PrintModel`); a reader of Beancount's syntax as specification (`TextSpec`), apart from the printer; which directives text can say (`WriteSpec`) | text as a sequence of words and lines: each printed part is a sequence of words whatever follows it, and the reader takes these words; by cases on directives and induction on postings, values, labels and ledgers; then C55 and the wire for loaded and booked directives; refuted where the printer's syntax is not Beancount's |
| C96 | the dumps of the loader as a list of files written | the names by induction on the path; the contents by C95; refuted for what plugins make, and for ledgers of the same name |
| C97 | the walk as a function on the list of paths; golden files as a map from paths to texts; the matcher a parameter with the relation `alike` as its specification | paths are split at their last slash in one way only; the reader by C94; `alike` to `equal` by induction on the pattern; refuted for a file with no name before the dot |
| C98 | `update-all` as a function on the map of files | files of different directories and names are apart, so by induction over the tests each directory holds what its own update leaves; then C97; refuted where files of the other kind are left |
| C99 | loading twice with two orders of every hash set and map, `same_value` | what is written in two orders differs in the order of sets and of metadata only, decoding and tracing keep this, and booking does not depend on the order (C20); maps have no key twice, hence Clojure's equality; refuted for two options |
| C100 | the example filter `fy`, `periods`, `is_report` | every posting which passes the filter of a period passes that of exactly one of its parts, hence sums agree by C36; the journal is built from left to right and in date order those before a day come first |
| C101 | nothing new; `balances_within`, `transactions`, `allowance` | the postings of each booked transaction are those of the library (C07), a pad's two postings cancel (C12), hence by induction over `mirrors` the sum of all is bounded; C87 takes it to the inventory |
| C102 | nothing new; `settles`, `as_written` | simulation between booking the ledger and booking what was booked: at each directive both runs have the same accounts, up to holdings which the library cannot tell apart; C96 takes it to the dump, C87 to the reports |
| C103 | nothing new; `not_before` | invariant of the run: what is booked before the cut stays, unless a pending pad is filled, and none is pending if the first part books for itself; the client's registry and filters are shown to give the same for the longer list |
| C104 | nothing new; `bare`, `unplaced` (small specification of what is left out), `lib_blind` | two runs step by step with equal accounts, and errors and booked directives equal but for annotations; C87 takes it to the reports; `LiftProps.v` takes C104 to C108 to whole loads: a ledger without plugins is loaded without an error exactly if it books |
| C105 | nothing new; `two_books`, `books`, `booked_for` (small specification), `lib_local` | a run of the whole and a run of one set of books kept in step, accounts and waiting pads of this side the same; the other direction puts the two runs together; C87 takes it to the reports |
| C106 | nothing new; `reordered`, `same_but_order` (small specification), `reorders` | two transactions which change places leave accounts which are the same as far as the library can tell; from there both runs go step by step, pads being at the same places; any order is reached by such exchanges (`reordered_block`); C87 takes it to the reports |
| C107 | nothing new; `rename`, `rename_booked`, `keeps_hierarchy`, `same_place` (small specification), `lib_nameless` | both runs in step: the accounts of one are those of the other under the new names, what has been booked is the same renamed; sums over accounts do not depend on the order of the maps; C87 takes it to the reports |
| C108 | nothing new; `comment_only`, `pad_waits`, `check_only`, `without` (small specification) | both runs in step with the simulation of C105; invariant: an account has a pad in the accumulator only if one waits for it in the ledger, so an assertion which is only a check changes nothing but the window for its own errors; C87 takes it to the reports |
| C109 | nothing new; `complete`, `kindless` (small specification by the fields which a directive has) | each check of `spec.clj` reflects its part of the specification; induction over the chain of plugins (C50); marks and spans do not touch what is checked; C53 takes it to whole loads |
| C110 | nothing new; `recur`, `recur_booked`, `same_but_text` (small specification), `lib_renamed` | both runs in step: the accounts of one are those of the other with what they hold and what they allow renamed; the set of allowed currencies is empty, or has a currency, iff the renamed one is or has; sums do not depend on the order of the maps; C87 takes it to the reports |
| C111 | `MachineModel.v`: the accumulator once more, with additions and multiplications which may fail; `representable`, `within`, `moderate` (small specification), `machine_ok` | sums of amounts within range stay within range in any order, so each addition is exact; both accumulators in step; concrete ledger of large amounts for what happens beyond |
| C112 | `ReplModel.v`: what the user of a session types, loads and requests for reports in any order, and the replies; `last_load`, `report_for`, `nothing` (small specification) | induction over what was typed: the globals hold what came of the last load and nothing else; filters commute, so the one which a report adds may come first; with C87 for what was booked; a ledger with an error and an empty one for what cannot be told |

## Trusted base

* Coq 8.16.1's kernel (the proofs use `vm_compute` only on closed terms).
* `Print Assumptions` is run under each property theorem in the `*Props.v` files.
  Every one prints `Closed under the global context`: no theorem depends on any
  axiom.
* Loading std++ also loads `Coq.ssr.ssrunder`, whose module type declares
  `Under_rel`, `Under_rel_from_rel`, `Under_relE`, `over_rel`, `over_rel_done`,
  `under_rel_done` and `Over_rel`; a whole-library check lists them.  They belong to
  Coq's distribution and no theorem here uses them.
* That the Gallina definitions say what the code says.  The code was read, not run.
* That `TextSpec.v` says what Beancount's syntax is (C95, C96); the parser is another
  project and was not available.

### Premises about parts which are not modelled

They are hypotheses of the theorems which need them, and each is met by a concrete
instance in the examples.

| Premise | About | Meaning |
|---------|-------|---------|
| `lib_ok` | `limabean_booking` | a fresh account holds nothing, accumulating adds, one interpolated posting per posting, the lots of a posting add up to it, inventories change by exactly what was posted and only for posted accounts |
| `lib_ext` | `limabean_booking` | the library sees inventories and booking methods only through the functions passed to it |
| `balances_within` | `limabean_booking` | a transaction without costs and prices is accepted only if the units of each currency add up to zero, within a tolerance given by its postings (C101 only; `strict_lib` is an instance) |
| `settles` | `limabean_booking` | a transaction which the library has completed is, written down and booked again with the same holdings, taken as it is, and leaves the same holdings (C102 only; `filling_lib` is an instance) |
| `lib_blind` | `limabean_booking` | of a posting the library uses account, units, currency, cost and price; the trait `PostingSpec` (booking/types.rs:9-33) through which it is called offers nothing else (C104 and the theorems about loaded ledgers; `sample_lib` is an instance) |
| `lib_local` | `limabean_booking` | the library asks through its two callbacks only for inventories and booking methods of accounts which the postings name (C105, C108; `sample_lib` is an instance) |
| `reorders` | `limabean_booking` | transactions without costs commute: completed in the same way in either order, they leave holdings which are the same for all later bookings (C106 only; `sample_lib` is an instance) |
| `lib_nameless` | `limabean_booking` | the library compares names of accounts only for equality: under other names it completes the same and updates the same accounts, or refuses as well (C107 only; `sample_lib` is an instance) |
| `lib_renamed` | `limabean_booking` | the library compares names of commodities only for equality: with postings, holdings and tolerances under other names it completes and holds the same under those names, or refuses as well (C110 only; `sample_lib` is an instance) |
| `machine_ok` | `rust_decimal` | a sum or product which 96 bits and 28 places can represent is exact, a sum of 2^96 or more is a panic; nothing about results which are rounded (C111 only; `strict_machine` is an instance) |
| `lib_supported ... (lib_default ...)` | `limabean_booking` | it supports its own default method (C24 warnings only) |
| `any_order` | Rust `HashMap`/`HashSet` | iteration visits every entry once, in an arbitrary order |
| `strict_match` agrees with `alike` | matcho | a strict pattern matches what is equal to it, strings in which its regular expression is found, vectors and maps part by part (C97, C98); what a vector is compared with, other than lists and vectors, is left open |
| the text of a value denotes it | zprint | what is written to a golden file is read as the value (C98); C94 proves this of Clojure's own printer |
| `code` injective | `System/identityHashCode` | two live directives have different hash codes (C50); what happens otherwise is stated in `C50_same_hash_refuted` |
| `plain` names | beancount names | no character which JSON text has to escape (C28, C33, C60): serde refuses to borrow escaped strings, which is proved in `C28_odd_names_refused` |
| sizes below 2^63 | JVM `long` | number of directives and postings (C55) |

### What is modelled

| Code | Model |
|------|-------|
| `rust/src/api/booking.rs`, `booking/accumulator.rs`, `booking/types.rs` | `BookModel.v`, with bounded decimals `MachineModel.v` |
| `rust/src/api/types.rs`, `types/raw.rs`, `types/booked.rs` (types) | `LedgerTypes.v` |
| `rust/src/api/types/raw.rs`, `booked.rs`, `serializers.rs` (encoding) | `IsoModel.v`, `JsonModel.v`, `WireModel.v` |
| `rust/src/api/types/parser_type_conversions.rs` | `ParserModel.v`, `SpanModel.v` |
| `rust/src/api/types/booking_type_conversions.rs` | `BookModel.v` (`booking_into` etc.) |
| `rust/src/api/server.rs`, `json_rpc.rs` | `ServerModel.v` |
| `rust/src/bin/limabean/{main,run,health}.rs` | `LauncherModel.v` |
| `clj/src/limabean/adapter/{pod,loader,plugins,synthetic_spans,error,json}.clj`, `macros.clj`, `plugin.clj`, `util.clj` | `ClientModel.v`, `EncodeModel.v`, `PluginModel.v`, `LoaderModel.v`, `SystemModel.v` |
| `clj/src/limabean.clj`, `core/{inventory,journal,registry,filters,rollup,xf,format}.clj` | `CljModel.v`, `InventoryModel.v`, `ClientModel.v`, `RollupModel.v`, `FormatModel.v` |
| `core/type.clj`, `adapter/{print,debug}.clj`, dumping in `adapter/loader.clj` | `PrintModel.v` |
| `clj/src/limabean/core/cell.clj` and the `cell` methods of inventory, journal and rollup | `CellModel.v` |
| `adapter/{show,tabulate,shell}.clj`, the rest of `cell.clj`, `rust/src/bin/limabean-pod/main.rs` (`tabulate`) | `ShowModel.v` |
| `pod.clj` `write-line`, `read-to-eol`, JSON text at both ends | `JsonText.v`, `ReadModel.v`, `PipeModel.v` |
| `examples/clj/user.clj` | `PeriodModel.v` |
| `clj/src/limabean/{user,app,main}.clj`, `adapter/{user_clj,exception}.clj` | `UserModel.v`, the report functions `ReplModel.v` |
| `clj/src/limabean/spec.clj` | `SpecModel.v` |
| `clj/src/beancount/plugins/auto_accounts.clj` | `AutoModel.v` |
| `clj/test-plugins/src/limabean/test/plugins/*.clj` | `EditModel.v` |
| `clj-test/src/limabean/test.clj`, `test/create_golden.clj` | `GoldenModel.v` |
| `clj/src/limabean/adapter/edn.clj`, `print.clj` lines 5-7, the configuration in `plugins.clj` | `EdnModel.v` |

### What is not modelled

* Third-party code: `limabean_booking`, `beancount_parser_lima` (the parser and its
  source map), how `rust_decimal` rounds beyond its 96 bits (C111 stays within), the `tabulator` crate, `clap`,
  `clojure.tools.cli`, the JVM.  The text syntax of `serde_json` and cheshire is modelled
  by what RFC 8259 and their documentation say (`JsonText.v`, `ReadModel.v`);
  that of `clojure.edn` by its documentation and source (`EdnModel.v`), without characters, ratios,
  other bases, octal escapes, metadata and namespaced maps.
* Logging, the line editor of the REPL and what users evaluate in it
  other than `load-beanfile`, `build.clj`, the test suites themselves.
* Whether `rust_decimal` takes every number with an exponent, structs encoded as JSON arrays, `usize` overflow on
  indices, years of more than four digits on the wire.
* Performance, memory use, operating system failures other than those named.

## Findings

Places where the code does not do what a user would expect, each with a theorem.

| Theorem | What happens |
|---------|--------------|
| `C15_refuted` | a pad is filled in when its balance is met, at the place of the pad, so balances checked in between on a parent account may be false of the final output |
| `C16_refuted` | a pad from an account which was never opened makes booking panic as soon as a balance needs the pad |
| `C17_refuted` | the source of a pad is not checked: it may be closed, or not allow the currency |
| `C23_refuted` | the accumulated total in a balance error adds up postings in all currencies |
| `C24_warnings` | an unsupported booking method gives two warnings, the second with a literal `{}` in place of the name |
| `C28_odd_names_refused` | the server refuses directives with strings which had to be escaped in JSON, such as a narration with a quote, when a plugin sends them back |
| `C30_refuted` | when the ledger did not parse, `parser.*` requests are answered without the request's id |
| `C38_refuted` | lots bought at 7 and at 7.00 are kept apart by the client |
| `C40_refuted`, `C40_refuted_large` | the client's inventory throws for average booking and for sums beyond 64 bits |
| `C41_refuted` | the client looks for the option `booking`, the server sends `booking-method`, so the ledger's default booking method is never used by the client |
| `C44_refuted` | rolling up an inventory without positions throws |
| `C49_refuted` | a directive which is not a transaction but has `:postings` shifts all later synthetic spans |
| `C50_same_hash_refuted` | a change is not attributed to a plugin if identity hash codes collide |
| `C51_refuted` | the `:booked` marker is repeated, `contains?` is applied to a vector |
| `C52_refuted` | a new directive with an error from a plugin has no location |
| `C54_refuted`, `C54_lost` | without raw plugins, booking errors are lost: the client reads only the indexed reports, the server then sends spanned ones |
| `C54_refused` | if the server cannot read what plugins made, booking fails without any report |
| `C56_refuted`, `C56_lost` | the context of an error is sent as `context`, the server reads `contexts` |
| `C57_accumulating_refuted` | auto_accounts throws away the result of its inner `reduce` and works only because its transient is changed in place |
| `C57_other_use_refuted`, `C57_opened_twice_refuted` | auto_accounts looks only at transactions, and opens an account again which is opened explicitly later |
| `C86_other_use_refuted` | with auto_accounts a balance (or pad, close) on an account never opened still fails the load |
| `C88_refuted` | a pad on a sub-account which is filled after a balance assertion on its parent changes what the user sees at the assertion: the assertion passed with 0, the inventory before its day shows 10 |
| `C93_refuted` | nothing is checked after plugins which run after booking: with `adjust_postings_after_booking` a ledger loads without an error though a transaction which the user sees does not balance and a passed balance assertion is not what the inventory shows |
| `C94_rest` | only the first form of a plugin's configuration counts: `{:a 1} :b 2` or `{:a 1}}` loads, and what follows is ignored without a warning |
| `C94_blank` | an empty or blank configuration is refused as an error of the plugin, rather than taken as none, for `read-string` is called without `:eof` |
| `C94_refuted` | a regular expression read from `#regex "..."` is printed as `#"..."`, which the reader refuses |
| `C95_tolerance_refuted` | a balance with a tolerance is printed as `10 NZD ~ 0.01`, which is not Beancount's syntax `10 ~ 0.01 NZD` |
| `C95_total_price_refuted` | a price for all units is printed as `@ # 10 USD`, which is not Beancount's syntax `@@ 10 USD` |
| `C95_total_cost_refuted` | of a cost `{2 # 10 USD}` only `{2 USD}` is printed |
| `C95_null_refuted` | a null value of a custom directive is printed as nothing |
| `C96_plugins_refuted` | loader.clj:77 dumps the directives from before the plugins again, so what plugins make is never dumped |
| `C96_names_refuted` | a dump is named by the file name of the ledger only, so ledgers in different directories overwrite each other's |
| `C102_pads_refuted` | the dump of booked directives has each pad directive together with the transaction which came of it, so that a ledger with a pad cannot be booked from its dump ("unused, no balance adjustment required") |
| `C103_pads_refuted` | while a pad waits for its balance assertion, the reports of the days before are open: the assertion which is added later decides what they show |
| `C105_parent_refuted` | a balance assertion on a parent account sums all accounts below it, also ones which have nothing to do with it otherwise; so books are separate only if no such assertion spans them |
| `C106_balance_refuted` | a transaction and a balance assertion of the same day may not change places (no defect: assertions are checked where they stand after sorting) |
| `C107_moved_refuted` | moving an account away from under another changes what the assertions of that one see (no defect: assertions sum sub-accounts) |
| `C108_padded_refuted` | a balance assertion for which a pad waits is more than a check: without it the pad is unused and the ledger does not book (no defect) |
| `C109_nil_refuted` | `spec.clj` accepts a directive whose `:dct` is nil, with a date and nothing else, from a plugin |
| `C109_sent_refuted` | before booking `spec.clj` accepts a posting without an account; the server cannot read it, so the load fails with an error about JSON instead of one which names the plugin |
| `C110_merged_refuted` | giving two commodities one name changes what assertions about either see (no defect) |
| `C111_large_refuted` | three sub-accounts with amounts near 2^96, one negative: an assertion about their parent holds, but summing them may overflow on the way, and whether the server panics depends on the order of a hash map |
| `C112_told_refuted` | after a ledger fails to load (the error is printed once), `inventory`, `balances`, `income-statement` and `journal` go on to answer, with nothing in them, just as for an empty ledger; only `rollup` throws, and for an empty ledger too |
| `C97_found_refuted` | a ledger named just `.beancount` in `x/` is tested by `x.golden`, which is also the directory of `x.beancount`, for `io/file` takes the slash away |
| `C98_stale_refuted` | `update-all` does not remove `error.edn` when the ledger has no error any more, nor `directives.edn` when it has one, and the tests fail right after it |
| `C99_options_refuted` | the options `documents` and `operating-currency` are hash sets which the client reads as vectors, so their order is another one every time |
| `C89_refuted` | lots bought at `7 USD` and at `7.00 USD` on the same day are different keys which compare equal, so their order in the inventory is that of the hash map; if two currencies are held by equally many accounts, `rollup` shows the one the hash map lists last |
| `C90_refuted`, `C90_reason_refuted` | a value of 26 nested maps cannot be shown; the REPL then says only `limabean-podfailed` (no blank), since the reason is put under `:user-error`, which nothing reads |
| `C58_refuted`, `C71_clash_refuted` | metadata with the key `booking` or `dct` becomes nil in the client |
| `C59_refuted`, `C70_refuted`, `C70_small_refuted` | formatting does not escape quotes, and writes every sufficiently small number with an exponent |
| `C76_refuted` | the source of a changed directive is never shown with a plugin's error: error.clj:28 looks `:span-p` up in the keyword `:dct` |
| `C78_refuted`, `C78_left_behind` | when printing the errors of a load throws (`C52_refuted` gives such errors), the server started for it is never stopped, one more with each load |
| `C80_refuted` | `--eval` exits with 0 though the ledger has errors and was evaluated with no directives at all |
| `C81_refuted` | if the ledger cannot be read the session starts without the user's code |
| `C82_refuted`, `C82_unexplained` | in a session, an unreadable ledger is only said to be `pod/start failed`; for an exception in a plugin `nil` is printed, the message is looked up in the wrong place |
| `C83_refuted` | if a plugin cannot be used, 0 directives are said to be loaded |
| `C74_refuted` | a number with an exponent is lined up at the exponent's last digit, not at its point |
| `C63_refuted` | a path with a quote or backslash is not escaped in the launcher's EDN |
| `C66_refuted` | a merged position keeps the cost total of its first posting |
| `C69_tolerance_refuted`, `C69_plugins_fail` | a balance with a tolerance such as `~ 1` fails the client's specification, so that no plugin can run on the ledger |
