{"id": "C01", "title": "Booked output mirrors the ledger", "statement": "When booking succeeds, the booked directives are, in ledger order, exactly one booked directive per ledger directive, plus exactly one generated transaction immediately after each pad. Each carries the index, date, tags, links and metadata of the ledger directive it came from; prices, balances, opens, closes, commodities, pads, documents, notes, events, queries and customs are copied verbatim and a transaction keeps its flag, payee and narration.", "quantifier": "every list of ledger directives, every behaviour of the booking library, every hash iteration order", "why_tests_cant": "the set of ledgers is infinite and the output list is rewritten in place when a later balance fills an earlier pad", "anchors": ["rust/src/api/booking/accumulator.rs: collect, directive, transaction, pad", "rust/src/api/types/booked.rs"]}
{"id": "C02", "title": "Booking is all-or-nothing", "statement": "Booking answers with booked directives if and only if no directive produced an error and no pad was left unused; otherwise it answers with a non-empty error list and no directives. Errors already produced by a prefix of the ledger are never removed or changed by appending further directives.", "quantifier": "every ledger and every extension of it", "why_tests_cant": "needs all ledgers and all continuations of each", "anchors": ["rust/src/api/booking/accumulator.rs: collect, validate"]}
{"id": "C03", "title": "Transactions post only to open accounts", "statement": "When booking succeeds, every posting of every transaction written by the user is to an account that an earlier open directive opened and that no close directive between that open and the transaction closed.", "quantifier": "every successfully booked ledger, every transaction and posting in it", "why_tests_cant": "quantifies over every interleaving of opens, closes and transactions", "anchors": ["rust/src/api/booking/accumulator.rs: book, validate_account, open, close"]}
{"id": "C04", "title": "Currency restrictions are enforced", "statement": "When booking succeeds, every posting of a user transaction and every balance assertion to an account opened with a currency list is in one of the listed currencies.", "quantifier": "every successfully booked ledger", "why_tests_cant": "interpolated currencies come from the booking library, so the set of cases is not enumerable", "anchors": ["rust/src/api/booking/accumulator.rs: AccountBuilder::is_currency_valid, validate_currency, book, balance"]}
{"id": "C05", "title": "Account lifecycle discipline", "statement": "When booking succeeds, each account is opened at most once, closed at most once and only while open, and every pad and balance directive names an account that is open at that point.", "quantifier": "every successfully booked ledger", "why_tests_cant": "quantifies over all histories of open and close directives", "anchors": ["rust/src/api/booking/accumulator.rs: open, close, pad, balance"]}
{"id": "C06", "title": "Lifecycle violations are reported where they happen", "statement": "Opening an account that is open is reported at the second open and points at the first; opening a closed account is reported and points at the close; closing an account that is not open is reported; pads, balances and transactions on an account that is not open or in a currency it does not allow are reported at that directive (or posting), pointing at the close or open concerned. No other open or close is reported.", "quantifier": "every ledger, successful or not, and every directive in it", "why_tests_cant": "must hold after every possible history, including ones which already contain errors", "anchors": ["rust/src/api/booking/accumulator.rs: open, close, validate_account, validate_currency"]}
{"id": "C07", "title": "Booked postings trace back to ledger postings", "statement": "The booked postings of a user transaction are, in posting order, the expansion of each ledger posting: one posting per lot cost when the library reports costs (units and cost from that lot, no price), otherwise a single posting with the interpolated units and price. Every booked posting carries the ledger posting's index, account, flag, tags, links and metadata, and the interpolated currency.", "quantifier": "every transaction and every answer of the booking library", "why_tests_cant": "the library may return any number of lots for each posting", "anchors": ["rust/src/api/booking/accumulator.rs: book, cur_posting_cost_to_cost", "rust/src/api/types/booking_type_conversions.rs"]}
{"id": "C08", "title": "Balance assertions hold of the booked output (ledgers without pads)", "statement": "When a ledger without pad directives books successfully, then for every balance assertion the sum of the units of all booked postings which precede it, to the asserted account or any of its sub-accounts, in the asserted currency, differs from the asserted amount by no more than the tolerance.", "quantifier": "every pad-free successfully booked ledger and every balance in it", "why_tests_cant": "relates the whole prefix of the output to each assertion, over unbounded ledgers", "anchors": ["rust/src/api/booking/accumulator.rs: balance, total_rollup_units_for_currency, calculate_balance_margin"]}
{"id": "C09", "title": "Balance assertions are decided exactly at the tolerance", "statement": "At a balance assertion on an open account in an allowed currency with no pending pad, an error is reported at that directive if and only if the absolute difference between asserted amount and accumulated roll-up exceeds the tolerance, and the reported margin is exactly asserted amount minus accumulated roll-up.", "quantifier": "every reachable booking state and every balance directive", "why_tests_cant": "boundary must hold for every pair of decimals", "anchors": ["rust/src/api/booking/accumulator.rs: balance, balance_report, calculate_balance_margin"]}
{"id": "C10", "title": "Balance tolerance", "statement": "The tolerance of a balance assertion is the explicit tolerance if given; otherwise, for an amount with n>0 decimal places it is 10^-n times twice the inferred_tolerance_multiplier option (1/2 when absent), and for an integral amount it is zero.", "quantifier": "every amount, scale and multiplier", "why_tests_cant": "all scales and multipliers", "anchors": ["rust/src/api/booking/accumulator.rs: balance"]}
{"id": "C11", "title": "Roll-up respects account boundaries", "statement": "An account counts towards a balance assertion on base account B exactly when it is B itself or its name is B followed by ':' and more: Assets:Bank2 never counts towards Assets:Bank.", "quantifier": "every pair of account names", "why_tests_cant": "all strings", "anchors": ["rust/src/api/booking/accumulator.rs: is_nonstrict_subaccount, account_and_subaccounts, total_rollup_units_for_currency", "clj/src/limabean/core/filters.clj: sub-acc"]}
{"id": "C12", "title": "Pads are filled with a balanced transaction", "statement": "When booking succeeds, the transaction generated after each pad has exactly two postings, flagged 'P, without cost or price: one to the padded account and one to the pad's source, with opposite units in the same currency.", "quantifier": "every successfully booked ledger and every pad in it", "why_tests_cant": "the posting pair is written by a balance directive arbitrarily later in the ledger", "anchors": ["rust/src/api/booking/accumulator.rs: balance, pad, calculate_balance_pad_postings"]}
{"id": "C13", "title": "A pad makes its balance exact", "statement": "When a balance assertion consumes a pending pad whose source lies outside the asserted account's subtree, the roll-up of the asserted account and currency afterwards is exactly the asserted amount, and no error is reported.", "quantifier": "every reachable state with a pending pad, every balance directive", "why_tests_cant": "all states reachable by arbitrary ledgers", "anchors": ["rust/src/api/booking/accumulator.rs: balance, adjust_account_to_match_balance"]}
{"id": "C14", "title": "Unused pads are errors", "statement": "An accepted pad waits for the next pad or balance of its account. If that is a balance needing an adjustment the pad is filled and neither is reported. Otherwise exactly one error is reported at the pad: 'second pad encountered', pointing at the second pad, which is itself not reported; unneeded, if the balance is already met; or 'no balance directive', if nothing follows. A ledger that books successfully has no unused pad.", "quantifier": "every ledger and every pad in it", "why_tests_cant": "all ledgers", "anchors": ["rust/src/api/booking/accumulator.rs: pad, balance, collect, validate"]}
{"id": "C15", "title": "Every balance assertion holds of the final booked output", "statement": "When booking succeeds, for every balance assertion the booked postings preceding it in the final output (including those of filled pads) to the account and its sub-accounts in that currency sum to within tolerance of the asserted amount.", "quantifier": "every successfully booked ledger, including those with pads", "why_tests_cant": "pads are filled retroactively, after intermediate assertions were checked", "anchors": ["rust/src/api/booking/accumulator.rs: balance"]}
{"id": "C16", "title": "Booking never panics", "statement": "Booking any ledger terminates with directives or with errors, never with a panic.", "quantifier": "every ledger, every behaviour of the booking library", "why_tests_cant": "panics hide behind unwraps and index expressions whose guard is an invariant of the whole history", "anchors": ["rust/src/api/booking/accumulator.rs: balance, balance_report, get_valid_account, get_mut_valid_account"]}
{"id": "C17", "title": "Pad postings go only to open accounts in allowed currencies", "statement": "When booking succeeds, both postings of every generated pad transaction are to accounts that are open at the pad, in currencies those accounts allow.", "quantifier": "every successfully booked ledger with pads", "why_tests_cant": "all ledgers", "anchors": ["rust/src/api/booking/accumulator.rs: pad, balance"]}
{"id": "C18", "title": "Balance failures are localised", "statement": "After a balance assertion on an open account in an allowed currency was processed without consuming a pad, whether it failed or not, processing the same assertion again (with no other directive between) reports no balance error (for a non-negative tolerance); the running total continues from the asserted amount after a failure.", "quantifier": "every reachable state, every balance directive", "why_tests_cant": "all reachable states", "anchors": ["rust/src/api/booking/accumulator.rs: balance, adjust_account_to_match_balance"]}
{"id": "C19", "title": "A rejected transaction has no effect", "statement": "A transaction which is reported as an error contributes no booked directive and changes no account balance, so later directives are processed as if it had not been there.", "quantifier": "every reachable state, every transaction, every behaviour of the booking library within its contract", "why_tests_cant": "must hold at every point of every ledger", "anchors": ["rust/src/api/booking/accumulator.rs: book, transaction"]}
{"id": "C20", "title": "Hash iteration order is not observable", "statement": "Two runs on the same ledger which differ only in hash map iteration order give the same success or failure, identical booked directives, and the same errors up to reordering of the end-of-ledger unused-pad reports.", "quantifier": "every ledger and every pair of iteration orders", "why_tests_cant": "the iteration order is random per process", "anchors": ["rust/src/api/booking/accumulator.rs: validate, account_and_subaccounts"]}
{"id": "C21", "title": "Error locations are always resolvable", "statement": "Every error produced by booking, and every related element, refers to an existing ledger directive and, when a posting is given, to an existing posting of a transaction; so converting booking errors to source spans never panics when directives carry spans, and yields one spanned report per error with the span of the directive or posting concerned.", "quantifier": "every ledger with spans", "why_tests_cant": "needs every error path of every ledger", "anchors": ["rust/src/api/booking/accumulator.rs", "rust/src/api/types/parser_type_conversions.rs: create_reports_from_booking_errors, resolve_indexed_element"]}
{"id": "C22", "title": "Balance error diagnostics", "statement": "The report of a failed balance lists, in booked order, exactly the postings to the account and its sub-accounts since the previous balance assertion on that account, with a running total which starts from the previous assertion if it was in the same currency and from zero otherwise.", "quantifier": "every failing balance in every ledger", "why_tests_cant": "the window is maintained across arbitrary histories", "anchors": ["rust/src/api/booking/accumulator.rs: balance_report, balance"]}
{"id": "C23", "title": "The accumulated total in a balance error is in the asserted currency", "statement": "The total named in the report of a failed balance is a total of units in the asserted currency.", "quantifier": "every failing balance in every ledger", "why_tests_cant": "all mixes of currencies", "anchors": ["rust/src/api/booking/accumulator.rs: balance_report"]}
{"id": "C24", "title": "Booking method resolution", "statement": "An account opened with a supported booking method is booked with it; one opened with an unsupported method is booked with the library default; one opened without a method is booked with the ledger's booking_method option if supported, otherwise with the library default; every unsupported method on an open raises warnings at that open and never an error.", "quantifier": "every open directive, option value and support table", "why_tests_cant": "all combinations", "anchors": ["rust/src/api/booking/accumulator.rs: open", "rust/src/api/booking.rs: book", "rust/src/api/booking/types.rs"]}
{"id": "C25", "title": "Metadata values survive the wire", "statement": "Encoding any metadata value to JSON and decoding it gives back the same value; an amount is accepted with its two keys in either order; a null key, a mixture of kinds or an empty map is rejected.", "quantifier": "every metadata value; every JSON value", "why_tests_cant": "all strings, decimals and dates", "anchors": ["rust/src/api/types/serializers.rs"]}
{"id": "C26", "title": "Spans and element indices survive the wire", "statement": "Encoding a span and decoding it gives the same span, anything which is not three naturals is rejected; an element index is encoded as [directive] or [directive posting], from which the client recovers directive and optional posting.", "quantifier": "every span and element index", "why_tests_cant": "all naturals", "anchors": ["rust/src/api/types/serializers.rs"]}
{"id": "C27", "title": "Dates survive the wire", "statement": "Formatting a date from year -9999 to 9999 as ISO-8601 and parsing it gives the same date, and parsing accepts only existing calendar dates in that form, up to a redundant sign.", "quantifier": "every calendar date", "why_tests_cant": "all dates including leap rules", "anchors": ["rust/src/api/types.rs: fmt_iso8601date, parse_iso8601date"]}
{"id": "C28", "title": "Directives survive the wire", "statement": "Encoding any raw directive to JSON and decoding it gives back the same directive, for every variant and every combination of optional fields, in whatever order the fields arrive and whatever further unknown fields the client has added, provided account, currency, tag, link and metadata key names contain no character which JSON must escape; a directive with such a name is refused.", "quantifier": "every raw directive", "why_tests_cant": "twelve variants with many optional nested fields", "anchors": ["rust/src/api/types/raw.rs", "rust/src/api/types/serializers.rs"]}
{"id": "C29", "title": "One response line per request line", "statement": "The server writes exactly one response line for each line it reads, in order, until end of input, and then exits with status 0 (1 on a read error); a malformed line never stops it.", "quantifier": "every finite sequence of input lines", "why_tests_cant": "all request histories", "anchors": ["rust/src/api/server.rs: serve, dispatch"]}
{"id": "C30", "title": "Responses carry the request's id", "statement": "The response to every well-formed request carries exactly the id of that request.", "quantifier": "every well-formed request in every server state", "why_tests_cant": "all methods in all states", "anchors": ["rust/src/api/server.rs"]}
{"id": "C31", "title": "Error precedence and codes", "statement": "A line which is not a valid request is answered with a parse error and null id; a request with a version other than 2.0 is answered with invalid-request whatever its method; a valid request to an unhealthy server is answered with code 1; every response has exactly one of result and error.", "quantifier": "every line and every server state", "why_tests_cant": "all lines", "anchors": ["rust/src/api/server.rs: dispatch, write_*", "rust/src/api/json_rpc.rs"]}
{"id": "C32", "title": "Requests are independent", "statement": "No request other than create-synthetic-spans changes what later requests see: the answers to status, plugin, directive, option and book requests are the same whatever requests came before.", "quantifier": "every pair of request histories", "why_tests_cant": "all histories", "anchors": ["rust/src/api/server.rs: Server::dispatch, create_synthetic_spans"]}
{"id": "C33", "title": "Booking the fetched directives equals booking the ledger", "statement": "A book request whose parameters are the directives returned by parser.directives succeeds exactly when a book request without parameters does, with the same booked directives; on failure the former answers with the indexed form (code 3) and the latter with the spanned form (code 2) of the same errors.", "quantifier": "every ledger that parses", "why_tests_cant": "all ledgers", "anchors": ["rust/src/api/server.rs: book, parser_directives"]}
{"id": "C34", "title": "Launcher passes arguments through verbatim", "statement": "Every command-line argument of the launcher other than its own name and the health sub-command is passed to the JVM program once, unchanged and in order, after the fixed prefix. The command is shown before it is started if and only if -v or --verbose is among the arguments, and the version of the launcher if and only if --version is.", "quantifier": "every argument list and environment", "why_tests_cant": "all argument lists", "anchors": ["rust/src/bin/limabean/run.rs", "rust/src/bin/limabean/main.rs"]}
{"id": "C35", "title": "Launcher runtime selection", "statement": "The runtime is a local checkout if LIMABEAN_CLJ_LOCAL_ROOT is set, else the jar named by LIMABEAN_UBERJAR, else the build-time jar, else the published artifact of the launcher's own version; user dependencies are taken only in the first and last case and produce a warning otherwise.", "quantifier": "every environment and build configuration", "why_tests_cant": "all combinations", "anchors": ["rust/src/bin/limabean/run.rs: Runtime::from_env, command"]}
{"id": "C36", "title": "Inventory conserves units", "statement": "For every account and currency the units of the positions in the inventory sum to exactly the units of that account's postings in that currency, whatever the booking rule; no position has zero units, and accounts without positions do not appear.", "quantifier": "every list of postings and every assignment of booking methods", "why_tests_cant": "all posting sequences", "anchors": ["clj/src/limabean/core/inventory.clj"]}
{"id": "C37", "title": "Lots merge exactly when their cost is the same", "statement": "Under strict, fifo, lifo, hifo booking an account holds at most one position per currency and cost (date, currency, per-unit, label, merge), whose units are the sum over postings with that cost; under none, postings at cost are kept separately in order and those without cost are summed into one.", "quantifier": "every list of postings", "why_tests_cant": "all posting sequences", "anchors": ["clj/src/limabean/core/inventory.clj: posting-key, merge/append rules"]}
{"id": "C38", "title": "Numerically equal costs are the same lot", "statement": "Two postings of the same account and currency whose costs agree in date, currency, numeric per-unit value, label and merge flag end in the same inventory position.", "quantifier": "every list of postings under a merging booking rule", "why_tests_cant": "decimal representations differ (160 versus 160.00)", "anchors": ["clj/src/limabean/core/inventory.clj: position-key"]}
{"id": "C39", "title": "Inventory display order", "statement": "Positions are listed by currency, then positions without cost before those at cost, then by cost date, currency, per-unit, label, merge; the comparison used is a total preorder.", "quantifier": "every inventory", "why_tests_cant": "a comparator that is not a total order misbehaves only on particular triples", "anchors": ["clj/src/limabean/core/inventory.clj: compare-cost-keys"]}
{"id": "C40", "title": "Every booked ledger has an inventory", "statement": "For every ledger which books successfully, computing the inventory gives a result.", "quantifier": "every successfully booked ledger", "why_tests_cant": "all booking methods", "anchors": ["clj/src/limabean/core/inventory.clj: booking-rule", "clj/src/limabean/core/registry.clj"]}
{"id": "C41", "title": "The ledger's default booking method is used by the client", "statement": "For every account opened without a booking method, the client uses the ledger's booking_method option when computing inventories.", "quantifier": "every ledger with a booking_method option", "why_tests_cant": "crosses the process boundary", "anchors": ["clj/src/limabean/core/registry.clj", "rust/src/api/types/raw.rs: Options"]}
{"id": "C42", "title": "Registry currencies are ordered by use", "statement": "The registry lists each currency used in a posting exactly once, most frequently used first, and maps each account opened with a booking method to that method.", "quantifier": "every list of booked directives", "why_tests_cant": "all ledgers", "anchors": ["clj/src/limabean/core/registry.clj"]}
{"id": "C43", "title": "Roll-up totals", "statement": "In a roll-up every account with a non-zero holding in the chosen currency and each of its ancestors appears exactly once; its total is the sum of the holdings of that account and all its descendants, and is shown exactly when the account holds nothing itself or the total differs from what it holds.", "quantifier": "every inventory and currency", "why_tests_cant": "all account hierarchies", "anchors": ["clj/src/limabean/core/rollup.clj"]}
{"id": "C44", "title": "Roll-up of any inventory", "statement": "Rolling up any inventory in its primary currency gives a result, the primary currency being one held by the greatest number of accounts.", "quantifier": "every inventory including the empty one", "why_tests_cant": "all inventories", "anchors": ["clj/src/limabean/core/rollup.clj: primary-cur"]}
{"id": "C45", "title": "Journal running balance", "statement": "The journal lists exactly the given postings in order, and the balance after each is, per currency and excluding zeros and in currency order, the sum of the units of the postings so far.", "quantifier": "every list of postings", "why_tests_cant": "all posting sequences", "anchors": ["clj/src/limabean/core/journal.clj"]}
{"id": "C46", "title": "Date filters", "statement": "date<, date<=, date>, date>= and the half-open date>=< filters select exactly the directives or postings in the named range, and splitting a list at any date loses and duplicates nothing.", "quantifier": "every list and every date", "why_tests_cant": "all dates", "anchors": ["clj/src/limabean/core/filters.clj"]}
{"id": "C47", "title": "Filter combinators", "statement": "Combining filters with every/some/none selects exactly the items satisfying all/at least one/none of them, also for an empty list of filters; account filters agree with the server's notion of sub-account.", "quantifier": "every list of filters and every item", "why_tests_cant": "all predicates", "anchors": ["clj/src/limabean/core/filters.clj", "clj/src/limabean/core/xf.clj"]}
{"id": "C48", "title": "Balance sheet and income statement partition the ledger", "statement": "For accounts under the five root names, balances shows exactly assets and liabilities (and equity as coded) and income statement exactly income and expenses, so no posting is counted in both.", "quantifier": "every list of postings with distinct root names", "why_tests_cant": "all account names", "anchors": ["clj/src/limabean/user.clj", "clj/src/limabean/core/filters.clj"]}
{"id": "C49", "title": "Synthetic spans align with plugin output", "statement": "After a plugin phase each directive marked as created or modified by a plugin receives its own synthetic span and each of its postings receives its own, named after the plugins it came through, and unmarked directives receive none, for every interleaving of marked and unmarked directives.", "quantifier": "every list of directives", "why_tests_cant": "the assignment is positional over a flattened list", "anchors": ["clj/src/limabean/adapter/synthetic_spans.clj", "clj/src/limabean/util.clj: map-n"]}
{"id": "C50", "title": "Plugin provenance", "statement": "A directive which passes through the plugin chain unmodified is not marked; one created or modified by a plugin is marked with that plugin; a directive with an error is collected as an error.", "quantifier": "every plugin chain and directive list", "why_tests_cant": "plugins are arbitrary programs", "anchors": ["clj/src/limabean/adapter/plugins.clj"]}
{"id": "C51", "title": "Provenance names each phase once", "statement": "The provenance mark of a directive touched by several booked-phase plugins names the booked phase once.", "quantifier": "every plugin chain", "why_tests_cant": "all chains", "anchors": ["clj/src/limabean/adapter/plugins.clj: provenance-tagf"]}
{"id": "C52", "title": "Every plugin error can be shown with a location", "statement": "Every directive error raised by a plugin leads to a report with a source or synthetic span.", "quantifier": "every plugin and directive", "why_tests_cant": "plugins are arbitrary programs", "anchors": ["clj/src/limabean/adapter/plugins.clj", "clj/src/limabean/adapter/error.clj"]}
{"id": "C53", "title": "Loading stops at the first failing stage", "statement": "Loading a ledger runs its stages in order and stops at the first which fails; later stages are not run and the result carries that stage's error, what the stages before it produced, and no directives for the user.", "quantifier": "every behaviour of pod and plugins", "why_tests_cant": "all failure points", "anchors": ["clj/src/limabean/adapter/loader.clj", "clj/src/limabean/macros.clj: bind->"]}
{"id": "C54", "title": "Booking errors reach the user", "statement": "When booking fails, the loaded result contains one located report per booking error.", "quantifier": "every ledger that parses and fails to book, with or without raw plugins", "why_tests_cant": "depends on which of two error encodings the pod chose", "anchors": ["clj/src/limabean/adapter/loader.clj: book-raw-directives", "clj/src/limabean/adapter/pod.clj"]}
{"id": "C55", "title": "Booked directives are traced to source", "statement": "After loading, each booked directive carries the span of the ledger directive it came from, and each booked posting with an index the span of the corresponding ledger posting.", "quantifier": "every ledger that loads", "why_tests_cant": "all ledgers, including pad transactions and split postings", "anchors": ["clj/src/limabean/adapter/loader.clj: resolve-directives-from-raw"]}
{"id": "C56", "title": "Error context reaches the error printer", "statement": "When a booking error is located at a posting, the report sent for formatting names the enclosing transaction as context.", "quantifier": "every booking error with a posting", "why_tests_cant": "crosses the process boundary", "anchors": ["clj/src/limabean/adapter/loader.clj: resolve-report-from-raw", "rust/src/api/types.rs: Report"]}
{"id": "C57", "title": "auto_accounts opens every account before use", "statement": "In the output of auto_accounts the original directives appear unchanged and in order, and before each transaction every account it posts to has an open directive; an account is opened automatically at most once and only if it had not been opened before.", "quantifier": "every list of directives", "why_tests_cant": "all ledgers", "anchors": ["clj/src/beancount/plugins/auto_accounts.clj"]}
{"id": "C58", "title": "Server metadata keys are preserved by the client", "statement": "Every metadata entry of a directive returned by the server is present unchanged in the directive the client sees.", "quantifier": "every metadata map", "why_tests_cant": "all key names", "anchors": ["clj/src/limabean/adapter/pod.clj: convert-values"]}
{"id": "C59", "title": "Formatted text determines the directive's strings", "statement": "Two transactions which differ in payee or narration are formatted differently.", "quantifier": "every pair of transactions", "why_tests_cant": "all strings, including those containing quotes", "anchors": ["clj/src/limabean/core/format.clj: double-quote"]}
{"id": "C60", "title": "The server shows what was parsed", "statement": "The answers to plugin, directive and option requests show everything that was parsed, under the documented field names: each directive in order with its date, span, tags, links, metadata and all parts of its variant; for tolerance defaults the last value given for a currency counts; if parsing failed, the answer lists all parse errors.", "quantifier": "every parsed ledger and every request", "why_tests_cant": "all ledgers and option combinations", "anchors": ["rust/src/api/types/parser_type_conversions.rs", "rust/src/api/server.rs: parser_plugins, parser_directives, parser_options"]}
{"id": "C61", "title": "Batch requests are answered item by item", "statement": "The answer to a format, resolve-spans or create-synthetic-spans request contains exactly one item per item asked for, in the same order: each formatted report followed by its annotation and separated by an empty line, each resolved span, and each new span made after those before it.", "quantifier": "every request and source map", "why_tests_cant": "all lengths of batches", "anchors": ["rust/src/api/server.rs: parser_format_report, parser_resolve_spans, parser_create_synthetic_spans"]}
{"id": "C62", "title": "A book request is answered with the outcome of booking", "statement": "A book request is answered with the booked directives, every field of which is shown, when booking succeeds; otherwise with one error report per booking error, by source location when the ledger itself was booked and by position when directives were sent.", "quantifier": "every parsed ledger and every book request", "why_tests_cant": "all ledgers and outcomes", "anchors": ["rust/src/api/server.rs: book", "rust/src/api/types/booked.rs"]}
{"id": "C63", "title": "The path of a local checkout reaches Clojure unchanged", "statement": "Whatever directory LIMABEAN_CLJ_LOCAL_ROOT names, the dependency text handed to clojure is read back as that directory.", "quantifier": "every directory name", "why_tests_cant": "all strings, including those with quotes and backslashes", "anchors": ["rust/src/bin/limabean/run.rs: Runtime::from_env, clojure"]}
{"id": "C64", "title": "The health sub-command tells whether limabean can be started", "statement": "limabean health never starts limabean; it exits with status 0 when the program and jar which would be used are available and with status 1 otherwise. What it writes last names what was found or what is missing.", "quantifier": "every environment and every further arguments", "why_tests_cant": "all environments", "anchors": ["rust/src/bin/limabean/health.rs", "rust/src/bin/limabean/main.rs"]}
{"id": "C65", "title": "Booked directives reach the client", "statement": "For every booked directive the server answers with, the client sees the same date, span, tags, links, accounts, currencies, booking method and numbers: a number with a decimal point keeps its digits and scale, a whole number is the same integer.", "quantifier": "every list of booked directives with calendar dates", "why_tests_cant": "all directives", "anchors": ["clj/src/limabean/adapter/pod.clj: read-json, convert-values", "rust/src/api/types/booked.rs"]}
{"id": "C66", "title": "A position's total cost fits its units", "statement": "The total cost shown for a position of an inventory is its units times its cost per unit whenever that is so for each posting.", "quantifier": "every inventory", "why_tests_cant": "all histories of purchases and sales", "anchors": ["clj/src/limabean/core/inventory.clj: single-currency-accumulator"]}
{"id": "C67", "title": "Columns of a roll-up", "statement": "In the table of a roll-up what accounts hold themselves stands in one column, given by the deepest account with a holding; the total of an account stands in the column of its depth, left of it; all other cells are empty.", "quantifier": "every inventory and currency", "why_tests_cant": "all account trees", "anchors": ["clj/src/limabean/core/rollup.clj: build, cell"]}
{"id": "C68", "title": "Plugins named by the ledger are used or reported", "statement": "If some plugin named by the ledger cannot be used (its namespace cannot be loaded, has no plugin function, its configuration cannot be read or a function throws), loading ends with an error listing exactly the unusable plugins, before any directives are fetched. Otherwise every plugin takes part in the phases for which it has a function, in the order of the ledger.", "quantifier": "every list of plugins, every set of namespaces and every behaviour of the pod", "why_tests_cant": "all ledgers and plugins", "anchors": ["clj/src/limabean/adapter/loader.clj: get-plugins-and-options", "clj/src/limabean/adapter/plugins.clj"]}
{"id": "C69", "title": "Directives from the server meet the specification", "statement": "Every directive which the server sends, raw or booked, meets the specification against which the client checks directives when plugins are run, so that a ledger without errors never makes the running of plugins fail.", "quantifier": "every raw and every booked directive", "why_tests_cant": "all directives of all kinds, all numbers, all metadata", "anchors": ["clj/src/limabean/spec.clj", "clj/src/limabean/adapter/plugins.clj"]}
{"id": "C70", "title": "Numbers in formatted directives are written plainly", "statement": "Every number in a formatted directive is written as a sign, digits and at most one decimal point, with the digits it has.", "quantifier": "every number of a directive", "why_tests_cant": "all numbers, including very small ones", "anchors": ["clj/src/limabean/core/format.clj"]}
{"id": "C71", "title": "Plugins which change nothing change nothing", "statement": "A directive of the ledger which comes through the raw plugins unchanged is booked as it stands in the ledger; if all do, the booked directives, the errors and their places are those of booking the ledger itself.", "quantifier": "every ledger and every set of raw plugins", "why_tests_cant": "directives make a round trip through two processes and two encodings", "anchors": ["clj/src/limabean/adapter/loader.clj: book-raw-directives", "clj/src/limabean/adapter/pod.clj: convert-values, book", "rust/src/api/types.rs: Directive"]}
{"id": "C72", "title": "Errors in reading the ledger reach the user", "statement": "If the ledger does not parse, loading ends with all parse errors and printing them shows every one, in order, as the server formats them; if the file cannot be read, the reason is thrown.", "quantifier": "every list of parse errors and every reason", "why_tests_cant": "all errors; crosses the process boundary twice", "anchors": ["clj/src/limabean/adapter/loader.clj: load-beanfile", "clj/src/limabean/adapter/error.clj: print-errors", "clj/src/limabean/adapter/pod.clj: start, format-errors", "rust/src/api/server.rs"]}
{"id": "C73", "title": "Loading ends with a result", "statement": "For every ledger file that can be read, loading with any plugins ends with a loaded result, in which problems are recorded, and never with an exception; in particular everything the server sends about booking is understood.", "quantifier": "every ledger, every set of plugins and every hash order", "why_tests_cant": "all behaviours of server and plugins together", "anchors": ["clj/src/limabean/adapter/loader.clj: load-beanfile, get-beans", "clj/src/limabean/adapter/pod.clj"]}
{"id": "C74", "title": "Numbers in tables line up at the decimal point", "statement": "Every number shown in a table is anchored at the place before its decimal point, or at its last place when it has none, and the text shown reads back as the number.", "quantifier": "every integer and every decimal number", "why_tests_cant": "numbers of all sizes and scales", "anchors": ["clj/src/limabean/core/cell.clj: cell ::number, anchored"]}
{"id": "C75", "title": "Tables show everything they are given", "statement": "Two inventories, journals or roll-ups which are shown by the same table have the same accounts, positions and columns in the same order. An inventory has one row for each account, in the order of their names. The columns of journals and positions have a fixed order, and what is missing is left empty.", "quantifier": "every two inventories, journals and roll-ups", "why_tests_cant": "injectivity over all inputs", "anchors": ["clj/src/limabean/core/cell.clj", "clj/src/limabean/core/inventory.clj: cell :position", "clj/src/limabean/core/journal.clj: cell :journal/entry", "clj/src/limabean/core/rollup.clj: cell :rollup/entry"]}
{"id": "C76", "title": "Errors of plugins show the changed text and the source", "statement": "An error which a plugin raises on a directive of the ledger which plugins have changed is reported at the changed text, together with the place of the directive in the ledger.", "quantifier": "every list of plugins and every list of directives", "why_tests_cant": "plugins are arbitrary code", "anchors": ["clj/src/limabean/adapter/error.clj: dct-errors->reports"]}
{"id": "C77", "title": "A session shows the ledger which was loaded last", "statement": "After loading a ledger in a session, the globals *beans*, *directives*, *options* and *registry* all belong to that ledger and to nothing loaded before; if it has errors there are no directives and no registry; if loading it throws, all of them are empty.", "quantifier": "every sequence of loads of any ledgers with any outcome", "why_tests_cant": "histories of loads of any length", "anchors": ["clj/src/limabean/user.clj: load-beanfile, assign-limabean-globals"]}
{"id": "C78", "title": "A session keeps at most one server process", "statement": "At any time in a session at most one server process is running, the one of the ledger which was loaded last.", "quantifier": "every sequence of loads of any ledgers with any outcome", "why_tests_cant": "histories of loads of any length; processes are not visible to unit tests", "anchors": ["clj/src/limabean/user.clj: load-beanfile", "clj/src/limabean/adapter/pod.clj: start, stop", "clj/src/limabean/adapter/error.clj: print-errors"]}
{"id": "C79", "title": "The command line is validated before anything is started", "statement": "A ledger is loaded exactly when the command line names an existing ledger and has no errors, no superfluous arguments and no request for help or the version. Otherwise nothing is started; the exit status is 0 for help and the version and 1 with a message naming what is wrong in all other cases.", "quantifier": "every parsed command line and every file system", "why_tests_cant": "all combinations of options", "anchors": ["clj/src/limabean/main.clj: validate-args, -main"]}
{"id": "C80", "title": "The exit status of --eval tells whether all went well", "statement": "With --eval the exit status is 0 only if the expression could be read, the ledger was loaded without errors, and the expression was evaluated without exception; otherwise it is 1 and there is a message. Without --eval it is 0, whatever came of the ledgers loaded in the session.", "quantifier": "every ledger, expression and outcome", "why_tests_cant": "all combinations of failures", "anchors": ["clj/src/limabean/app.clj: try-eval, init", "clj/src/limabean/user.clj: load-beanfile"]}
{"id": "C81", "title": "User code is loaded from each file given", "statement": "At the start of each session every file named in $LIMABEAN_USER_CLJ, separated by colons, is loaded once and in order, though earlier ones fail; each failure is reported with the name of the file and the reason.", "quantifier": "every value of the variable and every subset of files which fail", "why_tests_cant": "all failures of user code", "anchors": ["clj/src/limabean/adapter/user_clj.clj: load-user-cljs", "clj/src/limabean/app.clj: init"]}
{"id": "C82", "title": "Why a ledger could not be loaded is shown", "statement": "Whatever stops a ledger from being loaded, the reason is shown to the user: why the file cannot be read, why a plugin cannot be used, what a plugin has thrown.", "quantifier": "every reason, plugin and exception", "why_tests_cant": "plugins are arbitrary code", "anchors": ["clj/src/limabean/adapter/error.clj: print-error, print-errors", "clj/src/limabean/adapter/exception.clj: handle-exception", "clj/src/limabean/adapter/pod.clj: start"]}
{"id": "C83", "title": "The numbers of directives which are announced are right", "statement": "Loading a ledger announces how many directives were read from it and, if there were no errors, how many there are after booking and plugins.", "quantifier": "every ledger and every set of plugins", "why_tests_cant": "all outcomes of loading", "anchors": ["clj/src/limabean/user.clj: load-beanfile"]}
{"id": "C84", "title": "What one side writes the other reads", "statement": "The JSON text which the server writes for any message, and that which the client writes, is one line without control characters and is read by the other side as exactly the same message: every string, number, order of fields and nesting is preserved. Text which is not JSON is refused.", "quantifier": "every JSON tree of any size, with strings of any bytes and numbers of any size; every text", "why_tests_cant": "infinitely many strings, numbers and texts", "anchors": ["clj/src/limabean/adapter/pod.clj: write-msg, read-msg", "rust/src/api/server.rs: dispatch, write_response"]}
{"id": "C85", "title": "Calls over the pipe are answered in step", "statement": "For every sequence of calls by the client, each call can be written, each line read back is the answer to the call which was last made, and it is the answer of the server to exactly the message that was meant; once the server has crashed every answer is empty. A call nested deeper than the server accepts is refused.", "quantifier": "every sequence of calls of any length, every ledger, every state of the server", "why_tests_cant": "all sequences of calls and all contents; one line too many would shift every later answer", "anchors": ["clj/src/limabean/adapter/pod.clj: write-line, read-to-eol, write-msg, read-msg, invoke", "rust/src/api/server.rs: serve, dispatch"]}
{"id": "C86", "title": "With auto_accounts no transaction fails for want of an open", "statement": "If auto_accounts is the only raw plugin of a ledger, the server books exactly the ledger's directives, unchanged and in order, with an open inserted directly before the first transaction which uses an account that nothing before opened or used; every posting then has an open of its account before it, no inserted open is refused, and no report at a posting says that its account is not open.", "quantifier": "every ledger of any size, every map order, every booking library meeting its contract", "why_tests_cant": "all ledgers; the property crosses plugin, wire format in both directions, and booking", "anchors": ["clj/src/beancount/plugins/auto_accounts.clj", "clj/src/limabean/adapter/loader.clj: run-plugins, book-raw-directives", "rust/src/api/booking/accumulator.rs: transaction, open"]}
{"id": "C87", "title": "What the user's reports show is what was booked", "statement": "When a ledger loads without an error and no plugin runs after booking, the client reads every directive which the server booked, in order; for any filters, an account in the user's inventory holds in each currency exactly the units which the server booked to it in postings passing the filters, the inventory as a whole holds their sum, and the rows of the journal are exactly those postings in order, each with a balance of the units up to it.", "quantifier": "every ledger of any size, every plugin before booking, every filter, account and currency, every map order on both sides", "why_tests_cant": "all ledgers and filters; the property crosses booking, wire format, decoding and the client's accumulators", "anchors": ["clj/src/limabean/adapter/loader.clj: book-raw-directives", "clj/src/limabean/core/inventory.clj", "clj/src/limabean/core/journal.clj", "clj/src/limabean/core/xf.clj: postings, all-of", "rust/src/api/booking/accumulator.rs"]}
{"id": "C88", "title": "A passed balance assertion is what the user sees", "statement": "If a ledger is in order (by date, a day's balance assertions before its transactions and pads) and loads, then for each balance assertion the units in all accounts under the asserted one before its day, in the user's inventory and at the end of the user's journal, are within the tolerance of the asserted amount, or exactly that amount if a pad was filled.", "quantifier": "every ledger of any size, every position in it, every map order", "why_tests_cant": "all ledgers and positions; the property crosses the server's balance checking and the client's filters and accumulators", "anchors": ["rust/src/api/booking/accumulator.rs: balance", "clj/src/limabean/core/filters.clj: sub-acc, date<", "clj/src/limabean.clj: inventory, journal"]}
{"id": "C89", "title": "The same ledger gives the same reports", "statement": "Loading the same ledger (without plugins) twice succeeds both times or neither time; if it succeeds, the journal, the inventory, the balances and the income statement for any filters are the same, and the rollup of an inventory is the same, in whatever order hash maps on either side list their entries.", "quantifier": "every ledger of any size, every filter, every pair of map orders on the server and on the client", "why_tests_cant": "a test sees one order of a map; the property is about all pairs of orders", "anchors": ["clj/src/limabean/core/inventory.clj: positions, compare-cost-keys", "clj/src/limabean/core/journal.clj: build", "clj/src/limabean/core/rollup.clj: build", "clj/src/limabean.clj: inventory, rollup, balances, income-statement, journal", "rust/src/api/booking/accumulator.rs"]}
{"id": "C90", "title": "show prints all of what it is given, or throws", "statement": "show of an inventory, a journal or a rollup prints its table whatever its size; of any other value it prints every text in it exactly once, maps and sets of strings or of keywords in alphabetical order, sets with both in the order they have; if it cannot, it prints nothing and throws an exception with the reason.", "quantifier": "every inventory, journal, rollup and value of any size and depth; whether or not limabean-pod is found", "why_tests_cant": "all values; the table passes through JSON text and another program, whose reader has a limit on nesting", "anchors": ["clj/src/limabean/adapter/show.clj: show", "clj/src/limabean/adapter/tabulate.clj: render", "clj/src/limabean/adapter/shell.clj: try-sh", "clj/src/limabean/core/cell.clj: cell", "rust/src/bin/limabean-pod/main.rs: tabulate, main"]}
{"id": "C91", "title": "What plugins make of the ledger is what is booked", "statement": "With any number of the plugins in clj/test-plugins before booking (set-narration, tag-matching, set-metadata, duplicate-txns, auto-close, identity), configured in any way they allow, the server is asked to book, and understands, exactly the ledger edited as each of them says, in the order they are named, and the outcome of loading is that of booking the edited ledger: directives the client does not touch arrive as the parser made them. If a plugin which fails on certain directives comes after them and it comes to booking, there is no such directive.", "quantifier": "every ledger of any size, every list of such plugins, every configuration, every map order on both sides", "why_tests_cant": "all ledgers and all sequences of plugins; the property crosses decoding, transducers, merging of spans, encoding and the reader of the server", "anchors": ["clj/test-plugins/src/limabean/test/plugins/*.clj: raw-xf", "clj/src/limabean/adapter/plugins.clj: run-xf", "clj/src/limabean/adapter/synthetic_spans.clj", "clj/src/limabean/adapter/loader.clj: book-raw-directives", "rust/src/api/types/raw.rs"]}
{"id": "C92", "title": "auto_accounts works among other plugins", "statement": "With any of the plugins of the repository before booking, auto_accounts and those in clj/test-plugins, in any order and number, the server is asked to book, and understands, the ledger turned as each of them says, one after the other. If auto_accounts is among them, at whatever place, loading never fails because a transaction uses an account which is not open: either what results is booked, or no error at a posting is of this kind.", "quantifier": "every ledger of any size, every sequence of such plugins, every configuration, every map order on both sides", "why_tests_cant": "all ledgers and all orders of plugins; the property crosses plugins with and without state, the wire and booking", "anchors": ["clj/src/beancount/plugins/auto_accounts.clj: raw-xf", "clj/test-plugins/src/limabean/test/plugins/*.clj: raw-xf", "clj/src/limabean/adapter/plugins.clj: run-plugins-of-kind", "rust/src/api/booking/accumulator.rs"]}
{"id": "C93", "title": "Plugins after booking change what the user sees only as they say", "statement": "With any number of plugins after booking (fail, auto-close, create-event, adjust-postings-after-booking, identity), configured in any way they allow, a ledger which loads without an error gives the user exactly the booked directives changed as each plugin says, in the order they are named. Plugins which add neither transactions nor opens leave every inventory and journal as it is without them; otherwise each account holds what was booked to it with what the plugins add to each of its postings, and so do the rows and balances of the journal. adjust-postings-after-booking throws for exactly the directives with a posting to which its configuration cannot be added (no number, or a 64-bit sum which does not fit; nil and false add nothing). Nothing checks the result: transactions need no longer balance and passed balance assertions need not be what is shown.", "quantifier": "every ledger of any size, every list of such plugins, every configuration, every filter, every map order on both sides", "why_tests_cant": "all ledgers and all sequences of plugins; the property crosses booking, the wire, decoding, transducers, spans and reports", "anchors": ["clj/test-plugins/src/limabean/test/plugins/*.clj: booked-xf", "clj/src/limabean/adapter/plugins.clj: run-xf", "clj/src/limabean/adapter/loader.clj: load-beanfile", "clj/src/limabean.clj: inventory, journal"]}
{"id": "C94", "title": "A plugin gets the configuration which is written in the ledger", "statement": "If a ledger loads without an error, each plugin it names was given exactly the value which the text of its configuration denotes as EDN (comments, discarded forms, nested maps, sets, vectors, exact decimals, dates and strings with escapes), and nil if it has none. A text which denotes nothing, such as an unfinished map or one with a key twice, makes the ledger be refused with the name of the plugin. A value without regular expressions, printed by the client, is read again as the same value.", "quantifier": "every text of any length, every EDN value of any depth, every ledger and list of plugins", "why_tests_cant": "all texts and all nested values; the property is about a reader, its inverse, and the way of the text through the wire and the loader", "anchors": ["clj/src/limabean/adapter/edn.clj: readers, read-string", "clj/src/limabean/adapter/print.clj: print-method LocalDate", "clj/src/limabean/adapter/plugins.clj: resolve-symbols, resolve-xfs-with-config"]}
{"id": "C95", "title": "What is printed of a ledger is a ledger, and the same one", "statement": "The directives of a loaded ledger, whether as read or as booked, when they are printed one by one or together, are text which is read again as a ledger with the same directives in the same order: the same dates, accounts, exact numbers, costs, prices, tags, links and metadata. Booked directives are read as postings with their booked units, and costs and prices per unit. (This holds for strings without quotes and backslashes, numbers the client prints without an exponent, and metadata the client keeps; a balance with a tolerance and a price for all units are printed in a form only limabean has; a total cost beside a cost per unit, and null values of a custom directive, are lost.)", "quantifier": "every ledger of any size with every kind of directive, every order of sets and maps on both sides, every type metadata the values carry", "why_tests_cant": "all ledgers; the property composes the wire, decoding, printing and reading, over unbounded texts", "anchors": ["clj/src/limabean/adapter/print.clj: print-method", "clj/src/limabean/core/type.clj: directives, type-as", "clj/src/limabean/core/format.clj: directive->str", "rust/src/api/types/raw.rs", "rust/src/api/types/booked.rs"]}
{"id": "C96", "title": "Dumps for debugging are the ledger as it was read and as it was booked", "statement": "With LIMABEAN_DEBUG_DIR defined, loading dir/stem.ext leaves stem.raw.beancount, from which the ledger is read again with the same directives, and if it books stem.booked.beancount, from which the booked directives are read; no other file is written. (What plugins make of the ledger is in no file, and ledgers of the same name in different directories share their files.)", "quantifier": "every ledger of any size, every path, every list of plugins, every order of sets and maps", "why_tests_cant": "all ledgers and paths; the property composes loading, booking, formatting and reading", "anchors": ["clj/src/limabean/adapter/loader.clj: dump, get-raw-directives, run-plugins, book-raw-directives", "clj/src/limabean/adapter/debug.clj: dump"]}
{"id": "C97", "title": "Golden tests are found and pass exactly when the ledgers give what is expected", "statement": "Every ledger name.beancount below a directory which has a sibling name.golden, and is not named .fyi.beancount, is a test, in the order of the walk, and no two ledgers share a golden directory (a file with no name before the dot is the exception). The tests pass if and only if the text of every raw-xf-directives.edn, directives.edn and error.edn there is denotes a pattern of what the ledger gives now; without regular expressions that is a value equal to it. The tests of what is shown pass if and only if each of the files inventory, rollup and journal there is has exactly the text which its query shows now.", "quantifier": "every list of paths, every content of every golden file, every result of every ledger, every strict matcher", "why_tests_cant": "all sets of files and all nested values; the property composes the walk, the EDN reader and the matcher", "anchors": ["clj-test/src/limabean/test.clj: find-golden-tests, api-tests", "clj/src/limabean/adapter/edn.clj: read-string"]}
{"id": "C98", "title": "Golden output which has been written passes until a ledger gives something else", "statement": "After update-all has written the golden output of all ledgers, each file holds what its ledger gives: directives changed by plugins and those whose file was there, queries whose file was there, and for a ledger with an error the error only; no other file is written, whether or not all ledgers can be loaded. The tests then pass for as long as every ledger gives equal values, in whatever order sets and maps are, and shows the same; and if they pass later, every value which was written is a pattern of the value there is now. (This needs that no file is left from when the ledger had an error and now has none, or the other way round: such files are not removed, and then the tests fail at once.)", "quantifier": "every set of files and ledgers of any size, every earlier content, every later result", "why_tests_cant": "all histories of writing and testing; the property is an induction over all tests with separate directories", "anchors": ["clj-test/src/limabean/test/create_golden.clj: update-all, OUTPUTS", "clj-test/src/limabean/test.clj: api-tests, app-tests"]}
{"id": "C99", "title": "The same ledger gives the same values whenever it is loaded", "statement": "A ledger without plugins which is loaded twice has the same directives both times, before booking and after it: the same keys with the same values, vectors in the same order, sets with the same elements; or booking fails both times with the same error. This is so in whatever order either side keeps its hash sets and maps, and golden tests find no difference. (Of the options this is true but for the documents and the operating currencies, which are lists that come in the order of a hash set.)", "quantifier": "every ledger of any size, every pair of runs, every order of sets and maps on both sides in each of them", "why_tests_cant": "all ledgers and all pairs of hash orders; the property composes booking, the wire, decoding and tracing", "anchors": ["rust/src/api/types/serializers.rs", "rust/src/api/types/raw.rs: Options", "clj/src/limabean/adapter/pod.clj: read-msg, coerce-arrays", "clj/src/limabean/adapter/loader.clj: load-beanfile, resolve-directives-from-raw"]}
{"id": "C100", "title": "Reports of periods add up", "statement": "Of the inventory, the balances and the income statement, with any other filters: what each account holds for a period is the sum of what it holds for the parts it is divided into by any days in order, and what is held before the last day is what was held before the first and what was added in each part. The journal before a day is the beginning, row by row with the same balances, of the journal before a later day, and ends with what all accounts hold. A financial year of the example filter has the days from the first of April to the last of March: every day from the year 100 on is in one and in no other, and reports of consecutive years add up.", "quantifier": "every ledger of any size, every list of days in order, every list of other filters, every order of lots", "why_tests_cant": "all ledgers and all divisions of time; the property is an induction over the postings and over the days", "anchors": ["clj/src/limabean.clj: inventory, balances, income-statement, journal", "clj/src/limabean/core/filters.clj: date<, date>=<, date-between", "clj/src/limabean/core/inventory.clj: build", "clj/src/limabean/core/journal.clj: build", "examples/clj/user.clj: fy"]}
{"id": "C101", "title": "The books balance", "statement": "If the booking library accepts a transaction without costs and prices only when the units of each currency add up to zero within a tolerance, then what the user sees in all accounts together, for any choice of transactions by date, payee and narration, adds up to zero within the sum of the tolerances of the chosen transactions of the ledger: nothing is lost or added on the way, and pads, the expansion of postings into lots and the client's accumulation add nothing. The balances, the income statement and what is in neither make up the whole.", "quantifier": "every ledger of any size, every library which keeps the promise, every list of filters by date, payee and narration, every order of hash maps and lots", "why_tests_cant": "all ledgers; the property is an induction over the ledger which composes booking, pads, the wire and the accumulation of lots", "anchors": ["rust/src/api/booking/accumulator.rs: book, balance, pad, calculate_balance_pad_postings", "clj/src/limabean.clj: inventory, balances, income-statement", "clj/src/limabean/core/inventory.clj: build", "clj/src/limabean/core/filters.clj"]}
{"id": "C102", "title": "Booking what was booked changes nothing", "statement": "The booked directives, written down as a ledger (which is what the dump of booked directives is), can be booked again: booking succeeds with the same warnings, the directives which result are the same when written down, and so on however often it is repeated. The inventory and the journal of the ledger booked again show what they showed, whatever the filters: as much of each currency in each account, the same rows, the same balances. This is so for ledgers without pads, if the booking library takes transactions which it has completed as they are. With a pad it is not so: the dump has both the pad and the transaction which came of it, and is refused because nothing is left to pad.", "quantifier": "every ledger of any size which books, every library which takes completed transactions as they are, all hash orders of both runs", "why_tests_cant": "all ledgers and the states of all accounts at every directive of both runs; needs a simulation between the runs", "anchors": ["rust/src/api/booking/accumulator.rs: collect, book, balance, open, close, pad, validate", "clj/src/limabean/adapter/loader.clj", "clj/src/limabean/adapter/print.clj"]}
{"id": "C103", "title": "What was seen of a period does not change when later entries are added", "statement": "If a ledger books and is continued with more directives and still books, all that was booked before is there as it was, with its warnings, followed by what is new. Two ledgers which have the same first part, and after it directives of the day D and later only, show the same reports for the days before D, whatever other filters the user gives: the same inventory, balances, income statement and journal, exactly. This also holds if the places of the directives in the files are not the same. It needs the first part to book for itself: the amount of a pad for which no balance assertion has come yet is decided by what is added.", "quantifier": "every ledger of any size, all continuations, every day, all filters, all hash orders of both runs", "why_tests_cant": "all ledgers and all continuations of them, with the state of every account at the cut; needs an invariant of the whole run", "anchors": ["rust/src/api/booking/accumulator.rs: collect, balance, pad, validate", "clj/src/limabean/core/inventory.clj", "clj/src/limabean/core/journal.clj", "clj/src/limabean/core/filters.clj"]}
{"id": "C104", "title": "Annotations and places have no effect on what is booked", "statement": "Ledgers which differ only in where their directives and postings stand in the files have the same outcome: the same is booked with the same warnings, or the same errors are found. If they also differ in flags, payees, narrations, tags, links and metadata, and in the content of directives which move and check nothing (prices, notes, documents, events and so on), then the same is booked but for these, or the same errors are found at the same directives but for the descriptions in their tables. With filters on dates, accounts and currencies, the inventory shows as much of each currency in each account and the journal the same rows and balances.", "quantifier": "every pair of ledgers of any size which are the same but for annotations or places, every library which sees of a posting what the code gives it, all filters on dates, accounts and currencies", "why_tests_cant": "all pairs of ledgers: a noninterference property of two runs", "anchors": ["rust/src/api/booking/accumulator.rs: collect, book, balance", "rust/src/api/booking/types.rs: PostingSpec", "clj/src/limabean/core/filters.clj"]}
{"id": "C105", "title": "Two sets of books in one ledger do not affect each other", "statement": "Let every directive of a ledger belong to one of two sets of books with different accounts, no balance assertion being on an account above accounts of the other. Then the ledger is booked exactly if each of the two is booked for itself, and for the directives of each the same is booked as if they were alone, but for the numbers of the directives. With filters which let only accounts of one of them pass, the inventory and the journal are those of these books alone.", "quantifier": "every ledger of any size and every division of it in two, every order in which accounts are enumerated, every library which looks only at the accounts of the postings, all filters which let pass only accounts of one side", "why_tests_cant": "all ledgers and divisions: a noninterference property of three runs", "anchors": ["rust/src/api/booking/accumulator.rs: collect, balance, is_nonstrict_subaccount, pad", "clj/src/limabean/core/inventory.clj", "clj/src/limabean/core/journal.clj"]}
{"id": "C106", "title": "The order in which transactions are written between other directives does not matter", "statement": "If transactions without costs which follow each other are put in another order, the ledger is booked exactly if it was before, with the same warnings; the same is booked but for the order, the numbers of directives and the way the numbers of pads are written; and the inventory, with whatever filters, shows as much of each currency in each account.", "quantifier": "every ledger of any size and every rearrangement of transactions without costs which have no other directive between them, with pads and assertions around them, every library for which such transactions commute", "why_tests_cant": "all ledgers and rearrangements: a confluence property of two runs", "anchors": ["rust/src/api/booking/accumulator.rs: collect, book, balance, pad", "clj/src/limabean/core/inventory.clj"]}
{"id": "C107", "title": "Renaming accounts renames the results and changes nothing else", "statement": "If the accounts of a ledger get other names, which are below each other as the old ones were, what is booked is the same with the other names, and the warnings are the same; a ledger which is refused is refused, with errors at the same places; inventories show under the new name of an account what they showed under the old one, and the journal has the same rows with the new names and the same balances.", "quantifier": "every ledger of any size, every renaming which keeps the hierarchy of its accounts (also into another language, or to another alphabetical order), every order of hash maps in each of the runs, every library which takes names as they are", "why_tests_cant": "all ledgers and all renamings: an equivariance property of two runs, with hash maps in different orders", "anchors": ["rust/src/api/booking/accumulator.rs: collect, book, balance, balance_report, open, close, pad, is_nonstrict_subaccount", "clj/src/limabean/core/inventory.clj", "clj/src/limabean/core/journal.clj"]}
{"id": "C108", "title": "Directives which only check or comment may be left out", "statement": "If a ledger books, it still books when any notes, events, prices, commodities, documents, queries and custom directives, and any balance assertions for which no pad waits, are left out; what is booked for the rest, all inventories and all journals are the same. Whether a ledger books does not depend on notes and the like at all.", "quantifier": "every ledger of any size, every choice of such directives to leave out, all filters, every order of hash maps", "why_tests_cant": "all ledgers and all subsets of their directives: a statement about two runs with differently numbered directives", "anchors": ["rust/src/api/booking/accumulator.rs: collect, book, directive, balance, pad", "clj/src/limabean/core/inventory.clj", "clj/src/limabean/core/journal.clj"]}
{"id": "C109", "title": "What plugins leave is complete", "statement": "Whatever the plugins of a ledger do, each directive which is left after they have run carries an error of a plugin or is complete: it has a date and a kind, everything that kind requires, each of the right type, and what is optional of the right type where it is there; the postings of a booked transaction have account, units, currency and readable costs. A plugin which makes anything less, without an error, makes loading fail.", "quantifier": "all plugins and configurations, as arbitrary functions of what they have received, any number of them, all directives which they are given or make, every load", "why_tests_cant": "plugins are arbitrary programs of the user; the claim is about everything they may make, in both phases and in any combination", "anchors": ["clj/src/limabean/spec.clj: directive-spec, raw-dct, booked-dct", "clj/src/limabean/adapter/plugins.clj: tag-and-validate-unseen, run-plugins-of-kind", "clj/src/limabean/adapter/loader.clj: run-plugins, load-beanfile", "clj/src/limabean/adapter/synthetic_spans.clj"]}
{"id": "C110", "title": "Renaming commodities renames the results and changes nothing else", "statement": "If all commodities of a ledger get other names, no two of them the same, everywhere they occur (postings, costs, prices, balance assertions, the currencies an account is opened with, commodity directives, metadata), then what is booked is what was booked before with the new names in place of the old ones, with the same warnings; a ledger which was refused is refused, with the same errors, related places and tables, but for the names in the texts. The inventory shows for each account as much under the new name of a commodity as under the old one and nothing else, and the journal has the same rows with the same units and running balances under the new names. If two commodities get the same name, that need not hold.", "quantifier": "every ledger, every injective renaming of commodities, every booking method and every order in which the hash maps are visited; reports for any pair of filters which let the renamed pass as they did the old; booking libraries which treat names of commodities as they are", "why_tests_cant": "a test compares one ledger with one renaming; this is about all pairs of runs at once, and about hash orders, which tests do not control", "anchors": ["rust/src/api/booking/accumulator.rs: collect, book, balance, balance_report, open, pad, validate_currency", "clj/src/limabean/core/inventory.clj", "clj/src/limabean/core/journal.clj"]}
{"id": "C111", "title": "Within the range of decimals amounts are calculated exactly", "statement": "The server calculates with decimals of 96 bits and at most 28 places, which round and overflow. As long as, at each balance assertion, what is asserted and what all accounts hold of that commodity, added up regardless of sign, and likewise what was asserted before and all that has been posted, stay below 2^96 units of the last decimal place in use, booking does exactly what it would do with unbounded decimals: the same directives, warnings and errors, and no panic from overflow; sums are then exact in whatever order they are formed. Beyond that range a ledger whose amounts and sums can all be represented may make the server panic or not, depending on the order in which a hash map visits the accounts.", "quantifier": "every ledger of any size, every decimal arithmetic which is exact where the exact result can be represented and refuses sums which are too large, every order of hash maps, every booking library", "why_tests_cant": "sums of arbitrarily many amounts in arbitrary hash orders; a test has one order and a few amounts", "anchors": ["rust/src/api/booking/accumulator.rs: total_rollup_units_for_currency, balance, balance_report, calculate_balance_margin"]}
{"id": "C112", "title": "Reports in a session are those of the ledger loaded last", "statement": "However ledgers are loaded and reports asked for in a session, each report (inventory, balances, income-statement, journal, rollup of an inventory) is the one of the ledger loaded last and depends on nothing before it; if that ledger loaded without an error it is exactly the report of its directives and options, and each account has the units which were booked to it. If it did not load, or none was loaded, every report shows nothing, and only the roll-up throws: reports do not tell a ledger with errors from an empty one.", "quantifier": "every sequence of loads and reports of any length, every ledger, every outcome of loading, every list of filters, every map order", "why_tests_cant": "all interleavings of loads and reports, with loads which fail at any stage between them", "anchors": ["clj/src/limabean/user.clj: load-beanfile, inventory, rollup, balances, income-statement, journal", "clj/src/limabean.clj: inventory, rollup, balances, income-statement, journal"]}
