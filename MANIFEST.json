{
 "claims": [
  {
   "property": "C01",
   "status": "proved",
   "theorems": [
    "C01_output_mirrors_ledger"
   ],
   "note": ""
  },
  {
   "property": "C02",
   "status": "proved",
   "theorems": [
    "C02_all_or_nothing"
   ],
   "note": ""
  },
  {
   "property": "C03",
   "status": "proved",
   "theorems": [
    "C03_postings_to_open_accounts"
   ],
   "note": ""
  },
  {
   "property": "C04",
   "status": "proved",
   "theorems": [
    "C03_postings_to_open_accounts",
    "C04_balances_in_allowed_currencies"
   ],
   "note": ""
  },
  {
   "property": "C05",
   "status": "proved",
   "theorems": [
    "C05_opened_at_most_once",
    "C05_closed_at_most_once",
    "C05_closed_while_open",
    "C05_pads_on_open_accounts",
    "C04_balances_in_allowed_currencies"
   ],
   "note": ""
  },
  {
   "property": "C06",
   "status": "proved",
   "theorems": [
    "C06_lifecycle_meaning",
    "C06_opens_reported",
    "C06_closes_reported",
    "C06_pads_reported",
    "C06_balances_reported",
    "C06_transactions_reported",
    "C06_others_not_reported"
   ],
   "note": ""
  },
  {
   "property": "C07",
   "status": "proved",
   "theorems": [
    "C07_postings_traced"
   ],
   "note": "premise lib_ok on the booking library"
  },
  {
   "property": "C08",
   "status": "proved",
   "theorems": [
    "C08_balances_hold_without_pads"
   ],
   "note": "premise lib_ok on the booking library"
  },
  {
   "property": "C09",
   "status": "proved",
   "theorems": [
    "C09_balance_decided",
    "C09_balance_appended",
    "C09_accumulated_on_success"
   ],
   "note": "premise lib_ok"
  },
  {
   "property": "C10",
   "status": "proved",
   "theorems": [
    "C10_tolerance"
   ],
   "note": ""
  },
  {
   "property": "C11",
   "status": "proved",
   "theorems": [
    "C11_account_boundaries",
    "C11_code_test"
   ],
   "note": ""
  },
  {
   "property": "C12",
   "status": "proved",
   "theorems": [
    "C12_pads_are_filled"
   ],
   "note": ""
  },
  {
   "property": "C13",
   "status": "proved",
   "theorems": [
    "C13_pad_makes_exact",
    "C13_next_balance_exact"
   ],
   "note": "premise lib_ok"
  },
  {
   "property": "C14",
   "status": "proved",
   "theorems": [
    "C14_pad_never_used",
    "C14_second_pad",
    "C14_pad_at_balance",
    "C14_no_unused_pad_on_success",
    "C14_pending_meaning"
   ],
   "note": ""
  },
  {
   "property": "C15",
   "status": "partial",
   "theorems": [
    "C15_refuted",
    "C15_balances_hold_partial"
   ],
   "note": "full statement refuted (C15_refuted): a pad on a sub-account is filled after a balance on the parent was checked. Proved: postings of pads filled later are not counted."
  },
  {
   "property": "C16",
   "status": "partial",
   "theorems": [
    "C16_refuted",
    "C16_no_panic_partial",
    "C16_panic_cause"
   ],
   "note": "full statement refuted (C16_refuted): a balance consuming a pad whose source was never opened panics. Proved: this is the only cause."
  },
  {
   "property": "C17",
   "status": "partial",
   "theorems": [
    "C17_refuted",
    "C17_padded_account_open_partial"
   ],
   "note": "full statement refuted (C17_refuted): the source of a pad may be closed or not allow the currency. Proved for the padded account; the source has been opened at some point."
  },
  {
   "property": "C18",
   "status": "proved",
   "theorems": [
    "C18_repeated_balance"
   ],
   "note": ""
  },
  {
   "property": "C19",
   "status": "proved",
   "theorems": [
    "C19_rejected_without_effect"
   ],
   "note": "premise lib_ext: the library depends only on the values of the functions it is given"
  },
  {
   "property": "C20",
   "status": "proved",
   "theorems": [
    "C20_order_independent"
   ],
   "note": "premise lib_ext"
  },
  {
   "property": "C21",
   "status": "proved",
   "theorems": [
    "C21_errors_located"
   ],
   "note": ""
  },
  {
   "property": "C22",
   "status": "proved",
   "theorems": [
    "C22_failure_table"
   ],
   "note": ""
  },
  {
   "property": "C23",
   "status": "partial",
   "theorems": [
    "C23_refuted",
    "C23_one_currency_partial"
   ],
   "note": "full statement refuted (C23_refuted): postings in other currencies are added. Proved when all postings in the window are in the asserted currency."
  },
  {
   "property": "C24",
   "status": "proved",
   "theorems": [
    "C24_method_resolution",
    "C24_warnings"
   ],
   "note": "warnings: premise that the library supports its own default method"
  },
  {
   "property": "C25",
   "status": "proved",
   "theorems": [
    "C25_metadata_round_trip",
    "C25_metadata_accepted"
   ],
   "note": ""
  },
  {
   "property": "C26",
   "status": "proved",
   "theorems": [
    "C26_span_round_trip",
    "C26_span_accepted",
    "C26_index_form",
    "C26_index_determined"
   ],
   "note": ""
  },
  {
   "property": "C27",
   "status": "proved",
   "theorems": [
    "C27_date_round_trip",
    "C27_date_accepted",
    "C27_valid_dates"
   ],
   "note": "the time crate is modelled from its documentation"
  },
  {
   "property": "C28",
   "status": "proved",
   "theorems": [
    "C28_directive_round_trip",
    "C28_directive_accepted",
    "C28_unknown_fields_ignored",
    "C28_names",
    "C28_odd_names_refused"
   ],
   "note": "names needing JSON escapes are excluded and proved to be refused"
  },
  {
   "property": "C29",
   "status": "proved",
   "theorems": [
    "C29_input_lines",
    "C29_one_response_per_line",
    "C29_response_is_one_line",
    "C29_panic_causes"
   ],
   "note": "writing to standard output is assumed not to fail; a line which is not UTF-8 ends the server with status 1"
  },
  {
   "property": "C30",
   "status": "partial",
   "theorems": [
    "C30_refuted",
    "C30_id_partial",
    "C30_id_lost"
   ],
   "note": "full statement refuted (C30_refuted): the id is dropped when the ledger did not parse. Proved otherwise, except for integers of more than 32 bits."
  },
  {
   "property": "C31",
   "status": "proved",
   "theorems": [
    "C31_malformed",
    "C31_wrong_version",
    "C31_unhealthy",
    "C31_response_shape",
    "C31_requests"
   ],
   "note": ""
  },
  {
   "property": "C32",
   "status": "proved",
   "theorems": [
    "C32_ledger_answers",
    "C32_state",
    "C32_unhealthy_state"
   ],
   "note": ""
  },
  {
   "property": "C33",
   "status": "proved",
   "theorems": [
    "C33_fetched_booked"
   ],
   "note": "premise lib_ext; names without characters needing JSON escapes"
  },
  {
   "property": "C34",
   "status": "proved",
   "theorems": [
    "C34_arguments_passed_through",
    "C34_panics_only_on_non_text",
    "C34_version_line",
    "C34_command_shown"
   ],
   "note": "exec is assumed to start the program it is given"
  },
  {
   "property": "C35",
   "status": "proved",
   "theorems": [
    "C35_one_origin",
    "C35_origin_started",
    "C35_every_origin_starts",
    "C35_ignored_dependencies_warned"
   ],
   "note": ""
  },
  {
   "property": "C36",
   "status": "proved",
   "theorems": [
    "C36_units_conserved",
    "C36_no_empty_positions",
    "C36_collapsed_units"
   ],
   "note": ""
  },
  {
   "property": "C37",
   "status": "proved",
   "theorems": [
    "C37_lots_merged",
    "C37_lots_kept_apart"
   ],
   "note": ""
  },
  {
   "property": "C38",
   "status": "partial",
   "theorems": [
    "C38_refuted",
    "C38_equal_costs_partial"
   ],
   "note": "full statement refuted (C38_refuted): a lot bought at 7 and one bought at 7.00 are kept apart. Proved where the numbers are all whole or all have a point."
  },
  {
   "property": "C39",
   "status": "proved",
   "theorems": [
    "C39_listed_in_order",
    "C39_kept_apart_in_order",
    "C39_order_is_weak_order",
    "C39_comparison"
   ],
   "note": ""
  },
  {
   "property": "C40",
   "status": "partial",
   "theorems": [
    "C40_refuted",
    "C40_refuted_large",
    "C40_inventory_exists_partial"
   ],
   "note": "full statement refuted (C40_refuted, C40_refuted_large): average booking is not implemented, and sums beyond 64 bits overflow. Proved otherwise."
  },
  {
   "property": "C41",
   "status": "partial",
   "theorems": [
    "C41_refuted",
    "C41_default_is_strict",
    "C41_as_intended_partial"
   ],
   "note": "full statement refuted (C41_refuted): the client looks for the option under another name. Proved that the default is always strict, and that this is as intended where the option asks for a method which merges lots."
  },
  {
   "property": "C42",
   "status": "proved",
   "theorems": [
    "C42_currencies",
    "C42_booking_methods"
   ],
   "note": ""
  },
  {
   "property": "C43",
   "status": "proved",
   "theorems": [
    "C43_accounts_listed",
    "C43_items",
    "C43_totals",
    "C43_totals_of_postings"
   ],
   "note": "account names which do not end with a colon, which the parser does not allow"
  },
  {
   "property": "C44",
   "status": "partial",
   "theorems": [
    "C44_refuted",
    "C44_primary_currency_partial",
    "C44_only_without_positions"
   ],
   "note": "full statement refuted (C44_refuted): rolling up an inventory without positions throws. Proved for all others, and that these are the only ones."
  },
  {
   "property": "C45",
   "status": "proved",
   "theorems": [
    "C45_journal",
    "C45_journal_exists"
   ],
   "note": "a journal exists if the whole numbers posted stay within 64 bits"
  },
  {
   "property": "C46",
   "status": "proved",
   "theorems": [
    "C46_date_filters",
    "C46_date_range",
    "C46_arguments",
    "C46_split"
   ],
   "note": ""
  },
  {
   "property": "C47",
   "status": "proved",
   "theorems": [
    "C47_combinators",
    "C47_selected_postings",
    "C47_account_filters"
   ],
   "note": ""
  },
  {
   "property": "C48",
   "status": "proved",
   "theorems": [
    "C48_balances",
    "C48_income_statement",
    "C48_disjoint"
   ],
   "note": ""
  },
  {
   "property": "C49",
   "status": "partial",
   "theorems": [
    "C49_refuted",
    "C49_aligned_partial"
   ],
   "note": "full statement refuted (C49_refuted): a directive which is not a transaction but has postings shifts the spans. Proved where the changed directives are well shaped."
  },
  {
   "property": "C50",
   "status": "proved",
   "theorems": [
    "C50_chain",
    "C50_marked",
    "C50_replaced",
    "C50_passive",
    "C50_same_hash_refuted"
   ],
   "note": "two different directives are assumed to have different identity hash codes; where they agree the change is not marked (C50_same_hash_refuted)"
  },
  {
   "property": "C51",
   "status": "partial",
   "theorems": [
    "C51_refuted",
    "C51_one_plugin_partial"
   ],
   "note": "full statement refuted (C51_refuted): the phase is repeated when several plugins change a directive. Proved for a single plugin."
  },
  {
   "property": "C52",
   "status": "partial",
   "theorems": [
    "C52_refuted",
    "C52_located_partial",
    "C52_annotated_partial"
   ],
   "note": "full statement refuted (C52_refuted): a directive made by a plugin together with an error has no span. Proved for directives which have one."
  },
  {
   "property": "C53",
   "status": "proved",
   "theorems": [
    "C53_outcome",
    "C53_thrown"
   ],
   "note": "what the pod answers is arbitrary; the only way for loading to throw is a failing request for directives after plugins were answered (C53_thrown)"
  },
  {
   "property": "C54",
   "status": "partial",
   "theorems": [
    "C54_lost",
    "C54_reports_partial",
    "C54_refused",
    "C54_refuted"
   ],
   "note": "full statement refuted (C54_refuted; in general C54_lost): without raw plugins no error is reported; nor when the server panics or cannot read what plugins made (C54_refused). Proved with raw plugins."
  },
  {
   "property": "C55",
   "status": "proved",
   "theorems": [
    "C55_traced",
    "C55_traced_plugins"
   ],
   "note": "lists of fewer than 2^63 directives and postings"
  },
  {
   "property": "C56",
   "status": "partial",
   "theorems": [
    "C56_rest_partial",
    "C56_lost",
    "C56_refuted"
   ],
   "note": "full statement refuted (C56_refuted; in general C56_lost): the server looks for the context under another name. Proved that the rest of each report is printed."
  },
  {
   "property": "C57",
   "status": "proved",
   "theorems": [
    "C57_opens",
    "C57_before",
    "C57_once",
    "C57_reducing",
    "C57_accumulating_refuted",
    "C57_other_use_refuted",
    "C57_opened_twice_refuted"
   ],
   "note": "only accounts used in postings of transactions; others are not opened (C57_other_use_refuted), and an account opened explicitly after its first use is opened twice (C57_opened_twice_refuted). The plugin relies on its map being changed in place (C57_accumulating_refuted)."
  },
  {
   "property": "C58",
   "status": "partial",
   "theorems": [
    "C58_refuted",
    "C58_metadata_preserved_partial"
   ],
   "note": "full statement refuted (C58_refuted): the keys booking and dct are lost. Proved for all others."
  },
  {
   "property": "C59",
   "status": "partial",
   "theorems": [
    "C59_refuted",
    "C59_strings_partial"
   ],
   "note": "full statement refuted (C59_refuted): quotes are not escaped. Proved for strings without quotes where narration is present alike."
  },
  {
   "property": "C60",
   "status": "proved",
   "theorems": [
    "C60_directives_shown",
    "C60_nothing_lost",
    "C60_options_shown",
    "C60_plugins_shown",
    "C60_parse_errors",
    "C60_report_form"
   ],
   "note": "directives: names without characters needing JSON escapes"
  },
  {
   "property": "C61",
   "status": "proved",
   "theorems": [
    "C61_formatted",
    "C61_resolved",
    "C61_created"
   ],
   "note": ""
  },
  {
   "property": "C62",
   "status": "proved",
   "theorems": [
    "C62_book_answer",
    "C62_status"
   ],
   "note": ""
  },
  {
   "property": "C63",
   "status": "partial",
   "theorems": [
    "C63_refuted",
    "C63_plain_paths_partial"
   ],
   "note": "full statement refuted (C63_refuted): the path is not escaped. Proved for exactly the paths without double quotes and backslashes."
  },
  {
   "property": "C64",
   "status": "proved",
   "theorems": [
    "C64_health_status",
    "C64_told"
   ],
   "note": "for clojure only that it can be started is asked"
  },
  {
   "property": "C65",
   "status": "proved",
   "theorems": [
    "C65_booked_directives_read",
    "C65_numbers_read"
   ],
   "note": ""
  },
  {
   "property": "C66",
   "status": "partial",
   "theorems": [
    "C66_refuted",
    "C66_single_lots_partial"
   ],
   "note": "full statement refuted (C66_refuted): a position keeps the total of its first posting. Proved for positions made up of a single posting."
  },
  {
   "property": "C67",
   "status": "proved",
   "theorems": [
    "C67_columns"
   ],
   "note": ""
  },
  {
   "property": "C68",
   "status": "proved",
   "theorems": [
    "C68_reported",
    "C68_used"
   ],
   "note": ""
  },
  {
   "property": "C69",
   "status": "partial",
   "theorems": [
    "C69_raw_partial",
    "C69_booked_partial",
    "C69_tolerance_refuted",
    "C69_large_refuted",
    "C69_plugins_fail"
   ],
   "note": "full statement refuted (C69_tolerance_refuted, C69_large_refuted): a tolerance which is a whole number and whole numbers beyond 64 bits do not meet it, and then no plugin runs (C69_plugins_fail). Proved for all others."
  },
  {
   "property": "C70",
   "status": "partial",
   "theorems": [
    "C70_refuted",
    "C70_plain_partial",
    "C70_small_refuted",
    "C70_scientific"
   ],
   "note": "full statement refuted (C70_refuted): numbers such as 0.0000001 are written with an exponent. In general no smaller number is readable (C70_small_refuted). Proved for whole numbers and for those of scale at most 6 or not below a millionth; what is written with an exponent still denotes the number (C70_scientific)."
  },
  {
   "property": "C71",
   "status": "proved",
   "theorems": [
    "C71_unchanged",
    "C71_nothing_changed",
    "C71_clash_refuted"
   ],
   "note": "premise: no metadata entry named dct or booking; false otherwise (C71_clash_refuted)"
  },
  {
   "property": "C72",
   "status": "proved",
   "theorems": [
    "C72_parse_errors",
    "C72_unreadable"
   ],
   "note": ""
  },
  {
   "property": "C73",
   "status": "proved",
   "theorems": [
    "C73_always_loads",
    "C73_booking_resolved"
   ],
   "note": "plugins are arbitrary functions which may throw"
  },
  {
   "property": "C74",
   "status": "partial",
   "theorems": [
    "C74_anchored_partial",
    "C74_refuted"
   ],
   "note": "full statement refuted (C74_refuted): numbers with an exponent are anchored at the last digit of the exponent. Proved for all others."
  },
  {
   "property": "C75",
   "status": "proved",
   "theorems": [
    "C75_inventory",
    "C75_journal",
    "C75_columns",
    "C75_position",
    "C75_rollup",
    "C75_order"
   ],
   "note": "for dates which can be written with four digits of year"
  },
  {
   "property": "C76",
   "status": "partial",
   "theorems": [
    "C76_refuted",
    "C76_changed_partial"
   ],
   "note": "full statement refuted (C76_refuted): the place in the ledger is never shown. Proved: the changed text is."
  },
  {
   "property": "C77",
   "status": "proved",
   "theorems": [
    "C77_globals"
   ],
   "note": ""
  },
  {
   "property": "C78",
   "status": "partial",
   "theorems": [
    "C78_left_behind",
    "C78_one_partial",
    "C78_without_plugins",
    "C78_refuted"
   ],
   "note": "full statement refuted (C78_refuted): when the errors of a load cannot be printed its server is never stopped (C78_left_behind). Proved where they can, in particular for ledgers without plugins."
  },
  {
   "property": "C79",
   "status": "proved",
   "theorems": [
    "C79_proceeds",
    "C79_stops",
    "C79_reasons"
   ],
   "note": ""
  },
  {
   "property": "C80",
   "status": "partial",
   "theorems": [
    "C80_status_partial",
    "C80_session",
    "C80_refuted"
   ],
   "note": "full statement refuted (C80_refuted): errors in the ledger do not change the status. Proved otherwise."
  },
  {
   "property": "C81",
   "status": "partial",
   "theorems": [
    "C81_files",
    "C81_refuted"
   ],
   "note": "full statement refuted (C81_refuted): no file is loaded if loading the ledger throws. Proved otherwise."
  },
  {
   "property": "C82",
   "status": "partial",
   "theorems": [
    "C82_unexplained",
    "C82_plugins",
    "C82_thrown",
    "C82_unreadable",
    "C82_session",
    "C82_refuted"
   ],
   "note": "full statement refuted (C82_refuted, C82_unexplained): neither why a ledger cannot be read nor what a plugin has thrown is shown in a session. Proved for plugins which cannot be used."
  },
  {
   "property": "C83",
   "status": "partial",
   "theorems": [
    "C83_counts",
    "C83_no_result",
    "C83_refuted"
   ],
   "note": "full statement refuted (C83_refuted): if a plugin cannot be used 0 directives are announced. Proved for ledgers which load."
  },
  {
   "property": "C84",
   "status": "proved",
   "theorems": [
    "C84_reads",
    "C84_depth",
    "C84_one_meaning",
    "C84_server_text",
    "C84_client_text",
    "C84_one_line"
   ],
   "note": "the JSON libraries of both sides are third-party; modelled by RFC 8259 and what they document"
  },
  {
   "property": "C85",
   "status": "proved",
   "theorems": [
    "C85_session",
    "C85_asked",
    "C85_shallow",
    "C85_too_deep"
   ],
   "note": "messages nested no deeper than the server reads, and UTF-8; deeper ones are refused (C85_too_deep)"
  },
  {
   "property": "C86",
   "status": "proved",
   "theorems": [
    "C86_opened",
    "C86_reported",
    "C86_added_accepted",
    "C86_books",
    "C86_loaded",
    "C86_other_use_refuted"
   ],
   "note": "other uses of an account than by transactions are not provided for (C86_other_use_refuted, outside the property)"
  },
  {
   "property": "C87",
   "status": "proved",
   "theorems": [
    "C87_inventory",
    "C87_journal",
    "C87_loaded"
   ],
   "note": "plugins after booking may change what is shown, hence the premise"
  },
  {
   "property": "C88",
   "status": "partial",
   "theorems": [
    "C88_asserted_partial",
    "C88_loaded_partial",
    "C88_refuted"
   ],
   "note": "full statement refuted by a pad filled after the assertion (C88_refuted); proved where no pad before the assertion is unfilled at it and a pad it fills does not take from under the account"
  },
  {
   "property": "C89",
   "status": "partial",
   "theorems": [
    "C89_inventory_partial",
    "C89_journal",
    "C89_rollup_of_currency",
    "C89_rollup_partial",
    "C89_refuted",
    "C89_loaded_partial"
   ],
   "note": "full statement refuted (C89_refuted): lots whose costs agree in value but of which one price is written with a point and the other without are listed in hash order, and of two currencies held by as many accounts the rollup takes that which the hash map lists last. Proved otherwise; the journal in full."
  },
  {
   "property": "C90",
   "status": "partial",
   "theorems": [
    "C90_inventory",
    "C90_journal",
    "C90_rollup",
    "C90_value_partial",
    "C90_all_or_nothing",
    "C90_everything",
    "C90_map",
    "C90_vector",
    "C90_set",
    "C90_keywords",
    "C90_mixed",
    "C90_refuted",
    "C90_reason_refuted"
   ],
   "note": "full statement refuted (C90_refuted): a value nested deeper than the reader of JSON allows is not printed, and C90_reason_refuted: the REPL does not show the reason. Proved for all inventories, journals and rollups, and for other values up to 25 levels; how the third-party crate lays out a cell is a parameter."
  },
  {
   "property": "C91",
   "status": "proved",
   "theorems": [
    "C91_made",
    "C91_books",
    "C91_loaded",
    "C91_fail"
   ],
   "note": "C91_made is for any plugins which make edits, C91_books for those in the repository; names and metadata as in C71"
  },
  {
   "property": "C92",
   "status": "proved",
   "theorems": [
    "C92_reported",
    "C92_kept",
    "C92_books",
    "C92_loaded"
   ],
   "note": "names and metadata as in C71; booking errors other than at postings are outside the property"
  },
  {
   "property": "C93",
   "status": "proved",
   "theorems": [
    "C93_made",
    "C93_loaded",
    "C93_quiet",
    "C93_adds",
    "C93_inventory",
    "C93_journal",
    "C93_throws",
    "C93_refuted"
   ],
   "note": "C93_made is for any plugins whose steps make such changes, C93_loaded for those in the repository; C93_refuted shows that nothing is checked after them"
  },
  {
   "property": "C94",
   "status": "proved",
   "theorems": [
    "C94_reads",
    "C94_one",
    "C94_printed",
    "C94_again",
    "C94_refuted",
    "C94_rest",
    "C94_blank",
    "C94_given",
    "C94_refused"
   ],
   "note": "the reader of clojure.edn is modelled from its source and documentation, without characters, ratios, other bases and octal escapes; C94_refuted: a regular expression is not printed as it is read; C94_rest, C94_blank: text after the first form is ignored, an empty text is refused"
  },
  {
   "property": "C95",
   "status": "partial",
   "theorems": [
    "C95_printed_partial",
    "C95_one_partial",
    "C95_loaded_partial",
    "C95_booked_partial",
    "C95_tolerance_refuted",
    "C95_total_price_refuted",
    "C95_total_cost_refuted",
    "C95_null_refuted"
   ],
   "note": "TextSpec.v is a specification of the syntax of Beancount, for the parser is another project; partial because the full statement is false of the code: C95_tolerance_refuted, C95_total_price_refuted, C95_total_cost_refuted, C95_null_refuted, and C59, C58, C70 for quotes, keys and exponents"
  },
  {
   "property": "C96",
   "status": "partial",
   "theorems": [
    "C96_raw_partial",
    "C96_booked_partial",
    "C96_no_other",
    "C96_plugins_refuted",
    "C96_names_refuted"
   ],
   "note": "partial as C95 is, and because what plugins make is not dumped: C96_plugins_refuted; C96_names_refuted: files of the same name"
  },
  {
   "property": "C97",
   "status": "partial",
   "theorems": [
    "C97_found_partial",
    "C97_found_refuted",
    "C97_apart_partial",
    "C97_passes",
    "C97_equal",
    "C97_shown"
   ],
   "note": "matcho is another project: the theorems hold of every matcher which agrees with alike in GoldenSpec.v, and one is given; partial because a file named .beancount is tested by the wrong directory: C97_found_refuted"
  },
  {
   "property": "C98",
   "status": "partial",
   "theorems": [
    "C98_written",
    "C98_error",
    "C98_nothing_else",
    "C98_passes_partial",
    "C98_tells_partial",
    "C98_shown_partial",
    "C98_stale_refuted"
   ],
   "note": "partial because files of the other kind are not removed: C98_stale_refuted; premise: what zprint writes of a value is EDN text of it"
  },
  {
   "property": "C99",
   "status": "partial",
   "theorems": [
    "C99_loaded",
    "C99_tests",
    "C99_options_partial",
    "C99_options_refuted"
   ],
   "note": "partial because the options are not the same: C99_options_refuted; proved in full for directives, errors and golden tests. Premise lib_ext; lists of fewer than 2^63 directives and postings"
  },
  {
   "property": "C100",
   "status": "proved",
   "theorems": [
    "C100_periods",
    "C100_opening",
    "C100_journal",
    "C100_in_order",
    "C100_closing",
    "C100_financial_year",
    "C100_every_day",
    "C100_years"
   ],
   "note": "date filters as in C46; lots in any order. For the journal the transactions are in order of their dates, which C100_in_order derives for a ledger in order"
  },
  {
   "property": "C101",
   "status": "proved",
   "theorems": [
    "C101_balanced",
    "C101_exact",
    "C101_filters",
    "C101_sheet",
    "C101_loaded"
   ],
   "note": "premise balances_within: what the booking library promises of one transaction; transactions without costs and prices, whose weights are not their units"
  },
  {
   "property": "C102",
   "status": "partial",
   "theorems": [
    "C102_again_partial",
    "C102_dumped_partial",
    "C102_reports_partial",
    "C102_pads_refuted"
   ],
   "note": "premise settles: the booking library takes what it has completed as it is. Partial because ledgers with pads do not have the property: C102_pads_refuted"
  },
  {
   "property": "C103",
   "status": "proved",
   "theorems": [
    "C103_kept",
    "C103_reports",
    "C103_loaded",
    "C103_pads_refuted"
   ],
   "note": "premise: the common part books for itself; without it false, C103_pads_refuted"
  },
  {
   "property": "C104",
   "status": "proved",
   "theorems": [
    "C104_places",
    "C104_annotations",
    "C104_reports",
    "C104_filters",
    "C104_loaded"
   ],
   "note": "premise lib_blind: of a posting the library sees account, units, currency, cost and price (the trait through which it is called has no more)"
  },
  {
   "property": "C105",
   "status": "proved",
   "theorems": [
    "C105_separate",
    "C105_booked",
    "C105_reports",
    "C105_parent_refuted",
    "C105_loaded"
   ],
   "note": "premise lib_local: the library asks only for the inventories and booking methods of the accounts of the postings; C105_parent_refuted shows that the condition on balance assertions is needed"
  },
  {
   "property": "C106",
   "status": "proved",
   "theorems": [
    "C106_order",
    "C106_refused",
    "C106_reports",
    "C106_balance_refuted",
    "C106_loaded"
   ],
   "note": "premise reorders: in the booking library transactions without costs commute; C106_balance_refuted shows that a transaction and an assertion do not"
  },
  {
   "property": "C107",
   "status": "proved",
   "theorems": [
    "C107_renamed",
    "C107_reports",
    "C107_moved_refuted",
    "C107_loaded"
   ],
   "note": "premise lib_nameless: the booking library takes the names of accounts as they are; C107_moved_refuted shows that the hierarchy must be kept"
  },
  {
   "property": "C108",
   "status": "proved",
   "theorems": [
    "C108_left_out",
    "C108_comments",
    "C108_reports",
    "C108_padded_refuted",
    "C108_loaded"
   ],
   "note": "premise lib_local: the booking library looks only at the accounts of the postings; C108_padded_refuted shows that an assertion for which a pad waits must stay"
  },
  {
   "property": "C109",
   "status": "partial",
   "theorems": [
    "C109_accepts",
    "C109_left_partial",
    "C109_refused",
    "C109_given",
    "C109_loaded_partial",
    "C109_readable",
    "C109_nil_refuted",
    "C109_sent_refuted"
   ],
   "note": "partial because a directive whose kind is nil is accepted (C109_nil_refuted); proved for all others. C109_sent_refuted: before booking a posting may be without an account, which the server then refuses. clojure.spec from its documentation, as in C69"
  },
  {
   "property": "C110",
   "status": "proved",
   "theorems": [
    "C110_renamed",
    "C110_reports",
    "C110_merged_refuted"
   ],
   "note": "premise lib_renamed: the booking library takes the names of commodities as they are, given tolerances under the new names; C110_merged_refuted shows that no two names may become the same"
  },
  {
   "property": "C111",
   "status": "proved",
   "theorems": [
    "C111_moderate",
    "C111_sums",
    "C111_large_refuted"
   ],
   "note": "premise machine_ok: what rust_decimal promises; the booking library keeps its own arithmetic; C111_large_refuted shows what happens beyond the range"
  },
  {
   "property": "C112",
   "status": "proved",
   "theorems": [
    "C112_same",
    "C112_loaded",
    "C112_failed",
    "C112_booked",
    "C112_told_refuted"
   ],
   "note": "user filters are total functions; C112_told_refuted shows that reports do not tell a ledger with errors from an empty one"
  }
 ]
}