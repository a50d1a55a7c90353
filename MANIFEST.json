{
 "claims": [
  {
   "property": "C01",
   "status": "proved",
   "theorems": [
    "C01_lexing_ends_in_one_closing_token",
    "C01_next_after_end_panics"
   ],
   "note": ""
  },
  {
   "property": "C02",
   "status": "proved",
   "theorems": [
    "C02_lexer_panics_iff",
    "C02_no_panic_on_terminated_input"
   ],
   "note": ""
  },
  {
   "property": "C03",
   "status": "proved",
   "theorems": [
    "C03_lexing_loses_no_bytes",
    "C03_eof_means_everything",
    "C03_nul_drops_rest_refuted"
   ],
   "note": "The NUL exception named in the property is shown to be real."
  },
  {
   "property": "C04",
   "status": "proved",
   "theorems": [
    "C04_binary_is_opaque"
   ],
   "note": ""
  },
  {
   "property": "C05",
   "status": "proved",
   "theorems": [
    "C05_delimiters_in_tokens_are_escaped",
    "C05_data_tokens_are_separated"
   ],
   "note": ""
  },
  {
   "property": "C06",
   "status": "proved",
   "theorems": [
    "C06_bytes_survive_utf8",
    "C06_to_utf8_is_utf8",
    "C06_latin1_strings_survive",
    "C06_other_strings_panic",
    "C06_high_characters_panic",
    "C06_never_an_error"
   ],
   "note": ""
  },
  {
   "property": "C07",
   "status": "proved",
   "theorems": [
    "C07_marshal_escapes",
    "C07_unescape_restores",
    "C07_marshal_injective",
    "C07_no_unescaped_delimiter"
   ],
   "note": ""
  },
  {
   "property": "C08",
   "status": "proved",
   "theorems": [
    "C08_text_roundtrip",
    "C08_other_text_panics"
   ],
   "note": ""
  },
  {
   "property": "C09",
   "status": "proved",
   "theorems": [
    "C09_number_roundtrip",
    "C09_digit_roundtrip",
    "C09_digit_width",
    "C09_numbers_injective",
    "C09_country_code_error_lost"
   ],
   "note": ""
  },
  {
   "property": "C10",
   "status": "proved",
   "theorems": [
    "C10_binary_roundtrip",
    "C10_binary_form"
   ],
   "note": "For payloads up to 2^48 bytes (Go address space limit)."
  },
  {
   "property": "C11",
   "status": "proved",
   "theorems": [
    "C11_binary_unmarshal_exact",
    "C11_complete_binary_is_in_input",
    "C11_binary_invents_data_refuted",
    "C11_binary_panics_iff"
   ],
   "note": "The unconditional claim is refuted; the exact condition is proved."
  },
  {
   "property": "C12",
   "status": "proved",
   "theorems": [
    "C12_date_roundtrip",
    "C12_date_accepts_only_renderings",
    "C12_time_roundtrip",
    "C12_time_accepts_renderings_and_fractions",
    "C12_time_accepts_only_renderings_refuted",
    "C12_bool_roundtrip"
   ],
   "note": "For times 'accepts nothing else' is refuted; the exact accepted language is proved."
  },
  {
   "property": "C13",
   "status": "proved",
   "theorems": [
    "C13_group_roundtrip",
    "C13_nested_groups_ambiguous_refuted"
   ],
   "note": "Exact: recovered if the provisos hold, an error otherwise. Component values: see C07-C12. Text that looks like a number with superfluous leading zeros and a comma, text with NUL and +Inf are excluded by elem_safe (the lexer rejects or truncates them). Groups inside groups are shown to be ambiguous."
  },
  {
   "property": "C14",
   "status": "proved",
   "theorems": [
    "C14_segment_roundtrip"
   ],
   "note": "Exact: recovered unless the last present element ends in '+', an error otherwise."
  },
  {
   "property": "C15",
   "status": "proved",
   "theorems": [
    "C15_segment_is_self_delimiting",
    "C15_trailing_plus_refuted"
   ],
   "note": "The exception named in the property is shown to be real."
  },
  {
   "property": "C16",
   "status": "proved",
   "theorems": [
    "C16_message_roundtrip",
    "C16_extraction_returns_a_prefix",
    "C16_extract_again_duplicates"
   ],
   "note": ""
  },
  {
   "property": "C17",
   "status": "proved",
   "theorems": [
    "C17_find_segments",
    "C17_find_segment_by_prefix",
    "C17_find_segment_exact",
    "C17_prefix_collision_refuted"
   ],
   "note": ""
  },
  {
   "property": "C18",
   "status": "proved",
   "theorems": [
    "C18_announced_size",
    "C18_new_headers",
    "C18_other_width_refuted"
   ],
   "note": "For a message not marshaled before whose size field takes 12 characters (all messages composed by the dialogs); another width is shown to announce a wrong size."
  },
  {
   "property": "C19",
   "status": "proved",
   "theorems": [
    "C19_positions",
    "C19_positions_succeed",
    "C19_signed_positions",
    "C19_wire_order",
    "C19_same_object_twice_refuted"
   ],
   "note": "For bodies that do not contain the same segment object twice; the exception is shown to be real."
  },
  {
   "property": "C20",
   "status": "proved",
   "theorems": [
    "C20_marshal_stable",
    "C20_number_set",
    "C20_marshal_again",
    "C20_operations_covered"
   ],
   "note": ""
  },
  {
   "property": "C21",
   "status": "proved",
   "theorems": [
    "C21_no_pin_no_message",
    "C21_envelope",
    "C21_envelope_transparent",
    "C21_client_message"
   ],
   "note": "Payloads up to 2^48 bytes."
  },
  {
   "property": "C22",
   "status": "proved",
   "theorems": [
    "C22_segment_header_roundtrip"
   ],
   "note": ""
  },
  {
   "property": "C23",
   "status": "proved",
   "theorems": [
    "C23_acknowledgements_of_any_message",
    "C23_every_response",
    "C23_acknowledgements_delivered",
    "C23_classification",
    "C23_second_message_acks_lost_refuted",
    "C23_escaped_text_refuted",
    "C23_empty_segment_panics"
   ],
   "note": "Exact description for every accepted message; the naive claim is false for further HIRMG segments, other versions and texts with escaped characters (refutations given)."
  },
  {
   "property": "C24",
   "status": "proved",
   "theorems": [
    "C24_record",
    "C24_numbers",
    "C24_numbers_anonymous",
    "C24_gap_refuted",
    "C24_second_sync_refuted"
   ],
   "note": "Any sequence of calls from any object state, any bank (a function of the whole conversation, errors and panics included). Every call leaves dialogs and synchronisations of the described shape on the record; the numbers are 1,2,3,... without gap provided job messages can be composed, the exact exception (number 2 lost, 1 then 3) is part of the record predicate and shown to happen. A second synchronisation on the same object continues the numbers and dialog ID of the first (refutation)."
  },
  {
   "property": "C25",
   "status": "proved",
   "theorems": [
    "C25_send_message",
    "C25_sync_user_data",
    "C25_send_anonymous"
   ],
   "note": "For every failure point: signing, composing, transport, parsing, error codes, panics. The end is missing only if the end message itself cannot be composed. Initialisation counts as passed when the answer is usable as defined in Dialog_Spec.v."
  },
  {
   "property": "C26",
   "status": "proved",
   "theorems": [
    "C26_success",
    "C26_error_reported",
    "C26_answer_returned"
   ],
   "note": "Both directions; covers the synchronisation too. Errors in the answer to the final dialog end are only logged by the code and are excluded in the statement."
  },
  {
   "property": "C27",
   "status": "proved",
   "theorems": [
    "C27_choice",
    "C27_function_offered",
    "C27_same_function",
    "C27_messages",
    "C27_chosen_function_is_used",
    "C27_setpin_refuted"
   ],
   "note": "Invariants over all call sequences. Setting the PIN a second time puts 999 back into the providers and the chosen function is not reinstalled (refutation)."
  },
  {
   "property": "C28",
   "status": "proved",
   "theorems": [
    "C28_growth",
    "C28_each_account_once_refuted"
   ],
   "note": "The plain claim is false (refutation); proved instead: exactly what a successful call appends."
  },
  {
   "property": "C29",
   "status": "proved",
   "theorems": [
    "C29_requests",
    "C29_result",
    "C29_goes_on_only_after_marks",
    "C29_result_independent",
    "C29_bad_page",
    "C29_transactions",
    "C29_mark_bytes",
    "C29_mark_bytes_refuted",
    "C29_coarse_clock_refuted",
    "C29_no_parameter_refuted"
   ],
   "note": "Any bank, any number of pages. The code recurses without bound; the model takes a number of pages to look at and the theorems hold for each. Order of the merged transaction pages needs a clock that advances between two readings (refuted otherwise). On the wire the mark comes back to the bank exactly if it has no syntax character (refuted otherwise, it is escaped twice)."
  },
  {
   "property": "C30",
   "status": "proved",
   "theorems": [
    "C30_account_balance",
    "C30_sepa_account_balance",
    "C30_account_transaction",
    "C30_tan",
    "C30_status",
    "C30_status_refuted",
    "C30_sepa_transactions_never",
    "C30_sepa_transactions_refuted",
    "C30_bank_list",
    "C30_balances_version",
    "C30_status_never",
    "C30_sepa_transactions_client",
    "C30_status_never_example"
   ],
   "note": "Four builders choose the highest common version; the status builder builds the other version and the SEPA transactions builder always fails (both refuted with an exact characterisation)."
  },
  {
   "property": "C31",
   "status": "proved",
   "theorems": [
    "C31_new",
    "C31_valid",
    "C31_german",
    "C31_minus_refuted",
    "C31_country_refuted"
   ],
   "note": "Exact form of the result for letters and digits; validity for arbitrary byte strings with the two exceptions, each refuted by an example."
  },
  {
   "property": "C32",
   "status": "proved",
   "theorems": [
    "C32_from",
    "C32_unique",
    "C32_accepted_is_valid",
    "C32_is_valid",
    "C32_valid_meaning",
    "C32_from_panics",
    "C32_minus_refuted",
    "C32_valid_not_unique_refuted"
   ],
   "note": ""
  },
  {
   "property": "C33",
   "status": "proved",
   "theorems": [
    "C33_substitution",
    "C33_swap",
    "C33_swap_digits",
    "C33_blind_pair_refuted"
   ],
   "note": "Any length, any position; exact characterisation of the undetected swaps."
  },
  {
   "property": "C34",
   "status": "proved",
   "theorems": [
    "C34_swift_lexing",
    "C34_all_bytes_in_tokens",
    "C34_tokens_as_specified"
   ],
   "note": "Every byte string; a NUL byte where a value is expected is taken as the end of the input."
  },
  {
   "property": "C35",
   "status": "proved",
   "theorems": [
    "C35_tags_extracted",
    "C35_messages_extracted",
    "C35_capital_line_refuted",
    "C35_split_refuted",
    "C35_joined_refuted",
    "C35_errors_reported",
    "C35_messages_of_any_input",
    "C35_tags_of_any_input",
    "C35_final_line_break_refuted"
   ],
   "note": "Exact (if and only if) for messages of fields with proper ids."
  },
  {
   "property": "C36",
   "status": "proved",
   "theorems": [
    "C36_nothing_lost",
    "C36_chronological",
    "C36_nested"
   ],
   "note": "For every sorting function with the contract of sort.Sort (a sorted permutation)."
  },
  {
   "property": "C37",
   "status": "proved",
   "theorems": [
    "C37_amount_signs",
    "C37_plain_entries",
    "C37_balance_sign",
    "C37_delivered_balances",
    "C37_debit_refuted",
    "C37_reversal_refuted",
    "C37_credit_refuted",
    "C37_balance_refuted"
   ],
   "note": "The plain claim is false (refutations); the exact set of entries with a turned sign is part of the theorem. float64 parsing and negation are parameters."
  },
  {
   "property": "C38",
   "status": "proved",
   "theorems": [
    "C38_middleware",
    "C38_dialog",
    "C38_https",
    "C38_https_base64",
    "C38_no_answer",
    "C38_shape",
    "C38_reading_in_pieces"
   ],
   "note": "Base64 specified by bits after RFC 4648; reads divided arbitrarily (cuts)."
  },
  {
   "property": "C39",
   "status": "proved",
   "theorems": [
    "C39_lookup",
    "C39_version",
    "C39_table_from_csv"
   ],
   "note": "A record is its columns; reading them from the file is C72."
  },
  {
   "property": "C40",
   "status": "proved",
   "theorems": [
    "C40_query_roundtrip",
    "C40_query_reads_exactly",
    "C40_query_never_panics",
    "C40_json_form",
    "C40_json_roundtrip_iff",
    "C40_json_any_input",
    "C40_json_reads_exactly",
    "C40_date_text_roundtrip",
    "C40_date_text_reads_exactly",
    "C40_date_json_roundtrip",
    "C40_open_timeframe_refuted",
    "C40_unset_date_refuted",
    "C40_late_years_refuted"
   ],
   "note": "strconv.Unquote of text with escapes is an oracle."
  },
  {
   "property": "C41",
   "status": "proved",
   "theorems": [
    "C41_parts",
    "C41_length",
    "C41_short_refuted"
   ],
   "note": ""
  },
  {
   "property": "C42",
   "status": "proved",
   "theorems": [
    "C42_paper",
    "C42_same_characters"
   ],
   "note": "TrimSpace is modelled for ASCII white space."
  },
  {
   "property": "C43",
   "status": "proved",
   "theorems": [
    "C43_valuta_date",
    "C43_booking_date",
    "C43_adjacent_months",
    "C43_new_year_refuted",
    "C43_two_months_refuted",
    "C43_last_century_refuted",
    "C43_february_30_refuted"
   ],
   "note": "Exact (if and only if)."
  },
  {
   "property": "C44",
   "status": "proved",
   "theorems": [
    "C44_fields_read",
    "C44_in_order_no_panic",
    "C44_out_of_order_not_read",
    "C44_panics_exactly",
    "C44_out_of_order_refuted",
    "C44_key_in_text_refuted"
   ],
   "note": ""
  },
  {
   "property": "C45",
   "status": "proved",
   "theorems": [
    "C45_no_account_panics",
    "C45_bad_entry_panics",
    "C45_panic_refuted"
   ],
   "note": "The plain claim is refuted; two classes of inputs on which the call panics are proved."
  },
  {
   "property": "C46",
   "status": "proved",
   "theorems": [
    "C46_every_entry_once",
    "C46_account_exactly",
    "C46_statement_number",
    "C46_unknown_field_reported"
   ],
   "note": "What is delivered is spelled out in the predicate delivers of Mt940_Spec.v (amount and booking date with the exceptions of C37 and C43)."
  },
  {
   "property": "C47",
   "status": "proved",
   "theorems": [
    "C47_references",
    "C47_mark",
    "C47_panics_exactly",
    "C47_slashes_refuted",
    "C47_panic_refuted",
    "C47_mark_refuted"
   ],
   "note": ""
  },
  {
   "property": "C48",
   "status": "proved",
   "theorems": [
    "C48_new",
    "C48_new_panics_iff",
    "C48_library_table",
    "C48_unknown_bank_refuted",
    "C48_hidden_entry_refuted",
    "C48_lower_version_refuted"
   ],
   "note": "The built-in table is transcribed (ID, version fields, URL)."
  },
  {
   "property": "C49",
   "status": "proved",
   "theorems": [
    "C49_damage_is_not_reported",
    "C49_interrupted_prefix",
    "C49_damage_reported_refuted",
    "C49_status_ignored",
    "C49_hidden_by_the_layers"
   ],
   "note": "The expected property is refuted; the exact behaviour is proved."
  },
  {
   "property": "C50",
   "status": "proved",
   "theorems": [
    "C50_balances",
    "C50_information",
    "C50_information_missing"
   ],
   "note": "What the segments say (AccountBalance()) is an oracle."
  },
  {
   "property": "C51",
   "status": "proved",
   "theorems": [
    "C51_calendar",
    "C51_balances_delivered",
    "C51_sepa_balances_delivered",
    "C51_national_balances_are_not_sepa",
    "C51_booking_time_refuted",
    "C51_balances_kept"
   ],
   "note": "Decimal numbers are an oracle (strconv.ParseFloat), assumed to read the bank's decimals."
  },
  {
   "property": "C52",
   "status": "proved",
   "theorems": [
    "C52_booked_delivered",
    "C52_nothing_booked_refuted",
    "C52_booked_kept"
   ],
   "note": ""
  },
  {
   "property": "C53",
   "status": "proved",
   "theorems": [
    "C53_account_delivered",
    "C53_no_currency_refuted",
    "C53_account_limit_refuted",
    "C53_job_limit_refuted"
   ],
   "note": ""
  },
  {
   "property": "C54",
   "status": "proved",
   "theorems": [
    "C54_system_id_delivered",
    "C54_user_delivered",
    "C54_bank_delivered",
    "C54_name_refuted"
   ],
   "note": ""
  },
  {
   "property": "C55",
   "status": "proved",
   "theorems": [
    "C55_jobs_delivered",
    "C55_old_jobs_delivered",
    "C55_processes_delivered",
    "C55_functions_delivered",
    "C55_name_refuted"
   ],
   "note": ""
  },
  {
   "property": "C56",
   "status": "proved",
   "theorems": [
    "C56_signed_requests",
    "C56_reference_differs",
    "C56_clean_requests",
    "C56_anonymous_requests",
    "C56_no_pin_nothing_sent",
    "C56_signing_succeeds",
    "C56_pin_ending_refuted",
    "C56_default_start_refuted"
   ],
   "note": "PIN/TAN dialogs; texts ending in ':' or '+' are outside the positive theorems and refuted."
  },
  {
   "property": "C57",
   "status": "proved",
   "theorems": [
    "C57_message_delivered",
    "C57_balances_in_message",
    "C57_booked_in_message",
    "C57_sepa_balances_in_message",
    "C57_second_segment_refuted"
   ],
   "note": "A message of less than 2^48 bytes; decimals as in C51; segments in the forms that crash their reader (HIKIF with persons, signature headers with a certificate, HNSHA version 2 with a PIN, HIKOM, HISHV, HIKPV: see C60) are not among those a message may contain."
  },
  {
   "property": "C58",
   "status": "proved",
   "theorems": [
    "C58_sent",
    "C58_accounts",
    "C58_balances",
    "C58_sepa_balances",
    "C58_transactions"
   ],
   "note": "Texts of the caller that do not end in ':' or '+' (C56); dialog and system IDs, user IDs and marks of the bank likewise; a bank that requires one of the described TAN processes; answers of the kinds of C57. For transactions: go_sort and an advancing clock as in C29, statements as in C46."
  },
  {
   "property": "C59",
   "status": "proved",
   "theorems": [
    "C59_status_delivered",
    "C59_status_time_refuted",
    "C59_status_message_refuted",
    "C59_statuses_in_message",
    "C59_tan_delivered",
    "C59_tan_challenge_refuted",
    "C59_news_delivered"
   ],
   "note": "Segments of less than 2^61 bytes. C59_tan_challenge_refuted and C59_status_time_refuted prove that the value a user expects is never delivered; C59_status_message_refuted proves the crash."
  },
  {
   "property": "C60",
   "status": "proved",
   "theorems": [
    "C60_message",
    "C60_dialog_calls",
    "C60_client_calls",
    "C60_contents",
    "C60_transactions",
    "C60_any_bank"
   ],
   "note": "The statement's exceptions are exact for messages and for the calls of C60_dialog_calls and C60_client_calls (signing and composing are premises: they do not crash, C56). The other calls: one direction outright, the other if the contents are complete; for transactions the statement reader may crash on its data (C46)."
  },
  {
   "property": "C61",
   "status": "proved",
   "theorems": [
    "C61_encrypt",
    "C61_decrypt",
    "C61_round_trip",
    "C61_injective",
    "C61_part",
    "C61_crt",
    "C61_same_message_refuted"
   ],
   "note": "Lengths below 2^63; math/big taken as exact integers. The losses named in the statement are proved, C61_same_message_refuted refutes the plain round trip."
  },
  {
   "property": "C62",
   "status": "proved",
   "theorems": [
    "C62_sign",
    "C62_block_sizes",
    "C62_verify",
    "C62_recover",
    "C62_forgery",
    "C62_forged",
    "C62_only_signed_refuted",
    "C62_crt",
    "C62_same_message_refuted"
   ],
   "note": "C62_verify is exact for all signatures (moduli of at least 3 bits); C62_recover for moduli of at least 19 bits. C62_only_signed_refuted and C62_same_message_refuted refute the plain wishes."
  },
  {
   "property": "C63",
   "status": "proved",
   "theorems": [
    "C63_exchange",
    "C63_log",
    "C63_displayed",
    "C63_no_difference",
    "C63_signed_request",
    "C63_anonymous_request",
    "C63_answer",
    "C63_silent",
    "C63_pin_secret_refuted"
   ],
   "note": "Requests shorter than 10^12 bytes (C56). Prefixes, times and error texts of the log are not modelled; C63_pin_secret_refuted refutes that the PIN stays out of the log, for every signed request."
  },
  {
   "property": "C64",
   "status": "proved",
   "theorems": [
    "C64_signed_read",
    "C64_anonymous_read",
    "C64_same_bytes",
    "C64_same_bytes_anonymous",
    "C64_every_pin_refuted"
   ],
   "note": "Messages shorter than 10^12 bytes; the bank's reader is the specification's own (`Read_Spec.v`), not the library's. C64_every_pin_refuted is the exception named in the statement."
  },
  {
   "property": "C65",
   "status": "proved",
   "theorems": [
    "C65_names",
    "C65_initial",
    "C65_pin_key",
    "C65_signature_accepted",
    "C65_encryption_recovered",
    "C65_long_exponent_refuted",
    "C65_capabilities",
    "C65_key_request",
    "C65_key_sent_refuted",
    "C65_renewal",
    "C65_key_answer",
    "C65_revocation"
   ],
   "note": "crypto/rsa is modelled as PKCS #1 v1.5 over exact integers, with a random source that may fail; that rsa.GenerateKey returns a key pair with exponent 65537 is trusted. C65_long_exponent_refuted and C65_key_sent_refuted are the exceptions of the statement."
  },
  {
   "property": "C66",
   "status": "proved",
   "theorems": [
    "C66_signs",
    "C66_signature_refuted",
    "C66_header",
    "C66_reference_differs",
    "C66_reference_refuted",
    "C66_new_dialog",
    "C66_dialog_refuted"
   ],
   "note": "RIPEMD-160 is any function with 20 bytes of result. C66_header for bank codes that are not empty and texts that do not end in a separator."
  },
  {
   "property": "C67",
   "status": "proved",
   "theorems": [
    "C67_exponent",
    "C67_exact",
    "C67_constructed",
    "C67_read_panics_refuted",
    "C67_bank",
    "C67_connection",
    "C67_intl",
    "C67_header",
    "C67_reference",
    "C67_key_name",
    "C67_pin",
    "C67_acknowledgement",
    "C67_acknowledgement_refuted",
    "C67_text_refuted",
    "C67_numbers",
    "C67_boolean_refuted",
    "C67_binary_refuted",
    "C67_code",
    "C67_code_refuted",
    "C67_amount",
    "C67_amount_refuted",
    "C67_read",
    "C67_sent",
    "C67_sent_refuted",
    "C67_security",
    "C67_key_length_refuted",
    "C67_parameters",
    "C67_transactions",
    "C67_address",
    "C67_address_refuted",
    "C67_balance",
    "C67_length",
    "C67_length_refuted",
    "C67_virtual_date"
   ],
   "note": "The rules are the inductive predicate `acceptable` of `Valid_Spec.v`. Floats are given by their shortest decimal digits, as everywhere."
  },
  {
   "property": "C68",
   "status": "proved",
   "theorems": [
    "C68_same_calls",
    "C68_dialog_calls",
    "C68_same_client_calls",
    "C68_client_calls",
    "C68_accounts",
    "C68_readers",
    "C68_one_line",
    "C68_reference",
    "C68_init_label_refuted",
    "C68_lines_refuted",
    "C68_end_refuted",
    "C68_accounts_refuted"
   ],
   "note": "The texts of errors of signing, composing, the transport and the reader are any texts. C68_same_calls and C68_same_client_calls tie the model with texts to the model of C24-C30 and C60. The refuted theorems are the exceptions of the statement."
  },
  {
   "property": "C69",
   "status": "proved",
   "theorems": [
    "C69_vertical_tabs",
    "C69_escaped",
    "C69_layout",
    "C69_table",
    "C69_balances",
    "C69_sepa_balances",
    "C69_balance",
    "C69_sepa_balance",
    "C69_transactions",
    "C69_transaction",
    "C69_infos",
    "C69_info",
    "C69_characters",
    "C69_transaction_refuted",
    "C69_balances_refuted",
    "C69_indent_refuted",
    "C69_lines_refuted"
   ],
   "note": "text/tabwriter of the standard library is modelled. How an amount and a day are printed (%.2f, time.Format) is any text. The refuted theorems are the exceptions of the statement."
  },
  {
   "property": "C70",
   "status": "proved",
   "theorems": [
    "C70_start",
    "C70_missing",
    "C70_unknown_bank",
    "C70_no_iban",
    "C70_long_user_refuted",
    "C70_failed",
    "C70_asked",
    "C70_balances",
    "C70_sepa_balances",
    "C70_transactions",
    "C70_sepa_transactions_refuted",
    "C70_accounts",
    "C70_end_accounts",
    "C70_end_balances",
    "C70_end_sepa_balances",
    "C70_end_transactions"
   ],
   "note": "The C70_end theorems put the program on top of C58: a bank that answers as the standard says. Flags are taken as parsed (cobra, viper and the config file are not modelled). How an amount and a day are printed is any text, as in C69. The refuted theorems are the exceptions of the statement."
  },
  {
   "property": "C71",
   "status": "proved",
   "theorems": [
    "C71_conversation",
    "C71_unchanged",
    "C71_anonymous",
    "C71_answer_refuted",
    "C71_customer_refuted"
   ],
   "note": "The text CommunicationAccess makes of the bank's message (fmt %+#v) is not modelled; the message itself is. The bytes are as stated for texts that do not end in ':' or '+' and messages below 10^12 bytes, as in C56. The refuted theorems are the exceptions of the statement."
  },
  {
   "property": "C72",
   "status": "proved",
   "theorems": [
    "C72_csv",
    "C72_written",
    "C72_entries",
    "C72_bic",
    "C72_lookup"
   ],
   "note": "The reader of encoding/csv is modelled line by line; of github.com/wildducktheories/go-csv, whose source is not in /repo, only that the first record names the columns (what a file without records gives is any outcome; repeated column names are excluded). The Go source the generator prints: C73."
  },
  {
   "property": "C73",
   "status": "proved",
   "theorems": [
    "C73_quote",
    "C73_source",
    "C73_program",
    "C73_same",
    "C73_source_refuted"
   ],
   "note": "Go source is read by the lexical grammar of the Go specification (`Gosrc_Spec.v`); go/format is any function that keeps the tokens, strconv.IsPrint any predicate that rejects control characters and byte order marks. The refuted theorem is the exception of the statement."
  },
  {
   "property": "C74",
   "status": "proved",
   "theorems": [
    "C74_sent",
    "C74_refused",
    "C74_round",
    "C74_tail_refuted"
   ],
   "note": "The encoder charmap.ISO8859_1 and the writer of golang.org/x/text are modelled from their documentation (their source is not in /repo), with buffers as large as needed. The refuted theorem is the exception of the statement."
  },
  {
   "property": "C75",
   "status": "proved",
   "theorems": [
    "C75_versioned_text",
    "C75_fields",
    "C75_elements_refuted",
    "C75_unknown",
    "C75_text",
    "C75_reads",
    "C75_error",
    "C75_round",
    "C75_versions",
    "C75_empty_refuted",
    "C75_flag",
    "C75_flag_part",
    "C75_flag_list",
    "C75_hisyn",
    "C75_hikim",
    "C75_hitan",
    "C75_challenge_refuted",
    "C75_library",
    "C75_library_round",
    "C75_library_unread",
    "C75_index",
    "C75_known"
   ],
   "note": "The table of the library's segments (`Gen_Library.v`) is made from the sources by a script, which also checked that the committed readers are what the generator writes for them. Source files are given as what go/parser makes of them, reduced to what the generator looks at. C75_text proves that the text written by the template is the text of the statements whose execution the other theorems are about; that Go executes such text as the model does is trusted, and so is that it compiles. C75_round is about segments written as in C13 (plain texts, no trailing '+', below 2^61 bytes). The refuted theorems are the exceptions of the statement."
  },
  {
   "property": "C76",
   "status": "proved",
   "theorems": [
    "C76_readable_iff",
    "C76_acknowledgements_readable_iff",
    "C76_pin_transactions_readable_iff",
    "C76_accounts_readable_iff",
    "C76_accounts_with_extensions_readable_iff"
   ],
   "note": "The table of forms is `segments` in `Accept_Spec.v`. Segments have at most as many elements as the table says; more are joined to the last one by go-hbci, which is covered for the jobs of an account. Jobs are without plus signs and apostrophes. Texts have no NUL and no malformed number at the front (C03), as in C51."
  },
  {
   "property": "C77",
   "status": "proved",
   "theorems": [
    "C77_dialog_errors",
    "C77_client_errors",
    "C77_sepa_balances_errors",
    "C77_readers",
    "C77_not_sepa"
   ],
   "note": "The converse of C68: steps and texts are in `Reason_Spec.v`. Reading segments is a parameter with two conditions, which C68_readers and C77_readers prove of the readers of the library; why signing, composing, the transport and reading failed are parameters."
  },
  {
   "property": "C78",
   "status": "proved",
   "theorems": [
    "C78_plays",
    "C78_registers",
    "C78_errors",
    "C78_recorded",
    "C78_request",
    "C78_exchange",
    "C78_nil_promised_refuted",
    "C78_register_later_refuted",
    "C78_unprepared"
   ],
   "note": "What it means to play a script is `plays` in `Mock_Spec.v`. The error of an unexpected request is the pair of the request and its body, from which the text is made. ContentLength of a response is the length of the payload, not of the body, which nothing in go-hbci reads; net/http is between the transport and https.go and is not modelled. The refuted theorems and C78_unprepared are the exceptions of the statement."
  },
  {
   "property": "C79",
   "status": "proved",
   "theorems": [
    "C79_unmarshal",
    "C79_unreadable",
    "C79_cases",
    "C79_history",
    "C79_by_id",
    "C79_marshaled_by_id",
    "C79_segment",
    "C79_position",
    "C79_undividable",
    "C79_position_unreadable",
    "C79_prefix_refuted"
   ],
   "note": "What is found is the relation `found` in `Lookup_Spec.v`; copies are counted by `divisions` and `readings`. The readers of segments other than acknowledgements are a parameter. SegmentPosition of messages that are composed, not read, is always -1 and not modelled. C79_history and C79_prefix_refuted are the exceptions of the statement."
  },
  {
   "property": "C80",
   "status": "proved",
   "theorems": [
    "C80_needs_tan",
    "C80_agree",
    "C80_differ_refuted",
    "C80_parameters",
    "C80_attached",
    "C80_library",
    "C80_second_version_refuted",
    "C80_dropped_refuted"
   ],
   "note": "First and last entries, the offered segments and the first readable segment of an ID are in `Params_Spec.v`. What a segment says as HIBPA or HIPINS is a parameter, and so are the readers; that they keep the version of the header is a hypothesis of C80_attached, which C80_library discharges for the readers of go-hbci (a table that pairs each of them with the version of the header). The refuted theorems are the exceptions of the statement."
  },
  {
   "property": "C81",
   "status": "proved",
   "theorems": [
    "C81_error",
    "C81_text",
    "C81_unexpected_iff",
    "C81_cut_value",
    "C81_cut_tag_refuted",
    "C81_cut_after_tag_refuted"
   ],
   "note": "The places at which reading may stop are `reaches` in `Cut_Spec.v`, over the one-step reader `next_token` of `Swift_Spec.v`; the text for each is `stop_text`. The text of the error itself (Error) is modelled up to the verb %q of package fmt. The refuted theorems are the exceptions of the statement."
  },
  {
   "property": "C82",
   "status": "proved",
   "theorems": [
    "C82_day",
    "C82_new_short_date",
    "C82_date",
    "C82_location_refuted",
    "C82_timeframe",
    "C82_today",
    "C82_west",
    "C82_east_refuted",
    "C82_string"
   ],
   "note": "The day on a calendar is `shows_day` in `Today_Spec.v`, which counts days one by one from the year 1. Locations are functions from instants to offsets; fractions of seconds are left out. The refuted theorems, C82_today and C82_string are the exceptions of the statement."
  },
  {
   "property": "C83",
   "status": "proved",
   "theorems": [
    "C83_debug",
    "C83_info",
    "C83_silent",
    "C83_client_refuted",
    "C83_failed_new_refuted",
    "C83_within",
    "C83_restore_refuted",
    "C83_panic",
    "C83_pin_refuted",
    "C83_quiet"
   ],
   "note": "Which call decides is `decision`, `last_decision` and `info_calls` in `Switch_Spec.v`. The prefix of the log lines (name, time, file) is left out, and so is concurrent use of the switches. The refuted theorems and C83_panic are the exceptions of the statement."
  },
  {
   "property": "C84",
   "status": "proved",
   "theorems": [
    "C84_text",
    "C84_one_text",
    "C84_from_bank",
    "C84_lines",
    "C84_text_refuted",
    "C84_params_refuted"
   ],
   "note": "What the text says is `reports` in `Status_Spec.v`; C84_one_text shows that it fixes the text. How an instant is printed (time.Time.String) is any text; C59 says which instant it is. The refuted theorems are the exceptions of the statement."
  },
  {
   "property": "C85",
   "status": "proved",
   "theorems": [
    "C85_unmarshal",
    "C85_once",
    "C85_last",
    "C85_unread_panics",
    "C85_number",
    "C85_amount_refuted"
   ],
   "note": "What a text says is `says` and `last_said` in `Tags_Spec.v`. strconv.ParseFloat is any function; in C85_amount_refuted one that refuses texts with a comma, as Go's does. C85_unread_panics and C85_amount_refuted are the exceptions of the statement."
  },
  {
   "property": "C86",
   "status": "proved",
   "theorems": [
    "C86_read",
    "C86_roundtrip",
    "C86_bank_code_refuted",
    "C86_same"
   ],
   "note": "The value is `named_value` in `Keyname_Spec.v`, what a bank writes `named_items`. C86_bank_code_refuted and the last part of C86_read are the exceptions of the statement. C86_same says that the model of whole segments reads key names in the same way."
  },
  {
   "property": "C87",
   "status": "proved",
   "theorems": [
    "C87_written",
    "C87_roundtrip",
    "C87_pin_alone_refuted",
    "C87_client",
    "C87_same"
   ],
   "note": "C87_pin_alone_refuted is the exception of the statement.."
  },
  {
   "property": "C88",
   "status": "proved",
   "theorems": [
    "C88_identification",
    "C88_date",
    "C88_panics",
    "C88_no_system_refuted",
    "C88_same"
   ],
   "note": "The codes of the parties and kinds are `holder_code` and `stamp_code`. A moment is its date and time of day, as in C12. C88_panics and C88_no_system_refuted are the exceptions of the statement. C88_same ties the elements to what clients write and to the model of whole segments."
  }
 ]
}