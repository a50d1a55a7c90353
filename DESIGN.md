# Formal model of go-hbci in Rocq (Coq 8.16.1)

## Layout

All Coq files are under `rocq/theories` (logical name `Verif`). For each area `X` there are

* `X_Model.v` - the Gallina model. Each definition cites the Go file and lines it models and says what was simplified. No proofs.
* `X_Spec.v` - small specification vocabulary for the theorem statements, independent of how the model computes.
* `X_Proofs.v`, `X_Facts*.v` - lemmas.
* `X_Props.v` (and `X_Props2.v`) - the property theorems, each followed by `Print Assumptions`, and `Example`s that show that the hypotheses are met by concrete, non-trivial cases. `…_refuted` theorems show by a concrete input that a plain claim is false of the code; the strongest true statement stands beside them.

`Base.v` holds bytes (`Byte.byte`), Go-like outcomes (`Ok`/`Err`/`Panic`) and models of Go library functions on byte slices and decimals.

Areas: `Lexer` (token/lexer.go), `Codec` (charset, basic data elements), `Wire` (groups, segments, extractors), `Message` (messages, signing, envelope, acknowledgements), `Dialog` (dialog/), `Client` (client/, segment version builders), `Merge` (swift/unmarshal.go), `Iban`, `Swift` (SWIFT lexer and extractors), `Mt940` (statements), `Time` (domain/time.go), `Bank` (bankinfo, client.New), `Transport` (transport/, base64), `Seg` (the bank's segments), `Request` (the client's segments), `Answer` and `Kept` (whole messages of the bank), `Stack` (all layers together), `Crash` (answers that crash a call), `Rsa`, `Crypto` and `Iso` (crypto/: RSA and ISO 9796-1 signatures), `Log` (the log of a dialog), `Read` (a bank's reader of requests), `Key` (keys, key management, RSA signatures).

## General modelling decisions

* A Go byte slice or string is a `list byte`. Aliasing is modelled where a property needs it (segment objects in a message body live on a heap).
* `error` results are values (`Err`), run time panics are an explicit outcome (`Panic`), nil pointers are `None`.
* `int` is `Z`. The 64 bit wrap-around is written into the model where a property depends on it (binary lengths in the lexer, `strconv.Atoi` range errors).
* Loops are structural recursion, folds, or recursion on fuel with an explicit out-of-fuel value that theorems exclude.
* The bank is an arbitrary function of the whole conversation, over which theorems quantify; map iteration order is an arbitrary choice (`pick`); the clock, the sorting function and the machine's float operations are parameters.
* Error texts are modelled where a property speaks of them (C68, C70, C77, C81); elsewhere an error is just an error.
* All parameters are section variables; theorems quantify over them after the section is closed. No variable or hypothesis stands outside a section.

## Properties: what is modelled and how it is proved

### C01 Lexing always terminates with one closing token

* Model: `Lexer_Model.v` (token/lexer.go: the state functions on input, start, pos; HasNext/Next with the token channel)
* Proof: step lemmas relating every state function to a scanning specification (`Lexer_Spec.v`), induction on the rest of the input
* Theorems (proved): `C01_lexing_ends_in_one_closing_token`, `C01_next_after_end_panics`

### C02 When lexing can panic

* Model: `Lexer_Model.v`, with the 64 bit wrap-around of `pos += length` after a binary head
* Proof: exact condition by case analysis of the binary head, induction over the input
* Theorems (proved): `C02_lexer_panics_iff`, `C02_no_panic_on_terminated_input`

### C03 Lexing loses no bytes

* Model: `Lexer_Model.v`
* Proof: invariant: bytes of the emitted tokens are the consumed input; a NUL byte as refutation
* Theorems (proved): `C03_lexing_loses_no_bytes`, `C03_eof_means_everything`, `C03_nul_drops_rest_refuted`
* Note: The NUL exception named in the property is shown to be real.

### C04 Binary data is opaque to the lexer

* Model: `Lexer_Model.v` lexBinaryData
* Proof: induction; payload arbitrary
* Theorems (proved): `C04_binary_is_opaque`

### C05 Delimiters inside tokens are always escaped

* Model: `Lexer_Model.v`
* Proof: invariant over token texts
* Theorems (proved): `C05_delimiters_in_tokens_are_escaped`, `C05_data_tokens_are_separated`

### C06 Character set conversion round trip

* Model: `Codec_Model.v` (charset/convert.go)
* Proof: induction over strings, finite sweep over the 256 bytes
* Theorems (proved): `C06_bytes_survive_utf8`, `C06_to_utf8_is_utf8`, `C06_latin1_strings_survive`, `C06_other_strings_panic`, `C06_high_characters_panic`, `C06_never_an_error`

### C07 Escaping is reversible and hides all syntax characters

* Model: `Codec_Model.v` escape/unescape (strings.Replacer)
* Proof: induction over strings
* Theorems (proved): `C07_marshal_escapes`, `C07_unescape_restores`, `C07_marshal_injective`, `C07_no_unescaped_delimiter`

### C08 Text elements survive marshal and unmarshal

* Model: `Codec_Model.v` text elements
* Proof: from C06, C07
* Theorems (proved): `C08_text_roundtrip`, `C08_other_text_panics`

### C09 Numbers survive marshal and unmarshal

* Model: `Codec_Model.v`, `Base.v` (strconv.Itoa/Atoi, fmt %0nd)
* Proof: induction over digits
* Theorems (proved): `C09_number_roundtrip`, `C09_digit_roundtrip`, `C09_digit_width`, `C09_numbers_injective`, `C09_country_code_error_lost`

### C10 Binary elements survive marshal and unmarshal

* Model: `Codec_Model.v` BinaryDataElement
* Proof: list lemmas
* Theorems (proved): `C10_binary_roundtrip`, `C10_binary_form`
* Note: For payloads up to 2^48 bytes (Go address space limit).

### C11 Binary unmarshaling never invents data

* Model: `Codec_Model.v` BinaryDataElement.UnmarshalHBCI with short reads
* Proof: exact characterisation, refutation by witness
* Theorems (proved): `C11_binary_unmarshal_exact`, `C11_complete_binary_is_in_input`, `C11_binary_invents_data_refuted`, `C11_binary_panics_iff`
* Note: The unconditional claim is refuted; the exact condition is proved.

### C12 Dates, times and booleans survive marshal and unmarshal

* Model: `Codec_Model.v` (time.Parse/Format for the two layouts), booleans
* Proof: arithmetic; round trip and exactness of the accepted language
* Theorems (proved): `C12_date_roundtrip`, `C12_date_accepts_only_renderings`, `C12_time_roundtrip`, `C12_time_accepts_renderings_and_fractions`, `C12_time_accepts_only_renderings_refuted`, `C12_bool_roundtrip`
* Note: For times 'accepts nothing else' is refuted; the exact accepted language is proved.

### C13 Data element groups are split back into their components

* Model: `Wire_Model.v` groups and element extractor on top of the lexer
* Proof: lexer lemmas, induction over element lists; refutation for nested groups
* Theorems (proved): `C13_group_roundtrip`, `C13_nested_groups_ambiguous_refuted`
* Note: Exact: recovered if the provisos hold, an error otherwise. Component values: see C07-C12. Text that looks like a number with superfluous leading zeros and a comma, text with NUL and +Inf are excluded by elem_safe (the lexer rejects or truncates them). Groups inside groups are shown to be ambiguous.

### C14 Segments are split back into their data elements

* Model: `Wire_Model.v` segments
* Proof: as C13
* Theorems (proved): `C14_segment_roundtrip`
* Note: Exact: recovered unless the last present element ends in '+', an error otherwise.

### C15 A segment always ends where its marshaled form ends

* Model: `Wire_Model.v` segment extraction
* Proof: as C13; refutation for a trailing '+'
* Theorems (proved): `C15_segment_is_self_delimiting`, `C15_trailing_plus_refuted`
* Note: The exception named in the property is shown to be real.

### C16 A message is split back into its segments

* Model: `Wire_Model.v` message/segment_extractor.go
* Proof: induction over segments
* Theorems (proved): `C16_message_roundtrip`, `C16_extraction_returns_a_prefix`, `C16_extract_again_duplicates`

### C17 Looking up segments by ID

* Model: `Wire_Model.v` FindSegment(s)
* Proof: list induction
* Theorems (proved): `C17_find_segments`, `C17_find_segment_by_prefix`, `C17_find_segment_exact`, `C17_prefix_collision_refuted`

### C18 The size announced in the message header is the real size

* Model: `Message_Model.v` SetSize/MarshalHBCI
* Proof: length arithmetic
* Theorems (proved): `C18_announced_size`, `C18_new_headers`, `C18_other_width_refuted`
* Note: For a message not marshaled before whose size field takes 12 characters (all messages composed by the dialogs); another width is shown to announce a wrong size.

### C19 Segments are numbered consecutively

* Model: `Message_Model.v` SetSegmentPositions on a heap of segment objects
* Proof: induction over the body; refutation for shared objects
* Theorems (proved): `C19_positions`, `C19_positions_succeed`, `C19_signed_positions`, `C19_wire_order`, `C19_same_object_twice_refuted`
* Note: For bodies that do not contain the same segment object twice; the exception is shown to be real.

### C20 Marshaling a message is stable

* Model: `Message_Model.v` with the marshaledContent cache
* Proof: inductive closure over all operations
* Theorems (proved): `C20_marshal_stable`, `C20_number_set`, `C20_marshal_again`, `C20_operations_covered`

### C21 The PIN/TAN envelope carries the message unchanged

* Model: `Message_Model.v` Encrypt/Decrypt, HNVSD
* Proof: composition of C10, C14, C16
* Theorems (proved): `C21_no_pin_no_message`, `C21_envelope`, `C21_envelope_transparent`, `C21_client_message`
* Note: Payloads up to 2^48 bytes.

### C22 Segment headers survive marshal and unmarshal

* Model: `Message_Model.v` segment headers
* Proof: from C09, C13
* Theorems (proved): `C22_segment_header_roundtrip`

### C23 All acknowledgements of a response are delivered

* Model: `Message_Model.v` HIRMG/HIRMS, domain acknowledgements, unmarshaler
* Proof: exact description by induction over the segments of any accepted message
* Theorems (proved): `C23_acknowledgements_of_any_message`, `C23_every_response`, `C23_acknowledgements_delivered`, `C23_classification`, `C23_second_message_acks_lost_refuted`, `C23_escaped_text_refuted`, `C23_empty_segment_panics`
* Note: Exact description for every accepted message; the naive claim is false for further HIRMG segments, other versions and texts with escaped characters (refutations given).

### C24 Message numbers within a dialog count up from 1

* Model: `Dialog_Model.v` (dialog/dialog.go as functions over an explicit state and a record of everything sent)
* Proof: grammar of the record as an inductive predicate, preserved by every call, any bank
* Theorems (proved): `C24_record`, `C24_numbers`, `C24_numbers_anonymous`, `C24_gap_refuted`, `C24_second_sync_refuted`
* Note: Any sequence of calls from any object state, any bank (a function of the whole conversation, errors and panics included). Every call leaves dialogs and synchronisations of the described shape on the record; the numbers are 1,2,3,... without gap provided job messages can be composed, the exact exception (number 2 lost, 1 then 3) is part of the record predicate and shown to happen. A second synchronisation on the same object continues the numbers and dialog ID of the first (refutation).

### C25 Every dialog opened by SendMessage is ended

* Model: `Dialog_Model.v` SendMessage, SendAnonymousMessage, SyncUserData
* Proof: case analysis over every failure point, any bank
* Theorems (proved): `C25_send_message`, `C25_sync_user_data`, `C25_send_anonymous`
* Note: For every failure point: signing, composing, transport, parsing, error codes, panics. The end is missing only if the end message itself cannot be composed. Initialisation counts as passed when the answer is usable as defined in Dialog_Spec.v.

### C26 Error acknowledgements never look like success

* Model: `Dialog_Model.v`, `Message_Model.v`
* Proof: equivalence success/absence of error codes
* Theorems (proved): `C26_success`, `C26_error_reported`, `C26_answer_returned`
* Note: Both directions; covers the synchronisation too. Errors in the answer to the final dialog end are only logged by the code and are excluded in the statement.

### C27 The chosen security function is one the bank offers

* Model: `Dialog_Model.v` supportedSecurityFn and the providers
* Proof: invariant over call sequences
* Theorems (proved): `C27_choice`, `C27_function_offered`, `C27_same_function`, `C27_messages`, `C27_chosen_function_is_used`, `C27_setpin_refuted`
* Note: Invariants over all call sequences. Setting the PIN a second time puts 999 back into the providers and the chosen function is not reinstalled (refutation).

### C28 Account list contains each account once

* Model: `Dialog_Model.v` accounts
* Proof: exact growth; refutation
* Theorems (proved): `C28_growth`, `C28_each_account_once_refuted`
* Note: The plain claim is false (refutation); proved instead: exactly what a successful call appends.

### C29 All pages of a paginated answer are returned in order

* Model: `Client_Model.v` pagination, `Merge_Model.v`
* Proof: induction over pages, any bank; clock oracle
* Theorems (proved): `C29_requests`, `C29_result`, `C29_goes_on_only_after_marks`, `C29_result_independent`, `C29_bad_page`, `C29_transactions`, `C29_mark_bytes`, `C29_mark_bytes_refuted`, `C29_coarse_clock_refuted`, `C29_no_parameter_refuted`
* Note: Any bank, any number of pages. The code recurses without bound; the model takes a number of pages to look at and the theorems hold for each. Order of the merged transaction pages needs a clock that advances between two readings (refuted otherwise). On the wire the mark comes back to the bank exactly if it has no syntax character (refuted otherwise, it is escaped twice).

### C30 The highest segment version both sides support is used

* Model: `Client_Model.v` version builders
* Proof: list lemmas, finite case analysis of the version tables
* Theorems (proved): `C30_account_balance`, `C30_sepa_account_balance`, `C30_account_transaction`, `C30_tan`, `C30_status`, `C30_status_refuted`, `C30_sepa_transactions_never`, `C30_sepa_transactions_refuted`, `C30_bank_list`, `C30_balances_version`, `C30_status_never`, `C30_sepa_transactions_client`, `C30_status_never_example`
* Note: Four builders choose the highest common version; the status builder builds the other version and the SEPA transactions builder always fails (both refuted with an exact characterisation).

### C31 Generated IBANs are valid

* Model: `Iban_Model.v`
* Proof: modular arithmetic in Z
* Theorems (proved): `C31_new`, `C31_valid`, `C31_german`, `C31_minus_refuted`, `C31_country_refuted`
* Note: Exact form of the result for letters and digits; validity for arbitrary byte strings with the two exceptions, each refuted by an example.

### C32 IBAN check digits are unique and From is strict

* Model: `Iban_Model.v`
* Proof: modular arithmetic in Z
* Theorems (proved): `C32_from`, `C32_unique`, `C32_accepted_is_valid`, `C32_is_valid`, `C32_valid_meaning`, `C32_from_panics`, `C32_minus_refuted`, `C32_valid_not_unique_refuted`

### C33 IBAN check detects typing errors

* Model: `Iban_Model.v`
* Proof: modular arithmetic in Z (97 prime)
* Theorems (proved): `C33_substitution`, `C33_swap`, `C33_swap_digits`, `C33_blind_pair_refuted`
* Note: Any length, any position; exact characterisation of the undetected swaps.

### C34 The SWIFT lexer terminates and loses no bytes

* Model: `Swift_Model.v` (token/swift_lexer.go)
* Proof: as C01-C05
* Theorems (proved): `C34_swift_lexing`, `C34_all_bytes_in_tokens`, `C34_tokens_as_specified`
* Note: Every byte string; a NUL byte where a value is expected is taken as the end of the input.

### C35 SWIFT tags are extracted completely

* Model: `Swift_Model.v` extractors
* Proof: lexer lemmas, induction over fields
* Theorems (proved): `C35_tags_extracted`, `C35_messages_extracted`, `C35_capital_line_refuted`, `C35_split_refuted`, `C35_joined_refuted`, `C35_errors_reported`, `C35_messages_of_any_input`, `C35_tags_of_any_input`, `C35_final_line_break_refuted`
* Note: Exact (if and only if) for messages of fields with proper ids.

### C36 Merging MT940 messages keeps all data in time order

* Model: `Merge_Model.v` (swift/unmarshal.go)
* Proof: sortedness and permutation, any sorting function with sort.Sort's contract
* Theorems (proved): `C36_nothing_lost`, `C36_chronological`, `C36_nested`
* Note: For every sorting function with the contract of sort.Sort (a sorted permutation).

### C37 Transaction amounts keep their sign

* Model: `Mt940_Model.v`
* Proof: case analysis; refutations by witness
* Theorems (proved): `C37_amount_signs`, `C37_plain_entries`, `C37_balance_sign`, `C37_delivered_balances`, `C37_debit_refuted`, `C37_reversal_refuted`, `C37_credit_refuted`, `C37_balance_refuted`
* Note: The plain claim is false (refutations); the exact set of entries with a turned sign is part of the theorem. float64 parsing and negation are parameters.

### C38 Base64 transport framing is transparent

* Model: `Transport_Model.v` (encoding/base64 with its streaming reader, middleware, https)
* Proof: bit level specification, sweeps over the alphabet, induction
* Theorems (proved): `C38_middleware`, `C38_dialog`, `C38_https`, `C38_https_base64`, `C38_no_answer`, `C38_shape`, `C38_reading_in_pieces`
* Note: Base64 specified by bits after RFC 4648; reads divided arbitrarily (cuts).

### C39 Bank lookup

* Model: `Bank_Model.v` and the transcribed table `Bank_Data.v`
* Proof: list induction; one computation over the table
* Theorems (proved): `C39_lookup`, `C39_version`, `C39_table_from_csv`
* Note: A record is its columns; reading them from the file is C72.

### C40 Timeframes survive their textual forms

* Model: `Time_Model.v` (domain/time.go)
* Proof: string lemmas
* Theorems (proved): `C40_query_roundtrip`, `C40_query_reads_exactly`, `C40_query_never_panics`, `C40_json_form`, `C40_json_roundtrip_iff`, `C40_json_any_input`, `C40_json_reads_exactly`, `C40_date_text_roundtrip`, `C40_date_text_reads_exactly`, `C40_date_json_roundtrip`, `C40_open_timeframe_refuted`, `C40_unset_date_refuted`, `C40_late_years_refuted`
* Note: strconv.Unquote of text with escapes is an oracle.

### C41 Parts of a German IBAN

* Model: `Iban_Model.v`
* Proof: string lemmas
* Theorems (proved): `C41_parts`, `C41_length`, `C41_short_refuted`

### C42 The printed IBAN

* Model: `Iban_Model.v`
* Proof: string lemmas
* Theorems (proved): `C42_paper`, `C42_same_characters`
* Note: TrimSpace is modelled for ASCII white space.

### C43 Dates of MT940 entries

* Model: `Mt940_Model.v` dates
* Proof: arithmetic
* Theorems (proved): `C43_valuta_date`, `C43_booking_date`, `C43_adjacent_months`, `C43_new_year_refuted`, `C43_two_months_refuted`, `C43_last_century_refuted`, `C43_february_30_refuted`
* Note: Exact (if and only if).

### C44 Structured :86: fields

* Model: `Mt940_Model.v` structured fields
* Proof: string lemmas over find_sub
* Theorems (proved): `C44_fields_read`, `C44_in_order_no_panic`, `C44_out_of_order_not_read`, `C44_panics_exactly`, `C44_out_of_order_refuted`, `C44_key_in_text_refuted`

### C45 Statements that cannot be read

* Model: `Mt940_Model.v`
* Proof: witness classes
* Theorems (proved): `C45_no_account_panics`, `C45_bad_entry_panics`, `C45_panic_refuted`
* Note: The plain claim is refuted; two classes of inputs on which the call panics are proved.

### C46 Every booked entry is delivered once

* Model: `Mt940_Model.v` on top of `Swift_Model.v`
* Proof: induction over the fields of a statement
* Theorems (proved): `C46_every_entry_once`, `C46_account_exactly`, `C46_statement_number`, `C46_unknown_field_reported`
* Note: What is delivered is spelled out in the predicate delivers of Mt940_Spec.v (amount and booking date with the exceptions of C37 and C43).

### C47 References of an entry

* Model: `Mt940_Model.v`
* Proof: string lemmas
* Theorems (proved): `C47_references`, `C47_mark`, `C47_panics_exactly`, `C47_slashes_refuted`, `C47_panic_refuted`, `C47_mark_refuted`

### C48 Which bank, address and version a new client uses

* Model: `Bank_Model.v` client.New
* Proof: case analysis; computation over the table
* Theorems (proved): `C48_new`, `C48_new_panics_iff`, `C48_library_table`, `C48_unknown_bank_refuted`, `C48_hidden_entry_refuted`, `C48_lower_version_refuted`
* Note: The built-in table is transcribed (ID, version fields, URL).

### C49 Damaged and interrupted answers

* Model: `Transport_Model.v`
* Proof: exact behaviour on damaged input
* Theorems (proved): `C49_damage_is_not_reported`, `C49_interrupted_prefix`, `C49_damage_reported_refuted`, `C49_status_ignored`, `C49_hidden_by_the_layers`
* Note: The expected property is refuted; the exact behaviour is proved.

### C50 Calls of one request return what the bank's answer says

* Model: `Client_Model.v`
* Proof: equations for the calls of one request
* Theorems (proved): `C50_balances`, `C50_information`, `C50_information_missing`
* Note: What the segments say (AccountBalance()) is an oracle.

### C51 Balances arrive as the bank sent them

* Model: `Seg_Model.v` HISAL
* Proof: wire encoder in `Seg_Spec.v`, reader lemmas per element
* Theorems (proved): `C51_calendar`, `C51_balances_delivered`, `C51_sepa_balances_delivered`, `C51_national_balances_are_not_sepa`, `C51_booking_time_refuted`, `C51_balances_kept`
* Note: Decimal numbers are an oracle (strconv.ParseFloat), assumed to read the bank's decimals.

### C52 Booked transactions arrive byte for byte

* Model: `Seg_Model.v` HIKAZ
* Proof: as C51
* Theorems (proved): `C52_booked_delivered`, `C52_nothing_booked_refuted`, `C52_booked_kept`

### C53 Accounts of the user parameter data

* Model: `Seg_Model.v` HIUPD
* Proof: as C51, induction over jobs
* Theorems (proved): `C53_account_delivered`, `C53_no_currency_refuted`, `C53_account_limit_refuted`, `C53_job_limit_refuted`

### C54 Client system ID, user and bank parameter data

* Model: `Seg_Model.v` HISYN, HIUPA, HIBPA
* Proof: as C51
* Theorems (proved): `C54_system_id_delivered`, `C54_user_delivered`, `C54_bank_delivered`, `C54_name_refuted`

### C55 Which jobs need a TAN, and the TAN processes

* Model: `Seg_Model.v` HIPINS, DIPINS, HITANS
* Proof: as C51, induction over processes
* Theorems (proved): `C55_jobs_delivered`, `C55_old_jobs_delivered`, `C55_processes_delivered`, `C55_functions_delivered`, `C55_name_refuted`

### C56 Every request goes out byte by byte as the protocol asks

* Model: `Request_Model.v` (segments of all requests, signing, envelope)
* Proof: wire encoder of `Seg_Spec.v`, element lemmas, C18 and C19 for size and positions
* Theorems (proved): `C56_signed_requests`, `C56_reference_differs`, `C56_clean_requests`, `C56_anonymous_requests`, `C56_no_pin_nothing_sent`, `C56_signing_succeeds`, `C56_pin_ending_refuted`, `C56_default_start_refuted`
* Note: PIN/TAN dialogs; texts ending in ':' or '+' are outside the positive theorems and refuted.

### C57 What a client finds in a bank's message is what the bank wrote

* Model: `Message_Model.v` with the segment readers of `Seg_Model.v`
* Proof: message encoder in `Answer_Spec.v`, induction over the segments, C51-C55 for each kind
* Theorems (proved): `C57_message_delivered`, `C57_balances_in_message`, `C57_booked_in_message`, `C57_sepa_balances_in_message`, `C57_second_segment_refuted`
* Note: A message of less than 2^48 bytes; decimals as in C51; segments in the forms that crash their reader (HIKIF with persons, signature headers with a certificate, HNSHA version 2 with a PIN, HIKOM, HISHV, HIKPV: see C60) are not among those a message may contain.

### C58 From the caller to the wire and back, for every history of calls

* Model: all of `Client_Model.v`, `Dialog_Model.v`, `Request_Model.v`, `Message_Model.v`, `Seg_Model.v`, `Mt940_Model.v` put together
* Proof: invariant over all calls (`sound` in `Stack_Facts.v`), then C56, C57, C29, C46, C50
* Theorems (proved): `C58_sent`, `C58_accounts`, `C58_balances`, `C58_sepa_balances`, `C58_transactions`
* Note: Texts of the caller that do not end in ':' or '+' (C56); dialog and system IDs, user IDs and marks of the bank likewise; a bank that requires one of the described TAN processes; answers of the kinds of C57. For transactions: go_sort and an advancing clock as in C29, statements as in C46.

### C59 Status reports, TAN challenges and announcements of the bank

* Model: `hipro`, `hitan`, `hikim` readers and `status_in` (`Seg_Model.v`)
* Proof: the forms of the specification in `Answer_Spec.v`; each reader computed on all of them (`Kept_Facts.v`); the whole-message part from C57
* Theorems (proved): `C59_status_delivered`, `C59_status_time_refuted`, `C59_status_message_refuted`, `C59_statuses_in_message`, `C59_tan_delivered`, `C59_tan_challenge_refuted`, `C59_news_delivered`
* Note: Segments of less than 2^61 bytes. C59_tan_challenge_refuted and C59_status_time_refuted prove that the value a user expects is never delivered; C59_status_message_refuted proves the crash.

### C60 Which answers of a bank crash a call

* Model: the readers of C50/C51, `read_response`, all of `Dialog_Model.v` and `Client_Model.v`
* Proof: every reader computed on all forms of its segment; two properties of calls closed under sequencing and deferral (`sound`, `safe` in `Crash_Facts2.v`)
* Theorems (proved): `C60_message`, `C60_dialog_calls`, `C60_client_calls`, `C60_contents`, `C60_transactions`, `C60_any_bank`
* Note: The statement's exceptions are exact for messages and for the calls of C60_dialog_calls and C60_client_calls (signing and composing are premises: they do not crash, C56). The other calls: one direction outright, the other if the contents are complete; for transactions the statement reader may crash on its data (C46).

### C61 RSA encryption and decryption invert each other

* Model: `Crypto_Model.v` (crypto/rsa.go)
* Proof: Fermat's little theorem and the correctness of RSA (`Rsa_Facts.v`), conversion between bytes and numbers by induction
* Theorems (proved): `C61_encrypt`, `C61_decrypt`, `C61_round_trip`, `C61_injective`, `C61_part`, `C61_crt`, `C61_same_message_refuted`
* Note: Lengths below 2^63; math/big taken as exact integers. The losses named in the statement are proved, C61_same_message_refuted refutes the plain round trip.

### C62 Signatures with ISO 9796-1 padding: what is signed, and what is accepted

* Model: `Crypto_Model.v` (crypto/iso9796_encoding.go)
* Proof: loops of the padding against the number of the standard (`Crypto_Spec.v`): invariants over the positions of the block; decoding computed for all powers; then C61
* Theorems (proved): `C62_sign`, `C62_block_sizes`, `C62_verify`, `C62_recover`, `C62_forgery`, `C62_forged`, `C62_only_signed_refuted`, `C62_crt`, `C62_same_message_refuted`
* Note: C62_verify is exact for all signatures (moduli of at least 3 bits); C62_recover for moduli of at least 19 bits. C62_only_signed_refuted and C62_same_message_refuted refute the plain wishes.

### C63 The log of a dialog changes nothing, and what it shows

* Model: `Log_Model.v` (transport/middleware/logging.go, internal/logger.go) on top of `Transport_Model.v` and `Message_Model.v`
* Proof: the segments of the request (C56) read by each reader for all proper values (`Log_Facts.v`): none crashes and the end of the signature is refused; anonymous requests and answers from C57
* Theorems (proved): `C63_exchange`, `C63_log`, `C63_displayed`, `C63_no_difference`, `C63_signed_request`, `C63_anonymous_request`, `C63_answer`, `C63_silent`, `C63_pin_secret_refuted`
* Note: Requests shorter than 10^12 bytes (C56). Prefixes, times and error texts of the log are not modelled; C63_pin_secret_refuted refutes that the PIN stays out of the log, for every signed request.

### C64 A bank reads in a request what the caller gave, and nothing else

* Model: `Request_Model.v` and everything below it; the reader of `Read_Spec.v` is no part of the model
* Proof: the reader computed on the encoder's output by induction over values, elements and segments (`Read_Facts.v`); then C56; injectivity from the uniqueness of what is read
* Theorems (proved): `C64_signed_read`, `C64_anonymous_read`, `C64_same_bytes`, `C64_same_bytes_anonymous`, `C64_every_pin_refuted`
* Note: Messages shorter than 10^12 bytes; the bank's reader is the specification's own (`Read_Spec.v`), not the library's. C64_every_pin_refuted is the exception named in the statement.

### C65 Keys sign, encrypt and carry their names as the bank expects

* Model: `Key_Model.v` (domain/key.go, key management segments, String() of segments), PKCS #1 v1.5 of crypto/rsa
* Proof: correctness of RSA (`Rsa_Facts.v`) and injectivity of both paddings (`Key_Facts.v`); induction over calls for names; the key of the examples from two primes by Proth's theorem (`Key_Witness.v`)
* Theorems (proved): `C65_names`, `C65_initial`, `C65_pin_key`, `C65_signature_accepted`, `C65_encryption_recovered`, `C65_long_exponent_refuted`, `C65_capabilities`, `C65_key_request`, `C65_key_sent_refuted`, `C65_renewal`, `C65_key_answer`, `C65_revocation`
* Note: crypto/rsa is modelled as PKCS #1 v1.5 over exact integers, with a random source that may fail; that rsa.GenerateKey returns a key pair with exponent 65537 is trusted. C65_long_exponent_refuted and C65_key_sent_refuted are the exceptions of the statement.

### C66 What an RSA signature of a message covers, and dialogs for card readers

* Model: `Key_Model.v` (RSA provider, RDH dialog) with `sign` of `Message_Model.v`
* Proof: the first difference between String() and the bytes of a signature header (`Key_Facts2.v`), then C65; induction over calls for the dialog
* Theorems (proved): `C66_signs`, `C66_signature_refuted`, `C66_header`, `C66_reference_differs`, `C66_reference_refuted`, `C66_new_dialog`, `C66_dialog_refuted`
* Note: RIPEMD-160 is any function with 20 bytes of result. C66_header for bank codes that are not empty and texts that do not end in a separator.

### C67 IsValid says what it means

* Model: `Valid_Model.v` (IsValid and Length of all element types, constructors of groups)
* Proof: induction over elements; lengths of decimal texts by arithmetic, binary search by its invariant, the form of floats by splitting off zeros (`Valid_Facts.v`)
* Theorems (proved): `C67_exponent`, `C67_exact`, `C67_constructed`, `C67_read_panics_refuted`, `C67_bank`, `C67_connection`, `C67_intl`, `C67_header`, `C67_reference`, `C67_key_name`, `C67_pin`, `C67_acknowledgement`, `C67_acknowledgement_refuted`, `C67_text_refuted`, `C67_numbers`, `C67_boolean_refuted`, `C67_binary_refuted`, `C67_code`, `C67_code_refuted`, `C67_amount`, `C67_amount_refuted`, `C67_read`, `C67_sent`, `C67_sent_refuted`, `C67_security`, `C67_key_length_refuted`, `C67_parameters`, `C67_transactions`, `C67_address`, `C67_address_refuted`, `C67_balance`, `C67_length`, `C67_length_refuted`, `C67_virtual_date`
* Note: The rules are the inductive predicate `acceptable` of `Valid_Spec.v`. Floats are given by their shortest decimal digits, as everywhere.

### C68 The error a call returns says what the bank reported

* Model: `Error_Model.v` (error texts of dialog.go and client.go, Acknowledgement.String), proved to agree with `Dialog_Model.v` and `Client_Model.v`
* Proof: each step of a call keeps the invariant that a message in trouble ends the call with its text (`Error_Facts.v`, `Error_Facts2.v`), induction over pages (`Error_Facts3.v`)
* Theorems (proved): `C68_same_calls`, `C68_dialog_calls`, `C68_same_client_calls`, `C68_client_calls`, `C68_accounts`, `C68_readers`, `C68_one_line`, `C68_reference`, `C68_init_label_refuted`, `C68_lines_refuted`, `C68_end_refuted`, `C68_accounts_refuted`
* Note: The texts of errors of signing, composing, the transport and the reader are any texts. C68_same_calls and C68_same_client_calls tie the model with texts to the model of C24-C30 and C60. The refuted theorems are the exceptions of the statement.

### C69 Printed tables show every value in its place

* Model: `Print_Model.v` (String of balances, transactions and accounts; text/tabwriter)
* Proof: tabwriter's recursion over blocks proved to place every line with widths that are those of its columns (`Print_Facts.v`), its scanner by induction over the text (`Print_Facts2.v`); then one width per column for uninterrupted columns
* Theorems (proved): `C69_vertical_tabs`, `C69_escaped`, `C69_layout`, `C69_table`, `C69_balances`, `C69_sepa_balances`, `C69_balance`, `C69_sepa_balance`, `C69_transactions`, `C69_transaction`, `C69_infos`, `C69_info`, `C69_characters`, `C69_transaction_refuted`, `C69_balances_refuted`, `C69_indent_refuted`, `C69_lines_refuted`
* Note: text/tabwriter of the standard library is modelled. How an amount and a day are printed (%.2f, time.Format) is any text. The refuted theorems are the exceptions of the statement.

### C70 The command line program does what it says, or exits with 1 and the reason

* Model: `Cli_Model.v` (cmd/banking) on top of `Error_Model.v`, `Print_Model.v` and `Bank_Model.v`
* Proof: calendar arithmetic against one-day steps of the calendar (`Cli_Dates.v`); the texts from C68, the requests from the induction over pages of C29 and C30; with a helpful bank from C58 (`Cli_Stack.v`)
* Theorems (proved): `C70_start`, `C70_missing`, `C70_unknown_bank`, `C70_no_iban`, `C70_long_user_refuted`, `C70_failed`, `C70_asked`, `C70_balances`, `C70_sepa_balances`, `C70_transactions`, `C70_sepa_transactions_refuted`, `C70_accounts`, `C70_end_accounts`, `C70_end_balances`, `C70_end_sepa_balances`, `C70_end_transactions`
* Note: The C70_end theorems put the program on top of C58: a bank that answers as the standard says. Flags are taken as parsed (cobra, viper and the config file are not modelled). How an amount and a day are printed is any text, as in C69. The refuted theorems are the exceptions of the statement.

### C71 The anonymous client tells the bank nothing about its user

* Model: `Anon_Model.v` (AnonymousClient, HKKOM) on top of `Dialog_Model.v` and `Request_Model.v`
* Proof: the bytes as in C56 and the order of messages from the case analysis of C25 (`Anon_Facts.v`); a relation between two runs kept by every step (`Anon_Facts2.v`); the crash from C60
* Theorems (proved): `C71_conversation`, `C71_unchanged`, `C71_anonymous`, `C71_answer_refuted`, `C71_customer_refuted`
* Note: The text CommunicationAccess makes of the bank's message (fmt %+#v) is not modelled; the message itself is. The bytes are as stated for texts that do not end in ':' or '+' and messages below 10^12 bytes, as in C56. The refuted theorems are the exceptions of the statement.

### C72 Bank tables are read from CSV files as they are written

* Model: `Csv_Model.v` (encoding/csv as set up by bankinfo/parser.go, the table of cmd/bankdata_parser) on top of `Bank_Model.v`
* Proof: the line based reader proved sound and complete for a grammar of files by induction over lines, fields and records (`Csv_Facts2.v`); trimming is the unique one (`Csv_Facts.v`)
* Theorems (proved): `C72_csv`, `C72_written`, `C72_entries`, `C72_bic`, `C72_lookup`
* Note: The reader of encoding/csv is modelled line by line; of github.com/wildducktheories/go-csv, whose source is not in /repo, only that the first record names the columns (what a file without records gives is any outcome; repeated column names are excluded). The Go source the generator prints: C73.

### C73 The Go source made from bank tables says the tables

* Model: `Gosrc_Model.v` (template of cmd/bankdata_parser, strconv.Quote) on top of `Csv_Model.v`
* Proof: a literal whose value is as long as its text has no escapes, so a raw field is its own value only without marks (`Gosrc_Facts.v`); quoting by induction over characters (`Gosrc_Facts2.v`); the tokens line by line (`Gosrc_Facts3.v`)
* Theorems (proved): `C73_quote`, `C73_source`, `C73_program`, `C73_same`, `C73_source_refuted`
* Note: Go source is read by the lexical grammar of the Go specification (`Gosrc_Spec.v`); go/format is any function that keeps the tokens, strconv.IsPrint any predicate that rejects control characters and byte order marks. The refuted theorem is the exception of the statement.

### C74 The character set middleware sends one byte per character

* Model: `Utf8_Model.v` (UTF8Encoding, the encoder and writer of golang.org/x/text for ISO 8859-1)
* Proof: the encoder is sound and complete for texts with perhaps an unfinished end, prefixes of such texts are such texts, then induction over pieces (`Utf8_Facts.v`)
* Theorems (proved): `C74_sent`, `C74_refused`, `C74_round`, `C74_tail_refuted`
* Note: The encoder charmap.ISO8859_1 and the writer of golang.org/x/text are modelled from their documentation (their source is not in /repo), with buffers as large as needed. The refuted theorem is the exception of the statement.

### C75 Generated segment readers read what the segment's elements method lists

* Model: `Gen_Model.v` (generator/, the flag of cmd/unmarshaler; the statements of generated readers and their execution)
* Proof: the visitors by induction over declarations and elements, sorting leaves sorted lists alone (`Gen_Facts.v`); the text is the printed statements, and statements are run by induction over fields (`Gen_Facts2.v`); writing from C13; the library's own segments by computation over the table of `Gen_Library.v` and the general theorems (`Gen_Index.v`)
* Theorems (proved): `C75_versioned_text`, `C75_fields`, `C75_elements_refuted`, `C75_unknown`, `C75_text`, `C75_reads`, `C75_error`, `C75_round`, `C75_versions`, `C75_empty_refuted`, `C75_flag`, `C75_flag_part`, `C75_flag_list`, `C75_hisyn`, `C75_hikim`, `C75_hitan`, `C75_challenge_refuted`, `C75_library`, `C75_library_round`, `C75_library_unread`, `C75_index`, `C75_known`
* Note: The table of the library's segments (`Gen_Library.v`) is made from the sources by a script, which also checked that the committed readers are what the generator writes for them. Source files are given as what go/parser makes of them, reduced to what the generator looks at. C75_text proves that the text written by the template is the text of the statements whose execution the other theorems are about; that Go executes such text as the model does is trusted, and so is that it compiles. C75_round is about segments written as in C13 (plain texts, no trailing '+', below 2^61 bytes). The refuted theorems are the exceptions of the statement.

### C76 Exactly the segments whose elements have the right form are read

* Model: `Seg_Model.v` and `Message_Model.v` (the readers of all segments and element groups); forms and the table of segments in `Accept_Spec.v`
* Proof: a calculus of outcomes that carries the exact conditions of success and panic through sequences (`Accept_Facts.v`), the basic values by C11 and C12, groups by the exactness of group splitting, sequences of elements by induction (`Accept_Facts2.v`), one lemma per form (`Accept_Facts3.v`) and one per segment (`Accept_Facts4.v`)
* Theorems (proved): `C76_readable_iff`, `C76_acknowledgements_readable_iff`, `C76_pin_transactions_readable_iff`, `C76_accounts_readable_iff`, `C76_accounts_with_extensions_readable_iff`
* Note: The table of forms is `segments` in `Accept_Spec.v`. Segments have at most as many elements as the table says; more are joined to the last one by go-hbci, which is covered for the jobs of an account. Jobs are without plus signs and apostrophes. Texts have no NUL and no malformed number at the front (C03), as in C51.

### C77 Every error of a call names the step at which it failed

* Model: `Error_Model.v` (the calls with the texts of their errors, as for C68); steps and texts in `Reason_Spec.v`
* Proof: actions either fail for a reason about the last message sent or leave the history alone, which is closed under sequence, deferred ends and prefixes (`Reason_Facts.v`); the calls of a client by the same calculus with the bank parameters carried along (`Reason_Facts2.v`)
* Theorems (proved): `C77_dialog_errors`, `C77_client_errors`, `C77_sepa_balances_errors`, `C77_readers`, `C77_not_sepa`
* Note: The converse of C68: steps and texts are in `Reason_Spec.v`. Reading segments is a parameter with two conditions, which C68_readers and C77_readers prove of the readers of the library; why signing, composing, the transport and reading failed are parameters.

### C78 The scripted HTTP transport plays its payloads in order

* Model: `Mock_Model.v` (transport/https/mock_http_transport.go, response bodies that can be read once)
* Proof: the slices are either all missing or of matching lengths, an invariant of all histories; a script and what is left of it by induction over requests; the readers of payloads from C38
* Theorems (proved): `C78_plays`, `C78_registers`, `C78_errors`, `C78_recorded`, `C78_request`, `C78_exchange`, `C78_nil_promised_refuted`, `C78_register_later_refuted`, `C78_unprepared`
* Note: What it means to play a script is `plays` in `Mock_Spec.v`. The error of an unexpected request is the pair of the request and its body, from which the text is made. ContentLength of a response is the length of the payload, not of the body, which nothing in go-hbci reads; net/http is between the transport and https.go and is not modelled. The refuted theorems and C78_unprepared are the exceptions of the statement.

### C79 A reader of messages finds every segment, in order, under its ID

* Model: `Lookup_Model.v` (Unmarshaler with its state, SegmentPosition) on top of `Wire_Model.v` and `Message_Model.v`
* Proof: the loop finds what the relation says by induction over segments; histories by induction with the number of copies; the lookups from C17
* Theorems (proved): `C79_unmarshal`, `C79_unreadable`, `C79_cases`, `C79_history`, `C79_by_id`, `C79_marshaled_by_id`, `C79_segment`, `C79_position`, `C79_undividable`, `C79_position_unreadable`, `C79_prefix_refuted`
* Note: What is found is the relation `found` in `Lookup_Spec.v`; copies are counted by `divisions` and `readings`. The readers of segments other than acknowledgements are a parameter. SegmentPosition of messages that are composed, not read, is always -1 and not modelled. C79_history and C79_prefix_refuted are the exceptions of the statement.

### C80 The bank parameters of a dialog are those the bank sent

* Model: `Params_Model.v` (parseBankParameterData with the Go map of jobs as a list of entries, NeedsTan)
* Proof: the map by induction over the list of jobs from its end; the first parsed segment of an ID is the first with a reader by induction over what is found (C79)
* Theorems (proved): `C80_needs_tan`, `C80_agree`, `C80_differ_refuted`, `C80_parameters`, `C80_attached`, `C80_library`, `C80_second_version_refuted`, `C80_dropped_refuted`
* Note: First and last entries, the offered segments and the first readable segment of an ID are in `Params_Spec.v`. What a segment says as HIBPA or HIPINS is a parameter, and so are the readers; that they keep the version of the header is a hypothesis of C80_attached, which C80_library discharges for the readers of go-hbci (a table that pairs each of them with the version of the header). The refuted theorems are the exceptions of the statement.

### C81 A syntax error says where and why reading a SWIFT dataset stopped

* Model: `Cut_Model.v` (SyntaxError and the texts of the SWIFT lexer's errors per state) on top of `Swift_Model.v`; places and texts in `Cut_Spec.v`
* Proof: every run of the lexer ends with an ERROR token whose state belongs to the last token, by induction over steps with the invariant that nothing has been skipped; the place by induction over the tokens of C34; cuts by induction over the complete fields
* Theorems (proved): `C81_error`, `C81_text`, `C81_unexpected_iff`, `C81_cut_value`, `C81_cut_tag_refuted`, `C81_cut_after_tag_refuted`
* Note: The places at which reading may stop are `reaches` in `Cut_Spec.v`, over the one-step reader `next_token` of `Swift_Spec.v`; the text for each is `stop_text`. The text of the error itself (Error) is modelled up to the verb %q of package fmt. The refuted theorems are the exceptions of the statement.

### C82 Dates made from times are the day on the calendar there, and a timeframe ends today

* Model: `Today_Model.v` (instants with locations, time.Date and Time.Date on the day numbers of `Cli_Model.v`, NewShortDate, TimeframeFromDate)
* Proof: a short date is 86400 times a day number; the day numbers and the calendar are inverse to each other (C70); the rest is division with remainder
* Theorems (proved): `C82_day`, `C82_new_short_date`, `C82_date`, `C82_location_refuted`, `C82_timeframe`, `C82_today`, `C82_west`, `C82_east_refuted`, `C82_string`
* Note: The day on a calendar is `shows_day` in `Today_Spec.v`, which counts days one by one from the year 1. Locations are functions from instants to offsets; fractions of seconds are left out. The refuted theorems, C82_today and C82_string are the exceptions of the statement.

### C83 The log switches belong to the whole program, not to a client

* Model: `Switch_Model.v` (the two switches, the calls that set them, nested functions, panics; New with `client_new` of `Bank_Model.v`)
* Proof: induction over histories and, for calls inside functions, over the nesting
* Theorems (proved): `C83_debug`, `C83_info`, `C83_silent`, `C83_client_refuted`, `C83_failed_new_refuted`, `C83_within`, `C83_restore_refuted`, `C83_panic`, `C83_pin_refuted`, `C83_quiet`
* Note: Which call decides is `decision`, `last_decision` and `info_calls` in `Switch_Spec.v`. The prefix of the log lines (name, time, file) is left out, and so is concurrent use of the switches. The refuted theorems and C83_panic are the exceptions of the statement.

### C84 The text of a status report says what the bank reported

* Model: `Status_Model.v` (StatusAcknowledgement.String) on the reports of `Seg_Model.v`
* Proof: the pieces of the text one by one; from the bank's bytes with C59
* Theorems (proved): `C84_text`, `C84_one_text`, `C84_from_bank`, `C84_lines`, `C84_text_refuted`, `C84_params_refuted`
* Note: What the text says is `reports` in `Status_Spec.v`; C84_one_text shows that it fixes the text. How an instant is printed (time.Time.String) is any text; C59 says which instant it is. The refuted theorems are the exceptions of the statement.

### C85 A SWIFT tag says what the last text read into it said

* Model: `Tags_Model.v` (tag objects with their nil pointer) on `tag_elements` of `Mt940_Model.v`
* Proof: the name by induction over the text up to the colon, numbers with C76's reading of decimals; histories by induction from the end
* Theorems (proved): `C85_unmarshal`, `C85_once`, `C85_last`, `C85_unread_panics`, `C85_number`, `C85_amount_refuted`
* Note: What a text says is `says` and `last_said` in `Tags_Spec.v`. strconv.ParseFloat is any function; in C85_amount_refuted one that refuses texts with a comma, as Go's does. C85_unread_panics and C85_amount_refuted are the exceptions of the statement.

### C86 The name of a key survives being written and read

* Model: `Keyname_Model.v` (KeyNameDataElement.UnmarshalHBCI with its values, Val) and `name_de` of `Key_Model.v`
* Proof: the wire form is a group that ends in a number, which the lexer reads back in full; element by element with the lemmas of `Seg_Facts2.v`
* Theorems (proved): `C86_read`, `C86_roundtrip`, `C86_bank_code_refuted`, `C86_same`
* Note: The value is `named_value` in `Keyname_Spec.v`, what a bank writes `named_items`. C86_bank_code_refuted and the last part of C86_read are the exceptions of the statement. C86_same says that the model of whole segments reads key names in the same way.

### C87 PIN and TAN survive being written and read

* Model: `Pintan_Model.v` (NewCustomSignature, NewPinTan, PinTanDataElement.UnmarshalHBCI with its values)
* Proof: as C86
* Theorems (proved): `C87_written`, `C87_roundtrip`, `C87_pin_alone_refuted`, `C87_client`, `C87_same`
* Note: C87_pin_alone_refuted is the exception of the statement..

### C88 Who signed and when survives being written and read

* Model: `Signer_Model.v` (NewRDHSecurityIdentification, NewSecurityDate and the two UnmarshalHBCI with their values)
* Proof: as C86, dates and times with C12
* Theorems (proved): `C88_identification`, `C88_date`, `C88_panics`, `C88_no_system_refuted`, `C88_same`
* Note: The codes of the parties and kinds are `holder_code` and `stamp_code`. A moment is its date and time of day, as in C12. C88_panics and C88_no_system_refuted are the exceptions of the statement. C88_same ties the elements to what clients write and to the model of whole segments.

## Trusted base

* The Coq 8.16.1 kernel including its virtual machine (`vm_compute` is used for sweeps over bytes, examples and refutations; `coqchk` re-checks them by ordinary conversion).
* `Print Assumptions` stands after every property theorem and reports "Closed under the global context" for each of them: no axiom is used, neither our own nor one of the standard library. `coqchk` lists seven constants `Coq.ssr.ssrunder.Under_rel.*` as axioms of the context: they belong to a standard library module that is loaded with ssreflect's `under` (through Coq's own `Require`s) and no theorem here depends on them.
* The reading of the Go code: nothing is run here; each definition cites the lines it models.
* The parameters below stand for code that is not modelled. A theorem holds for every value of them unless its statement restricts them.

| parameter | stands for | restricted by |
|---|---|---|
| `bank` (Dialog, Client) | answers of transport and bank, including errors and panics, as a function of the whole conversation | nothing |
| `sign_ok`, `compose` (Dialog, Client) | signing and marshaling a request | nothing in C24-C30; computed by `Request_Model` in C56 |
| `others` (Message, Dialog, Client) | reading segments other than acknowledgements | nothing; computed by `Seg_Model` in C51-C55 |
| `pick` (Dialog) | Go's map iteration order | nothing |
| `balance_in`, `sepa_balance_in`, `booked_in`, `status_in`, `read_mt940` (Client) | reading the kept segments | nothing; computed by `Seg_Model` / `Mt940_Model` elsewhere |
| `sort`, `clock` (Client, Merge) | sort.Sort, time.Now() | a sorted permutation; strictly increasing where stated |
| `parse_float`, `neg` (Seg, Mt940) | strconv.ParseFloat, unary minus on float64 | in C51: reads the bank's decimals (`reads_decimals`) |
| `now`, `zero`, `other_digit` (Mt940) | time.Now().Year(), 0.0, unicode.IsDigit outside ASCII | nothing |
| `unquote_other` (Time) | strconv.Unquote of text with escapes | nothing |
| `render` (Message, Request) | Segment.String() for the text to be signed, which the PIN provider ignores | nothing |
| `sign_why`, `compose_why`, `bank_why`, `read_why`, `mt940_why` (Error) | texts of errors of signing, marshaling, transport, reading | nothing |
| `quote` (Error) | strconv.Quote (%q) | in C68_one_line: no line feed in the result |
| `fixed2`, `nonzero`, `day` (Print) | %.2f of a float, comparison with 0, time.Format of a balance's date | nothing |
| `moment` (Status) | time.Time.String of the instant of a status report | in C84_lines: no line feed in the result |
| `table`, `config_why`, `iban_why`, `greeting` (Cli) | the table of banks, texts of errors, the first line printed | nothing |
| `no_header`, `sort` (Csv) | what go-csv makes of a file without records; sort.Sort | nothing; a permutation |
| `today`, `signed_at`, `enveloped_at` (Request) | time.Now() | real dates and times |

## Modelled

* token/: lexer.go, token.go (types), swift_lexer.go.
* charset/convert.go; element/data_element.go (text, digits, numbers, floats as decimal renderings, binary, boolean, date, time, groups), element/element_extractor.go, segment_header.go, acknowledgement.go, and the groups of signature.go, signature_fints3.go, encryption.go, pin.go, tan.go, group_data_element_group.go, bank_parameter_data.go, user_parameter_data.go, communication_access.go, key_management.go as far as PIN/TAN requests and the bank's segments use them.
* segment/: segment.go, element_extractor.go, segment_index.go, hbci_version.go, the generated unmarshalers of all known segments, the accessors used by dialog and client, the request segments of all dialogs and jobs.
* message/: message.go, encryption.go, decryption.go, unmarshaler.go, segment_extractor.go, signature.go, crypto.go for PIN/TAN, sync.go, dialog.go.
* dialog/dialog.go, pin_tan_dialog.go, rdh_dialog.go; client/client.go; the texts of the errors they return.
* swift/: everything but String() methods; iban/iban.go; domain/time.go, acknowledgement.go, account_connection.go, key.go; String() of account_balance.go, account_transaction.go, account_information.go with text/tabwriter of the standard library (texts without escapes; the writer never fails).
* generator/ with templates as texts and the execution of the readers they write; cmd/unmarshaler: the flag -segment_versions. transport/middleware/encoding.go with the encoder for ISO 8859-1.
* bankinfo/: bank_info.go, parser.go with the reader of encoding/csv, data.go transcribed into `Bank_Data.v`; cmd/bankdata_parser.
* transport/: transport.go, https/https.go, https/mock_http_transport.go, middleware/encoding.go (base64), middleware/logging.go (what it does to errors and data), encoding/base64 of the standard library.
* internal/logger.go (the switches), internal/iterator.go (inside the readers of element/tan.go and pin.go); hbci.go.
* cmd/banking/: accounts.go, balances.go, transactions.go, and root.go from the parsed flags on.
* crypto/: rsa.go and iso9796_encoding.go, with math/big as exact integers; loops that never end are `None`.

## Not modelled

* RDH (card and key file) dialogs beyond the point where each call panics (C66); rsa.GenerateKey and RIPEMD-160 (any key pair, any function with 20 bytes).
* The flag parser and config file of cmd/banking (cobra, viper) and its debug flag; the compilation step and main function of cmd/unmarshaler, the prefixes of log lines, the mocks in dialog/ (a copy of the scripted transport, and others for tests) and test stubs.
* TLS, HTTP itself, log output other than the messages in the debug log, the UTF-8 middleware with encodings other than ISO 8859-1, String() methods other than the ones of segments, acknowledgements, balances, transactions and accounts, error texts of other packages, YAML and JSON of types other than dates and timeframes.
* The validity (`IsValid`) of groups of `element/tan.go` and `element/pin.go` that are only filled by reading; `Type()`, `Optional()` and YAML forms of elements.
* github.com/wildducktheories/go-csv beyond naming the columns, readers that fail (bankinfo/parser.go); fractional seconds of times (accepted, their value dropped).
* Time zones other than in `Today_Model.v`, where a location is any function from instants to offsets (elsewhere moments are taken as local date and time of day).
* Concurrency: the library starts no goroutines and none of its types is meant for concurrent use.

## Seeded bugs

`seeded/LOG.jsonl` has one line per bug seeded into a scratch copy of the model: the definition, the edit, the claim it breaks, the theorems that failed and, where none did, the theorems that were tightened afterwards.
