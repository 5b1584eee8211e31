{
 "claims": [
  {
   "property": "C01",
   "status": "proved",
   "theorems": [
    "C01_date_round_trip"
   ],
   "note": ""
  },
  {
   "property": "C02",
   "status": "proved",
   "theorems": [
    "C02_date_is_gregorian"
   ],
   "note": ""
  },
  {
   "property": "C03",
   "status": "proved",
   "theorems": [
    "C03_three_syntaxes_agree"
   ],
   "note": ""
  },
  {
   "property": "C04",
   "status": "proved",
   "theorems": [
    "C04_date_parse_total"
   ],
   "note": ""
  },
  {
   "property": "C05",
   "status": "partial",
   "theorems": [
    "C05_accepted_iff",
    "C05_only_real_dates_refuted",
    "C05_accepted_date_denotes_partial"
   ],
   "note": "False of the code: 31 February, wrong weekdays and '+1' numerals are accepted (refuted by witness). C05_accepted_iff gives exactly the accepted texts and the instant of each; the partial theorem gives the meaning of every accepted existing date."
  },
  {
   "property": "C06",
   "status": "proved",
   "theorems": [
    "C06_format_panics_iff_out_of_range"
   ],
   "note": ""
  },
  {
   "property": "C07",
   "status": "proved",
   "theorems": [
    "C07_method_parse_iff",
    "C07_method_print_parse",
    "C07_method_names_distinct",
    "C07_accepts_exactly_registered",
    "C07_method_case_insensitive",
    "C07_method_parse_total",
    "C07_method_serde"
   ],
   "note": ""
  },
  {
   "property": "C08",
   "status": "proved",
   "theorems": [
    "C08_safe_iff_registered_safe"
   ],
   "note": ""
  },
  {
   "property": "C09",
   "status": "proved",
   "theorems": [
    "C09_number_converts_iff_supported",
    "C09_number_code_number",
    "C09_code_number_code",
    "C09_unsupported_is_error"
   ],
   "note": ""
  },
  {
   "property": "C10",
   "status": "proved",
   "theorems": [
    "C10_class_is_hundreds_digit",
    "C10_exactly_one_class",
    "C10_reason_nonempty"
   ],
   "note": ""
  },
  {
   "property": "C11",
   "status": "partial",
   "theorems": [
    "C11_deserialize_only_supported_refuted",
    "C11_serde_round_trip",
    "C11_deserialize_16bit_partial",
    "C11_deserialize_iff"
   ],
   "note": "False of the code: integers are truncated to 16 bits, so 65736 deserializes as 200 and -65132 as 404 (refuted by witness). Round trip proved for all codes; rejection proved for 16-bit integers. C11_deserialize_iff: accepted are exactly the integers that differ from a code by a multiple of 65536."
  },
  {
   "property": "C12",
   "status": "proved",
   "theorems": [
    "C12_version_serde",
    "C12_version_order",
    "C12_version_cmp_total_order"
   ],
   "note": ""
  },
  {
   "property": "C13",
   "status": "proved",
   "theorems": [
    "C13_headers_refine_multimap",
    "C13_names_ignore_case"
   ],
   "note": ""
  },
  {
   "property": "C14",
   "status": "proved",
   "theorems": [
    "C14_failed_operation_changes_nothing",
    "C14_fails_iff_not_ascii",
    "C14_index"
   ],
   "note": ""
  },
  {
   "property": "C15",
   "status": "proved",
   "theorems": [
    "C15_names_lower_values_ascii",
    "C15_checked_constructors",
    "C15_constants_are_lower_case"
   ],
   "note": ""
  },
  {
   "property": "C16",
   "status": "partial",
   "theorems": [
    "C16_present_header_nonempty_refuted",
    "C16_present_header_nonempty_partial",
    "C16_empty_iff"
   ],
   "note": "False of the code: inserting an empty value list, or HeaderValues::append through get_mut, leaves a present header without values (refuted by witness). Proved for histories that do neither. C16_empty_iff: exactly when a name is present without values, after any history."
  },
  {
   "property": "C17",
   "status": "partial",
   "theorems": [
    "C17_values_visits_each_once",
    "C17_header_values_in_order",
    "C17_names_distinct",
    "C17_size_hint_refuted",
    "C17_size_hint_partial",
    "C17_size_hint_iff",
    "C17_size_hint_right_iff"
   ],
   "note": "Visiting every value and name exactly once is proved for every hash order. The size_hint part is false (refuted); it is exact when every header has one value (partial). C17_size_hint_iff gives the hint at every point of every walk: the number of header names not begun."
  },
  {
   "property": "C18",
   "status": "proved",
   "theorems": [
    "C18_name_equality"
   ],
   "note": ""
  },
  {
   "property": "C19",
   "status": "proved",
   "theorems": [
    "C19_mime_round_trip"
   ],
   "note": ""
  },
  {
   "property": "C20",
   "status": "proved",
   "theorems": [
    "C20_grammar",
    "C20_grammar_accepted",
    "C20_mime_parse_total_wellformed",
    "C20_mime_accepts_tokens"
   ],
   "note": "C20_grammar: a grammar of exactly the accepted texts, with what each means."
  },
  {
   "property": "C21",
   "status": "partial",
   "theorems": [
    "C21_lookup",
    "C21_params_refuted",
    "C21_param_is_first_partial",
    "C21_value_characters",
    "C21_utf8_charset_partial",
    "C21_remove_param_partial",
    "C21_param_case_insensitive",
    "C21_name_panics"
   ],
   "note": "False when utf-8 follows another charset parameter (refuted). Lookup, case-insensitivity and removal proved outside that case; C21_lookup says what a lookup finds for every accepted text."
  },
  {
   "property": "C22",
   "status": "partial",
   "theorems": [
    "C22_subset_eq_is_matching_partial",
    "C22_subset_eq_refuted",
    "C22_subset_eq_reflexive_partial",
    "C22_subset_eq_transitive",
    "C22_everything_matches_any",
    "C22_fewer_params_match_partial",
    "C22_subset_eq_iff"
   ],
   "note": "Transitivity and */* proved for all parsed types. Reflexivity fails for a type with two charsets, and a charset=utf-8 in the range is ignored (refuted); proved otherwise. C22_subset_eq_iff covers every range: one with charset=utf-8 is matched as if it had none."
  },
  {
   "property": "C23",
   "status": "partial",
   "theorems": [
    "C23_mime_header_value_refuted",
    "C23_mime_header_value_partial",
    "C23_ascii_iff"
   ],
   "note": "False: Latin-1 parameter values give non-ASCII header values (refuted). Proved for types parsed from ASCII text; C23_ascii_iff: for any parsed type, exactly when all parameter values are ASCII."
  },
  {
   "property": "C24",
   "status": "proved",
   "theorems": [
    "C24_reads_deliver_content",
    "C24_each_read_fits",
    "C24_eof_means_everything",
    "C24_eof_is_reached"
   ],
   "note": ""
  },
  {
   "property": "C25",
   "status": "proved",
   "theorems": [
    "C25_length_fixed_and_never_exceeded",
    "C25_initial_length"
   ],
   "note": ""
  },
  {
   "property": "C26",
   "status": "proved",
   "theorems": [
    "C26_chain_concatenates",
    "C26_rest_then_rest",
    "C26_length_is_remaining",
    "C26_chain_mime"
   ],
   "note": ""
  },
  {
   "property": "C27",
   "status": "partial",
   "theorems": [
    "C27_into_bytes",
    "C27_into_bytes_any",
    "C27_into_string",
    "C27_into_string_any",
    "C27_into_string_panics_refuted",
    "C27_json_read_failure_refuted",
    "C27_json_form_round_trip",
    "C27_into_string_panics_iff"
   ],
   "note": "into_bytes, into_string, into_json and into_form return the content for every schedule. Refuted side: a declared length above isize::MAX makes into_string panic, and into_json reports a read failure as 500 rather than 422. C27_into_string_panics_iff: exactly then."
  },
  {
   "property": "C28",
   "status": "partial",
   "theorems": [
    "C28_buffered_read_ignores_length_refuted",
    "C28_buffered_read_not_counted_refuted",
    "C28_buffered_read_partial",
    "C28_buffered_read_is_unlimited"
   ],
   "note": "False as stated: poll_fill_buf ignores the declared length and does not count what it delivers. The partial theorem covers bodies whose reader holds no more than the declared length, for any mixture of both ways of reading."
  },
  {
   "property": "C29",
   "status": "proved",
   "theorems": [
    "C29_content_type_kept_if_present",
    "C29_content_type_set_if_absent",
    "C29_other_headers_kept",
    "C29_bodies_exchanged",
    "C29_content_type_reads_back",
    "C29_content_type_read",
    "C29_body_taken",
    "C29_bytes_taken",
    "C29_kinds"
   ],
   "note": "Observation: take_body and body_string on a message without Content-Type leave application/octet-stream behind (C29_example_take), which is what the property says of an empty body."
  },
  {
   "property": "C30",
   "status": "proved",
   "theorems": [
    "C30_taken_at_most_once",
    "C30_never_duplicated_or_invented",
    "C30_receiver_gets_what_was_sent",
    "C30_accepted_is_delivered",
    "C30_closed_means_all_senders_gone",
    "C30_lost_iff",
    "C30_flag"
   ],
   "note": "At-most-once, conservation, delivery and end-of-stream hold for every schedule with any number of messages, clones, senders and receivers. That a receiver yields what the sender of the same message sent, once, is proved for schedules in which no response is cloned; with response clones it is false, see C31."
  },
  {
   "property": "C31",
   "status": "partial",
   "theorems": [
    "C31_request_clone",
    "C31_response_clone_partial",
    "C31_response_clone_steals_trailers_refuted",
    "C31_request_clone_cannot_send_refuted"
   ],
   "note": "False of the code for the channels: a Response clone shares the trailer and upgrade channels (proved, each end), so the clone's receiver consumes the original's trailers; a Request clone has no channel and its send_trailers panics although never used (both refuted by witness). Everything else about clones is proved."
  },
  {
   "property": "C32",
   "status": "partial",
   "theorems": [
    "C32_agrees_with_parser_partial",
    "C32_quotes_kept_refuted",
    "C32_for_list_ignored_refuted",
    "C32_host_from_quoted_refuted",
    "C32_host_iff",
    "C32_remote_iff",
    "C32_total"
   ],
   "note": "Precedence proved. Agreement with the Forwarded parser is false of the code: quotes are kept, a list of for elements is ignored, and text inside a quoted value can supply the host (refuted by witness). Proved for headers with one unquoted for element and unquoted values. C32_host_iff and C32_remote_iff give the result in full for every request, over the characters of the headers."
  },
  {
   "property": "C33",
   "status": "proved",
   "theorems": [
    "C33_extensions_refine_type_map"
   ],
   "note": ""
  },
  {
   "property": "C34",
   "status": "proved",
   "theorems": [
    "C34_failure_carries_status",
    "C34_success_untouched",
    "C34_invalid_status_panics",
    "C34_closures_panic",
    "C34_last_status_wins",
    "C34_std_error_is_500"
   ],
   "note": ""
  },
  {
   "property": "C35",
   "status": "partial",
   "theorems": [
    "C35_round_trip_iff",
    "C35_round_trip_partial",
    "C35_host_only_refuted",
    "C35_host_port_refuted",
    "C35_injection_refuted",
    "C35_exclamation_refuted",
    "C35_empty_for_refuted",
    "C35_non_ascii_value_refuted"
   ],
   "note": "False of the code: by/host/proto are not quoted, a value without for is unparseable, a quoted '!' is refused, host text can inject parameters (refuted by witness). C35_round_trip_iff says exactly which ASCII values come back: by, host and proto tokens, every for value non-empty and quotable, and a for value whenever there is a host or proto."
  },
  {
   "property": "C36",
   "status": "partial",
   "theorems": [
    "C36_panics_iff",
    "C36_errors",
    "C36_trailing_comma_refuted",
    "C36_short_element_refuted",
    "C36_non_ascii_refuted",
    "C36_every_trailing_comma_panics",
    "C36_no_panic_partial",
    "C36_x_headers_total"
   ],
   "note": "False of the code: 'for=a,' and 'for=a, b' panic (ASCII header text), as does some non-ASCII text (refuted by witness). For ASCII text the panics are characterised exactly (C36_panics_iff): acceptable sections followed by a for list broken off after a comma; every other failure is an error. X-Forwarded headers never fail."
  },
  {
   "property": "C37",
   "status": "partial",
   "theorems": [
    "C37_accepted_iff",
    "C37_meaning_partial",
    "C37_repeated_is_error",
    "C37_names_case_sensitive_refuted",
    "C37_several_elements_refuted",
    "C37_repeated_for_refuted",
    "C37_forwarded_first",
    "C37_x_forwarded"
   ],
   "note": "False of the code for part of RFC 7239: names other than for are case-sensitive, elements with several pairs cannot be followed by another, a repeated for is accepted (refuted by witness). The accepted ASCII texts and their meaning are characterised exactly (C37_accepted_iff)."
  },
  {
   "property": "C38",
   "status": "partial",
   "theorems": [
    "C38_token_longest",
    "C38_quoted_string_decoded_partial",
    "C38_quoted_string_rfc_partial",
    "C38_exclamation_refuted",
    "C38_control_char_refuted",
    "C38_character_split_refuted",
    "C38_character_dropped_refuted",
    "C38_offsets",
    "C38_quoted_string_any_text"
   ],
   "note": "Tokens proved for every string. Quoted strings: false of the code, '!' is refused, U+000F accepted, non-ASCII characters are truncated to a byte (refuted by witness). Exact grammar proved for ASCII text."
  },
  {
   "property": "C39",
   "status": "partial",
   "theorems": [
    "C39_grammar",
    "C39_refused_is_400",
    "C39_strength",
    "C39_round_trip_partial",
    "C39_invalid_tag_never_read_as_another",
    "C39_constructor_unchecked_refuted",
    "C39_backslash_panics_refuted",
    "C39_round_trip_iff"
   ],
   "note": "Grammar proved exactly, both directions. Round trip proved for every tag of RFC characters; for every other tag the result is a 400 error, never another ETag. Missing: the constructor does not validate, so the round trip for every tag value is false (refuted)."
  },
  {
   "property": "C40",
   "status": "partial",
   "theorems": [
    "C40_round_trip_partial",
    "C40_any_layout",
    "C40_total",
    "C40_comma_always_fails",
    "C40_comma_refuted",
    "C40_split_tag_refuted",
    "C40_empty_refuted",
    "C40_round_trip_iff"
   ],
   "note": "Round trip proved for every list of valid tags without a comma when there is something to write; reading proved for any layout over any number of lines. A valid tag with a comma always fails to read back (proved for all lists) and so does the empty list."
  },
  {
   "property": "C41",
   "status": "partial",
   "theorems": [
    "C41_round_trip_partial",
    "C41_total",
    "C41_empty_refuted",
    "C41_comma_refuted",
    "C41_star_name_refuted",
    "C41_round_trip_iff"
   ],
   "note": "Round trip proved through push for all names that survive list syntax. Refuted for the empty list, names with a comma and the name *."
  },
  {
   "property": "C42",
   "status": "partial",
   "theorems": [
    "C42_case_insensitive",
    "C42_flags",
    "C42_timed",
    "C42_unknown_skipped",
    "C42_total",
    "C42_reads_back_as",
    "C42_round_trip_partial",
    "C42_s_maxage_refuted",
    "C42_fraction_refuted",
    "C42_valid_where",
    "C42_round_trip_iff"
   ],
   "note": "Names, case, arguments, skipping of unknown directives and totality proved for all texts; the exact list read back proved for every list of directives. The round trip itself fails for SMaxAge (written s-max-age, read s-maxage) and for fractions of a second."
  },
  {
   "property": "C43",
   "status": "partial",
   "theorems": [
    "C43_round_trip_iff",
    "C43_round_trip_partial",
    "C43_panics_iff",
    "C43_rounded_refuted",
    "C43_panics_refuted"
   ],
   "note": "The exact outcome is proved for every u64: same age iff it fits in 53 significant bits, panic iff within 1024 of 2^64."
  },
  {
   "property": "C44",
   "status": "partial",
   "theorems": [
    "C44_round_trip_partial",
    "C44_panics_iff",
    "C44_unknown_panics_refuted",
    "C44_unquoted_panics_refuted",
    "C44_empty_refuted",
    "C44_round_trip_iff"
   ],
   "note": "Round trip proved for every list with something to write. Reading panics exactly when a piece is not one of the five known texts (todo!() in the parser)."
  },
  {
   "property": "C45",
   "status": "partial",
   "theorems": [
    "C45_credentials_iff",
    "C45_accepted_iff",
    "C45_round_trip_partial",
    "C45_colon_always_wrong",
    "C45_colon_refuted",
    "C45_total",
    "C45_other_scheme_refused",
    "C45_round_trip_iff"
   ],
   "note": "Proved for every user name without a colon and every password; a user name with a colon always comes back as another pair. The accepted credentials are characterised exactly: what is written for the pair, with any number of the trailing = left out."
  },
  {
   "property": "C46",
   "status": "proved",
   "theorems": [
    "C46_accepted_iff",
    "C46_scheme_case_insensitive",
    "C46_unknown_scheme_is_400",
    "C46_round_trip",
    "C46_any_spelling",
    "C46_total"
   ],
   "note": "Proved in full, for every credentials text; the accepted header values are characterised exactly."
  },
  {
   "property": "C47",
   "status": "partial",
   "theorems": [
    "C47_accepted_iff",
    "C47_written",
    "C47_round_trip_partial",
    "C47_quote_always_cut",
    "C47_quote_refuted",
    "C47_total",
    "C47_legal_challenge_refuted",
    "C47_round_trip_iff"
   ],
   "note": "Proved for every realm without a double quote; a realm with one is always cut there. The accepted header values are characterised exactly."
  },
  {
   "property": "C48",
   "status": "proved",
   "theorems": [
    "C48_sorted",
    "C48_algorithm"
   ],
   "note": "sort_unstable_by is any function returning a permutation without descending neighbours; the result is shown unique."
  },
  {
   "property": "C49",
   "status": "proved",
   "theorems": [
    "C49_best",
    "C49_not_acceptable",
    "C49_no_panic"
   ],
   "note": "Weights as the public constructors allow them (none, or 0..1)."
  },
  {
   "property": "C50",
   "status": "partial",
   "theorems": [
    "C50_zero_weight_refuted",
    "C50_missing_weight_refuted",
    "C50_media_zero_weight_refuted",
    "C50_partial"
   ],
   "note": "Refuted: q=0 is chosen when nothing better is available, also for Accept; a missing q counts as lowest for Accept-Encoding/TE. Proved: if every proposal has a weight above 0, the choice is the RFC one."
  },
  {
   "property": "C51",
   "status": "proved",
   "theorems": [
    "C51_best",
    "C51_not_acceptable"
   ],
   "note": "Type matching is subset_eq of C22."
  },
  {
   "property": "C52",
   "status": "proved",
   "theorems": [
    "C52_new",
    "C52_media_new",
    "C52_parsed",
    "C52_media_parsed",
    "C52_three_decimals"
   ],
   "note": "Out-of-range weights give status 500. Floats are modelled exactly (Float.v); std's decimal parsing and printing are trusted to be correctly rounded."
  },
  {
   "property": "C53",
   "status": "proved",
   "theorems": [
    "C53_round_trip",
    "C53_exact"
   ],
   "note": "All lists with allowed weights; weights come back as the float nearest to three decimals."
  },
  {
   "property": "C54",
   "status": "partial",
   "theorems": [
    "C54_panic_partial",
    "C54_value_partial",
    "C54_no_error",
    "C54_round_trip",
    "C54_panics_refuted"
   ],
   "note": "Refuted: an unknown coding and a list 'gzip, chunked' panic. Proved: panics exactly when no value is a known coding; otherwise the last known coding."
  },
  {
   "property": "C55",
   "status": "partial",
   "theorems": [
    "C55_round_trip",
    "C55_texts_partial",
    "C55_refuted"
   ],
   "note": "Partial: '+5' is accepted although RFC 7230 wants digits only; differing lengths are not refused (last wins)."
  },
  {
   "property": "C56",
   "status": "proved",
   "theorems": [
    "C56_round_trip",
    "C56_texts"
   ],
   "note": ""
  },
  {
   "property": "C57",
   "status": "proved",
   "theorems": [
    "C57_delay_round_trip",
    "C57_date_round_trip",
    "C57_write_panics",
    "C57_texts"
   ],
   "note": "Delays and dates lose fractions; dates outside 1970..9999 panic on writing (C57_write_panics)."
  },
  {
   "property": "C58",
   "status": "proved",
   "theorems": [
    "C58_only_100_continue",
    "C58_round_trip"
   ],
   "note": ""
  },
  {
   "property": "C59",
   "status": "partial",
   "theorems": [
    "C59_round_trip_partial",
    "C59_empty_set_refuted",
    "C59_read_total",
    "C59_round_trip_iff"
   ],
   "note": "Partial: the empty set is written as an empty value that cannot be read back (refuted)."
  },
  {
   "property": "C60",
   "status": "partial",
   "theorems": [
    "C60_reads_back_partial",
    "C60_round_trip_refuted",
    "C60_read_total",
    "C60_round_trip_iff"
   ],
   "note": "Partial: include_subdomains is written 'includeSubdomains' but only 'includesubdomains' is read, so it is always lost (refuted); exact read-back stated."
  },
  {
   "property": "C61",
   "status": "partial",
   "theorems": [
    "C61_order_independent",
    "C61_first_value",
    "C61_header",
    "C61_second_application_refuted",
    "C61_second_value",
    "C61_directive_names",
    "C61_source_keywords",
    "C61_source_refuted",
    "C61_flags",
    "C61_report_only",
    "C61_default"
   ],
   "note": "Order independence and exact text proved for one application, with the directive and source texts of the specification; the second application of the same policy object repeats every directive (C61_second_application_refuted), and one source writes 'src', which is not a CSP keyword (C61_source_refuted)."
  },
  {
   "property": "C62",
   "status": "partial",
   "theorems": [
    "C62_default_partial",
    "C62_powered_by_undone",
    "C62_powered_by_stays_refuted",
    "C62_powered_by_invisible",
    "C62_referrer_policy",
    "C62_frameguard",
    "C62_referrer_keywords"
   ],
   "note": "The default helper sets all of its headers; the powered_by part is refuted: it edits a mixed-case key that no lookup can see."
  },
  {
   "property": "C63",
   "status": "proved",
   "theorems": [
    "C63_round_trip",
    "C63_shape",
    "C63_injective"
   ],
   "note": ""
  },
  {
   "property": "C64",
   "status": "partial",
   "theorems": [
    "C64_texts_partial",
    "C64_short_panics",
    "C64_total_refuted"
   ],
   "note": "Proved for every text with at least four '-'-separated fields; fewer fields panic (C64_total_refuted)."
  },
  {
   "property": "C65",
   "status": "proved",
   "theorems": [
    "C65_child",
    "C65_sampled_is_bit_0",
    "C65_set_sampled",
    "C65_stays_in_types",
    "C65_new"
   ],
   "note": ""
  },
  {
   "property": "C66",
   "status": "partial",
   "theorems": [
    "C66_range",
    "C66_round_trip_iff",
    "C66_stable_partial",
    "C66_description_forms",
    "C66_short_durations",
    "C66_drift_refuted",
    "C66_round_trip_partial",
    "C66_whole_seconds",
    "C66_total_partial",
    "C66_long_duration_refuted",
    "C66_contracts",
    "C66_total_refuted",
    "C66_description_refuted",
    "C66_metric_new"
   ],
   "note": "Round trip proved for metrics without separators and for durations that stay below 2^64 seconds once multiplied by 1000; other descriptions, long durations and hostile numbers are refuted. f64 printing and Duration::from_secs_f64 are parameters with contracts that C66_contracts shows satisfiable."
  },
  {
   "property": "C67",
   "status": "partial",
   "theorems": [
    "C67_method_round_trip",
    "C67_method_from_http",
    "C67_status_round_trip",
    "C67_version_round_trip",
    "C67_version_from_http",
    "C67_total_refuted",
    "C67_method_case_refuted",
    "C67_to_http",
    "C67_to_http_errors",
    "C67_from_http_partial",
    "C67_from_http_errors",
    "C67_from_http_refuted",
    "C67_round_trip_partial",
    "C67_request_from_http",
    "C67_request_refused",
    "C67_response_from_http",
    "C67_request_round_trip",
    "C67_response_round_trip",
    "C67_content_type_refuted",
    "C67_accepted_texts",
    "C67_accepted_numbers"
   ],
   "note": "Into http everything is kept. Out of http only the first value of each name survives (C67_from_http_refuted), and a message's Content-Type is duplicated (C67_content_type_refuted). The http crate is modelled from its documentation; accepted names and URLs are parameters."
  },
  {
   "property": "C68",
   "status": "partial",
   "theorems": [
    "C68_last_value_decides_partial",
    "C68_last_url_decides",
    "C68_first_value_decides",
    "C68_coding_partial",
    "C68_coding_refuted",
    "C68_traceparent_refuted",
    "C68_reads_only_its_header"
   ],
   "note": "Proved for fifteen headers plus the URL headers. Traceparent and Forwarded use the first value; Content-Encoding and Transfer-Encoding skip unknown values (refuted)."
  },
  {
   "property": "C69",
   "status": "proved",
   "theorems": [
    "C69_constants_round_trip",
    "C69_from_extension",
    "C69_documented_text",
    "C69_extension_text"
   ],
   "note": ""
  },
  {
   "property": "C70",
   "status": "partial",
   "theorems": [
    "C70_accepted_iff",
    "C70_weights",
    "C70_accepted_partial",
    "C70_refuted"
   ],
   "note": "Refuted: '; q=', 'Q=' are refused with 400, '*;q=0.5' is ignored. Proved without white space around ';', lower-case q; C70_accepted_iff characterises every accepted text and what it is read as, C70_weights the accepted weights."
  },
  {
   "property": "C71",
   "status": "partial",
   "theorems": [
    "C71_accepted_iff",
    "C71_round_trip_iff",
    "C71_round_trip_partial",
    "C71_refuted"
   ],
   "note": "Refuted: a comma in a quoted parameter cuts the proposal; no weight comes back as 1 and negotiates differently. C71_round_trip_iff: for types from the parser, exactly the lists without a comma in a parameter value and without a parameter q come back. C71_accepted_iff: exactly which Accept texts are read and as what."
  },
  {
   "property": "C72",
   "status": "proved",
   "theorems": [
    "C72_round_trip",
    "C72_write_panics",
    "C72_read_total"
   ],
   "note": ""
  },
  {
   "property": "C73",
   "status": "partial",
   "theorems": [
    "C73_location_round_trip",
    "C73_location_texts",
    "C73_reference_round_trip",
    "C73_reference_texts",
    "C73_origins_round_trip_partial",
    "C73_origins_empty",
    "C73_origins_total",
    "C73_origins_comma_refuted",
    "C73_told",
    "C73_rules_refuted"
   ],
   "note": "Partial: a Timing-Allow-Origin URL containing a comma, and the empty list, do not come back (refuted), and a Referer keeps the fragment that RFC 9110 forbids (C73_rules_refuted). url crate is a parameter with the contract url_contract."
  },
  {
   "property": "C74",
   "status": "partial",
   "theorems": [
    "C74_values_join",
    "C74_origins_join",
    "C74_coding_list_refuted"
   ],
   "note": "Proved for all list readers; the joined form of Content-Encoding/Transfer-Encoding panics (C74_coding_list_refuted)."
  },
  {
   "property": "C75",
   "status": "partial",
   "theorems": [
    "C75_forwarded_partial",
    "C75_forwarded_address_refuted",
    "C75_etag",
    "C75_conditions",
    "C75_vary_partial",
    "C75_vary_refuted",
    "C75_cache_control_partial",
    "C75_cache_control_refuted",
    "C75_age",
    "C75_clear_site_data",
    "C75_authorization",
    "C75_basic",
    "C75_challenge",
    "C75_codings_partial",
    "C75_codings_refuted",
    "C75_accept_partial",
    "C75_applied_coding",
    "C75_content_length",
    "C75_content_type",
    "C75_dates",
    "C75_retry_after",
    "C75_expect",
    "C75_allow",
    "C75_hsts_partial",
    "C75_hsts_refuted",
    "C75_urls",
    "C75_origins_partial",
    "C75_origins_refuted",
    "C75_forwarded_refuted"
   ],
   "note": "Proved without restriction for ETag, Age, Authorization, Basic, WWW-Authenticate, Content-Encoding, Transfer-Encoding, Content-Length, Content-Type, dates, Retry-After, Expect, Allow, URL headers; for If-Match, If-None-Match and Clear-Site-Data when the header is stored with at least one value. Vary: lists without empty names. Accept, Accept-Encoding and TE: names and order stay, weights are rounded once to three decimals and then stay (refuted: the rounding can change the negotiated coding). Refuted: Cache-Control loses s-maxage, Strict-Transport-Security loses includesubdomains, Forwarded with a quoted host, Timing-Allow-Origin with only \"null\", Vary: ,*. Forwarded (text level): a header that is read stays the same exactly when by, host and proto need no quotes, every address is non-empty and either quotable or a token, and there is an address or neither host nor proto (C75_forwarded_partial); header texts are ASCII."
  },
  {
   "property": "C76",
   "status": "partial",
   "theorems": [
    "C76_cache_control",
    "C76_numbers",
    "C76_clear_site_data",
    "C76_basic",
    "C76_codings",
    "C76_coding",
    "C76_allow",
    "C76_hsts",
    "C76_dates",
    "C76_retry_after",
    "C76_traceparent",
    "C76_content_type",
    "C76_accept",
    "C76_accept_read",
    "C76_etag_read",
    "C76_conditions_read",
    "C76_value_refuted",
    "C76_any_ascii_value",
    "C76_name_refuted",
    "C76_etag_refuted",
    "C76_authorization_refuted",
    "C76_challenge_refuted",
    "C76_vary_refuted",
    "C76_server_timing_refuted",
    "C76_csp_refuted"
   ],
   "note": "Proved for the listed typed values, for parsed media types and for entity tags that were read. Refuted: HeaderValue and HeaderName accept any ASCII text including CR LF (C76_any_ascii_value shows that all of it is stored), and ETag::new, Authorization, WWW-Authenticate, Vary, Server-Timing and Content-Security-Policy pass line breaks through."
  },
  {
   "property": "C77",
   "status": "proved",
   "theorems": [
    "C77_tokens",
    "C77_spelling",
    "C77_stored"
   ],
   "note": "Proved for all 65 constants of constants.rs."
  },
  {
   "property": "C78",
   "status": "partial",
   "theorems": [
    "C78_registered_partial",
    "C78_complete",
    "C78_registered_refuted",
    "C78_status_line",
    "C78_distinct"
   ],
   "note": "Proved for every status except 203, 226, 300 and 416, whose phrases differ from the registry in spelling (C78_registered_refuted gives both texts). Phrase characters and distinctness hold for all."
  },
  {
   "property": "C79",
   "status": "partial",
   "theorems": [
    "C79_etag",
    "C79_conditions",
    "C79_cache_control",
    "C79_authorization",
    "C79_basic",
    "C79_challenge",
    "C79_content_length",
    "C79_content_type",
    "C79_dates",
    "C79_retry_after",
    "C79_expect",
    "C79_hsts",
    "C79_content_location",
    "C79_origins",
    "C79_vary",
    "C79_codings_partial",
    "C79_accept_partial",
    "C79_allow_partial",
    "C79_references_partial",
    "C79_age_partial",
    "C79_clear_site_data_partial",
    "C79_applied_coding_partial",
    "C79_traceparent_partial",
    "C79_server_timing_partial",
    "C79_forwarded_partial",
    "C79_codings_refuted",
    "C79_accept_refuted",
    "C79_allow_refuted",
    "C79_references_refuted",
    "C79_age_refuted",
    "C79_clear_site_data_refuted",
    "C79_applied_coding_refuted",
    "C79_traceparent_refuted",
    "C79_server_timing_refuted",
    "C79_forwarded_refuted"
   ],
   "note": "The exact set of error statuses is proved for each reader. 400 and no panic: ETag, If-Match/If-None-Match, Cache-Control, Authorization, Basic, WWW-Authenticate, Content-Length, Content-Type, dates, Retry-After, Expect, HSTS, Content-Location, Timing-Allow-Origin. Vary: 500, only for non-ASCII text. Refuted: 500 for Accept, Accept-Encoding/TE weights, Allow, Referer/SourceMap, Forwarded, traceparent version; panics for Age near 2^64, Clear-Site-Data, Content-Encoding/Transfer-Encoding, traceparent, Server-Timing, Forwarded. The _partial theorems give the exact statuses of the readers that also panic or use another status."
  },
  {
   "property": "C80",
   "status": "partial",
   "theorems": [
    "C80_lists",
    "C80_values",
    "C80_codings",
    "C80_hsts",
    "C80_values_refuted",
    "C80_origins_partial",
    "C80_origins_refuted",
    "C80_trim"
   ],
   "note": "Proved for If-Match, If-None-Match, Vary, Cache-Control, Clear-Site-Data, Accept-Encoding, TE, Accept, Allow, Server-Timing (elements), Content-Length, Content-Type, the date headers, Content-Location, Content-Encoding, Transfer-Encoding, HSTS. Refuted: ETag, Age, Expect, Retry-After numbers, Authorization and WWW-Authenticate do not trim; Timing-Allow-Origin: with a URL parser that ignores trailing blanks (url::Url::parse does) they matter only after * and the quoted null (C80_origins_partial, C80_origins_refuted)."
  },
  {
   "property": "C81",
   "status": "proved",
   "theorems": [
    "C81_nearest",
    "C81_unique",
    "C81_numbers",
    "C81_specials",
    "C81_only",
    "C81_order",
    "C81_in_format",
    "C81_three_decimals",
    "C81_weight"
   ],
   "note": "Proved. The floats are part of the model of std (Float.v); these theorems check that model against IEEE 754 rules stated independently, and C81_weight ties it to a header."
  },
  {
   "property": "C82",
   "status": "proved",
   "theorems": [
    "C82_parts",
    "C82_fresh",
    "C82_length",
    "C82_shorthands",
    "C82_status_numbers",
    "C82_conversions",
    "C82_channels",
    "C82_read_then_take",
    "C82_request_history",
    "C82_response_history"
   ],
   "note": "Proved for both message types through the fields they share, plus method, URL and status. Channels are the subject of C30 and C31."
  },
  {
   "property": "C83",
   "status": "proved",
   "theorems": [
    "C83_conditional_cache_auth",
    "C83_content",
    "C83_others",
    "C83_no_interference",
    "C83_forwarded"
   ],
   "note": "Names are written out, not taken from the model. CSP's two names are in C61_header. Writers that can fail (Vary, dates, Retry-After) are covered when they succeed."
  },
  {
   "property": "C84",
   "status": "partial",
   "theorems": [
    "C84_etag",
    "C84_if_match",
    "C84_vary",
    "C84_cache_control",
    "C84_age",
    "C84_clear_site_data",
    "C84_basic",
    "C84_challenge",
    "C84_codings",
    "C84_accept",
    "C84_applied_coding",
    "C84_content_length",
    "C84_content_type",
    "C84_dates",
    "C84_retry_after",
    "C84_hsts",
    "C84_allow",
    "C84_origins_partial"
   ],
   "note": "Equivalences for every typed header except Timing-Allow-Origin, where the comma case depends on the url crate (partial), and Server-Timing and Forwarded, which C35 and C66 cover."
  },
  {
   "property": "C85",
   "status": "proved",
   "theorems": [
    "C85_iteration",
    "C85_history",
    "C85_built",
    "C85_allow",
    "C85_sent_if_match",
    "C85_sent_clear_site_data",
    "C85_sent_codings",
    "C85_sent_cache_control",
    "C85_sent_vary",
    "C85_sent_accept",
    "C85_sent_origins",
    "C85_sent_server_timing"
   ],
   "note": "Generic over the entry type; composed with the wire theorems of C84 and C66 for If-Match/If-None-Match, Clear-Site-Data, Accept-Encoding/TE, Cache-Control, Vary, Accept, Timing-Allow-Origin (given the contract of the URL library) and Server-Timing (given the contract of number printing)."
  },
  {
   "property": "C86",
   "status": "partial",
   "theorems": [
    "C86_alternates",
    "C86_second_answer",
    "C86_repeatable_partial",
    "C86_repeatable_iff",
    "C86_refuted",
    "C86_media_alternates",
    "C86_media_repeatable_partial",
    "C86_media_refuted",
    "C86_media_second_answer",
    "C86_media_answers"
   ],
   "note": "False: negotiate sorts the value in place and ties are ordered by reversed position, so answers alternate (C86_alternates); exact condition for codings in C86_repeatable_iff; C86_media_answers names both answers for Accept."
  },
  {
   "property": "C87",
   "status": "partial",
   "theorems": [
    "C87_status_numbers",
    "C87_history",
    "C87_history_total",
    "C87_downcast",
    "C87_made",
    "C87_printed",
    "C87_no_backtrace",
    "C87_macros",
    "C87_type_name_refuted",
    "C87_debug"
   ],
   "note": "Everything but the type name, which is that of anyhow::Error for errors made from printed text (C87_type_name_refuted)."
  },
  {
   "property": "C88",
   "status": "partial",
   "theorems": [
    "C88_errors",
    "C88_content",
    "C88_into_bytes",
    "C88_type",
    "C88_extension",
    "C88_sniffed_partial",
    "C88_padding_refuted",
    "C88_cursor_refuted",
    "C88_short_read_refuted",
    "C88_metadata_refuted"
   ],
   "note": "Content, length, errors and the fallback are proved for any file system; the sniffing claim fails for short files (zero padding), moved cursors and short reads, the content claim for files whose metadata understates their length."
  },
  {
   "property": "C89",
   "status": "proved",
   "theorems": [
    "C89_iteration",
    "C89_iter_mut",
    "C89_copy",
    "C89_values",
    "C89_printed",
    "C89_map_printed",
    "C89_map_text",
    "C89_pair",
    "C89_trailers"
   ],
   "note": "Hash-map visiting order is any permutation; Debug of str is modelled for ASCII, other characters are a parameter."
  },
  {
   "property": "C90",
   "status": "proved",
   "theorems": [
    "C90_set_query",
    "C90_query_round_trip",
    "C90_query_overwritten",
    "C90_query_refused",
    "C90_query_read",
    "C90_json_any",
    "C90_form_any",
    "C90_json",
    "C90_form",
    "C90_unwritable",
    "C90_buffered"
   ],
   "note": "serde_qs, serde_json, serde_urlencoded and the url crate's percent-encoding are parameters; the contracts used are premises of the theorems."
  },
  {
   "property": "C91",
   "status": "partial",
   "theorems": [
    "C91_wait",
    "C91_never_early",
    "C91_panic_iff",
    "C91_expires",
    "C91_expires_panics",
    "C91_usable_refuted",
    "C91_usable",
    "C91_order_partial",
    "C91_order_refuted",
    "C91_total_order",
    "C91_dates_compare",
    "C91_date_equals"
   ],
   "note": "Partial: a huge delay is read but every use panics (C91_usable_refuted, exact condition in C91_usable), and the derived order of Retry-After puts delays before dates (C91_order_refuted). The rest holds for every clock."
  },
  {
   "property": "C92",
   "status": "partial",
   "theorems": [
    "C92_order",
    "C92_compare",
    "C92_contract_partial",
    "C92_contract_refuted",
    "C92_coding",
    "C92_media",
    "C92_mime_text",
    "C92_mime_meaning_refuted",
    "C92_mime_into",
    "C92_status",
    "C92_media_equal",
    "C92_proposal_equal"
   ],
   "note": "Partial: equality and order of proposals disagree (C92_contract_refuted) and equality of media types depends on parameter order and charset case (C92_mime_meaning_refuted). C92_media shows that the two ways to make a proposal without weight rank at opposite ends."
  },
  {
   "property": "C93",
   "status": "partial",
   "theorems": [
    "C93_hsts",
    "C93_hsts_sent_partial",
    "C93_auth",
    "C93_auth_sent",
    "C93_forwarded",
    "C93_hasher",
    "C93_hsts_default"
   ],
   "note": "Partial because the sub-domain flag of Strict-Transport-Security never arrives (C60_round_trip_refuted); all else holds for every sequence of calls."
  },
  {
   "property": "C94",
   "status": "proved",
   "theorems": [
    "C94_if_match",
    "C94_vary",
    "C94_clear_site_data",
    "C94_cache_control",
    "C94_allow",
    "C94_hsts",
    "C94_age",
    "C94_traceparent",
    "C94_timing_allow_origin",
    "C94_server_timing",
    "C94_server_timing_panics"
   ],
   "note": "All iff statements; grammars are stated on characters (around, spells, key_value ...), independent of the parser's splitting functions."
  },
  {
   "property": "C95",
   "status": "proved",
   "theorems": [
    "C95_values_are",
    "C95_values_list_are",
    "C95_lookup_is",
    "C95_set_first",
    "C95_name_to_http",
    "C95_name_from_http",
    "C95_value"
   ],
   "note": "What the http crate accepts as a name is a parameter of which only ASCII is assumed; its rule for values is modelled (trusted)."
  },
  {
   "property": "C96",
   "status": "proved",
   "theorems": [
    "C96_list",
    "C96_writes",
    "C96_in_map"
   ],
   "note": "Model of HeaderValues as a list; get_mut is modelled as returning the list with one position replaced."
  },
  {
   "property": "C97",
   "status": "proved",
   "theorems": [
    "C97_headers",
    "C97_request",
    "C97_response",
    "C97_written_request",
    "C97_written_response",
    "C97_content_type",
    "C97_forwarded"
   ],
   "note": "Readers of the last value (Content-Length, ETag, dates, ...) therefore change their answer when a header has several values: C97_example has Content-Length 5, 7 read as 7 before and 5 after."
  },
  {
   "property": "C98",
   "status": "proved",
   "theorems": [
    "C98_trace_context",
    "C98_server_timing",
    "C98_server_timing_collision",
    "C98_forwarded",
    "C98_forwarded_collision",
    "C98_urls",
    "C98_origins",
    "C98_etag",
    "C98_conditions",
    "C98_conditions_collision",
    "C98_vary",
    "C98_vary_collision",
    "C98_vary_empty_collision",
    "C98_cache_control",
    "C98_age",
    "C98_clear_site_data",
    "C98_authorization",
    "C98_challenge",
    "C98_basic",
    "C98_basic_no_colon",
    "C98_basic_collision",
    "C98_codings",
    "C98_applied_coding",
    "C98_content_length",
    "C98_allow",
    "C98_hsts",
    "C98_content_type",
    "C98_dates",
    "C98_retry_after",
    "C98_accept",
    "C98_accept_collision"
   ],
   "note": "Equivalences for every header listed; the collisions outside the stated conditions are shown by witness: a tag with a quote, the Vary name '*', an empty Vary name, a colon in a user name, a media type parameter q, a Server-Timing description with a comma, a name with a semicolon or no metric at all, a Forwarded host with a semicolon. URLs relative to the contract of the URL library, milliseconds relative to that of number printing."
  },
  {
   "property": "C99",
   "status": "proved",
   "theorems": [
    "C99_conditions",
    "C99_vary",
    "C99_cache_control",
    "C99_allow",
    "C99_codings",
    "C99_media_type",
    "C99_accept",
    "C99_clear_site_data",
    "C99_server_timing",
    "C99_timing_allow_origin",
    "C99_forwarded",
    "C99_authorization",
    "C99_www_authenticate",
    "C99_basic"
   ],
   "note": "Entries are counted against commas and values, text against characters. For X-Forwarded-For nothing is claimed: addresses are rewritten by the standard library's IPv6 printer."
  },
  {
   "property": "C100",
   "status": "proved",
   "theorems": [
    "C100_ages",
    "C100_lengths",
    "C100_transport_security",
    "C100_dates",
    "C100_retry_after",
    "C100_content_type",
    "C100_report_to",
    "C100_encodings",
    "C100_accept",
    "C100_urls",
    "C100_more_structs",
    "C100_instants",
    "C100_hidden",
    "C100_f32_contract",
    "C100_more_hidden",
    "C100_duration_value",
    "C100_signed_value",
    "C100_retry_duration",
    "C100_text",
    "C100_duration",
    "C100_header_values",
    "C100_headers",
    "C100_conditions",
    "C100_vary",
    "C100_clear_site_data",
    "C100_allow",
    "C100_cache_control",
    "C100_body",
    "C100_status",
    "C100_credentials",
    "C100_media_type",
    "C100_coding",
    "C100_forwarded",
    "C100_trace_context",
    "C100_server_timing",
    "C100_names",
    "C100_directive_names",
    "C100_structs",
    "C100_tuples",
    "C100_wildcard_hidden",
    "C100_two_models"
   ],
   "note": "C100_wildcard_hidden states the exception: the text does not show the wildcard. Not covered: `{:#?}`, Accept/Accept-Encoding/TE (f32 Debug), types holding a URL, Request/Response."
  },
  {
   "property": "C101",
   "status": "partial",
   "theorems": [
    "C101_read_as_asked",
    "C101_injection_refuted",
    "C101_report_to",
    "C101_report_to_refuted",
    "C101_report_text",
    "C101_reports"
   ],
   "note": "The header is read back by an independent reader written from CSP Level 3. As asked for exactly when no source has a comma or semicolon (an equivalence); refuted in general (C101_injection_refuted) and for report_to (C101_report_to_refuted)."
  },
  {
   "property": "C102",
   "status": "partial",
   "theorems": [
    "C102_cache_control",
    "C102_shared_age",
    "C102_shared_age_refuted",
    "C102_conditions",
    "C102_tag_refuted",
    "C102_vary",
    "C102_allow",
    "C102_clear_site_data",
    "C102_codings",
    "C102_content_type",
    "C102_accept",
    "C102_media_wildcard_refuted",
    "C102_authorization",
    "C102_challenge",
    "C102_challenge_refuted",
    "C102_challenge_iff",
    "C102_hsts",
    "C102_server_timing",
    "C102_server_timing_refuted",
    "C102_forwarded",
    "C102_forwarded_host_refuted",
    "C102_forwarded_hop_refuted"
   ],
   "note": "Partial because the property is false in the places named by the `_refuted` theorems: s-max-age, the wildcard of Accept, quotes in entity tags, realms and descriptions, Forwarded fields that need quotes. Everything else is proved with the reader of Rfc.v. C102_challenge_iff: a realm is read as written exactly when it has no double quote and no backslash."
  },
  {
   "property": "C103",
   "status": "partial",
   "theorems": [
    "C103_two_digit_years",
    "C103_leap_second_refuted",
    "C103_media_type",
    "C103_charset_refuted",
    "C103_accept",
    "C103_accept_refuted",
    "C103_codings",
    "C103_codings_refuted",
    "C103_cache_control",
    "C103_cache_control_refuted",
    "C103_conditions",
    "C103_conditions_refuted",
    "C103_vary",
    "C103_vary_refuted",
    "C103_allow",
    "C103_allow_refuted",
    "C103_clear_site_data",
    "C103_clear_site_data_refuted",
    "C103_hsts",
    "C103_hsts_refuted",
    "C103_server_timing",
    "C103_server_timing_refuted"
   ],
   "note": "Partial because the property is false in the places named by the `_refuted` theorems (commas in quotes, empty elements, quoted ages, unknown methods and types, white space before weights, spelling of includeSubDomains and Max-Age, two charsets, white space before semicolons and separators, escapes and numbers in the quoted strings of Server-Timing). For everything else that follows the grammars the reading is proved; lists are read by the quote-aware reader of Rfc.v, media types by the generative grammar of RFC 9110. Dates: C103_two_digit_years shows that two-digit years are read as RFC 9110 says exactly up to 2019, and a leap second is refused."
  },
  {
   "property": "C104",
   "status": "partial",
   "theorems": [
    "C104_media",
    "C104_media_refuted",
    "C104_excluded_refuted",
    "C104_codings",
    "C104_identity_refuted",
    "C104_star_refuted",
    "C104_weighted_star_refuted"
   ],
   "note": "Refuted: a type is judged by the range with the highest weight that matches it, not the most specific one (*/*;q=0.9, text/html;q=0.1 sends text/html instead of image/png; text/html;q=0, */* sends text/html); an identity that is not listed is refused; a listed coding beats an unlisted one that * names whatever the weights; *;q=0.5 is not seen. Proved: with no weight of 0, no utf-8 range and weights that do not fall with specificity the choice has the highest quality and 406 is exact (C104_media); with no weight of 0 the chosen coding is acceptable and 406 is exact but for an unlisted identity (C104_codings)."
  },
  {
   "property": "C105",
   "status": "partial",
   "theorems": [
    "C105_read",
    "C105_written",
    "C105_relay",
    "C105_lenient_refuted",
    "C105_version_refuted",
    "C105_new_refuted"
   ],
   "note": "C105_read and C105_relay hold without restriction; C105_written says exactly when what is written is valid. Refuted: invalid values are read too (C105_lenient_refuted), a later version is passed on (C105_version_refuted), and a random id of 0 is written as it is (C105_new_refuted)."
  },
  {
   "property": "C106",
   "status": "partial",
   "theorems": [
    "C106_tags_come_back",
    "C106_tags_decide",
    "C106_one_tag",
    "C106_comma_refuted",
    "C106_equality_partial",
    "C106_equality_refuted",
    "C106_dates_come_back",
    "C106_dates_decide",
    "C106_subsecond_refuted",
    "C106_full_seconds"
   ],
   "note": "proved for all exchanges; refuted for tags with a comma (legal, but the server answers 400 to its own tag), for == as a comparison of tags, and for servers that compare the instant read with one of nanosecond precision"
  },
  {
   "property": "C107",
   "status": "partial",
   "theorems": [
    "C107_proxies",
    "C107_remote",
    "C107_host",
    "C107_remote_refuted",
    "C107_services"
   ],
   "note": "C107_remote says exactly when the remote address is that of the client; C107_remote_refuted shows that behind two proxies it is the address of the last proxy although the header names the client. Addresses are those that C35 shows to be written and read back; for remote and host they are tokens."
  },
  {
   "property": "C108",
   "status": "partial",
   "theorems": [
    "C108_codings",
    "C108_refused",
    "C108_chosen",
    "C108_codings_iff",
    "C108_three_decimals",
    "C108_media",
    "C108_media_refused",
    "C108_media_chosen",
    "C108_close_refuted"
   ],
   "note": "C108_close_refuted: gzip with weight 0.9001 before br with 0.9 is chosen among the proposals, but br over the wire. C108_codings_iff says exactly when the two agree."
  },
  {
   "property": "C109",
   "status": "partial",
   "theorems": [
    "C109_client",
    "C109_own_account",
    "C109_needs_password",
    "C109_colon_account",
    "C109_dialogue",
    "C109_silent",
    "C109_trip",
    "C109_other_name_refuted",
    "C109_trip_refuted"
   ],
   "note": "Exact forms: C109_client (credentials written by this crate) and C109_needs_password (any request). C109_other_name_refuted and C109_trip_refuted show the two ways to be served as somebody else."
  },
  {
   "property": "C110",
   "status": "proved",
   "theorems": [
    "C110_typed_headers",
    "C110_twice",
    "C110_order",
    "C110_reads"
   ],
   "note": "Closed; the headers that can fail to be written (dates, Retry-After, Vary, Forwarded) are included."
  },
  {
   "property": "C111",
   "status": "partial",
   "theorems": [
    "C111_age",
    "C111_whole",
    "C111_fresh",
    "C111_stale_refuted",
    "C111_shared_lost",
    "C111_shared_refuted",
    "C111_expires"
   ],
   "note": "Above 2^53 seconds Age is rounded or panics (C43). The bound of one second per cache is reached up to a nanosecond; C111_stale_refuted shows that it cannot be dropped, C111_shared_refuted that s-maxage is lost."
  },
  {
   "property": "C112",
   "status": "proved",
   "theorems": [
    "C112_policy",
    "C112_request",
    "C112_response",
    "C112_headers_in_clear",
    "C112_fields",
    "C112_version_names"
   ],
   "note": "The url crate's Debug output is a parameter with a contract, met by C112_url_example; async-channel prints constant texts."
  },
  {
   "property": "C113",
   "status": "partial",
   "theorems": [
    "C113_cut",
    "C113_progress",
    "C113_messages",
    "C113_short",
    "C113_short_refuted",
    "C113_buffered_refuted",
    "C113_two_lengths_refuted",
    "C113_text"
   ],
   "note": "The connection is the script of a reader, as in C24. C113_short is the exact form of C113_short_refuted."
  },
  {
   "property": "C114",
   "status": "partial",
   "theorems": [
    "C114_if_match",
    "C114_vary",
    "C114_clear_site_data",
    "C114_codings",
    "C114_accept",
    "C114_origins",
    "C114_cache_control",
    "C114_server_timing",
    "C114_allow",
    "C114_allow_goes_on",
    "C114_shared_lifetime_refuted",
    "C114_comma_refuted",
    "C114_nothing_refuted"
   ],
   "note": "The conditions on the entries are those of the round trips (C39-C44, C53, C59, C66, C71, C73, C84), exact where those are exact."
  },
  {
   "property": "C115",
   "status": "partial",
   "theorems": [
    "C115_one_more_available",
    "C115_order_of_available",
    "C115_one_more_proposal",
    "C115_unavailable_proposals",
    "C115_greater_weight",
    "C115_stays_chosen",
    "C115_wildcard",
    "C115_refusing_refuted",
    "C115_order_refuted",
    "C115_media_one_more_available",
    "C115_media_one_more_proposal",
    "C115_media_greater_weight",
    "C115_media_order_refuted"
   ],
   "note": "The two false claims are C115_refusing_refuted and C115_order_refuted / C115_media_order_refuted; no weight counts as less than any weight, as in C48 and C50."
  },
  {
   "property": "C116",
   "status": "partial",
   "theorems": [
    "C116_any_nesting",
    "C116_nesting_is_invisible",
    "C116_read",
    "C116_bytes",
    "C116_empty_refuted"
   ],
   "note": "Uses C26 for each call; the 64-bit sum is associative because an overflow anywhere makes the length unknown. C116_empty_refuted is the false claim."
  },
  {
   "property": "C117",
   "status": "partial",
   "theorems": [
    "C117_hop",
    "C117_hops",
    "C117_settles",
    "C117_relay",
    "C117_exact",
    "C117_contracts",
    "C117_one_loss_refuted"
   ],
   "note": "Display of f64 and Duration::from_secs_f64 are parameters with the contracts of C66 and near_contract; C117_contracts shows that cutting and rounding conversions meet it. C117_one_loss_refuted is the false claim."
  },
  {
   "property": "C118",
   "status": "partial",
   "theorems": [
    "C118_secure",
    "C118_promise",
    "C118_fraction_refuted",
    "C118_relay",
    "C118_relay_refuted",
    "C118_default"
   ],
   "note": "The browser is written down from RFC 6797 sections 6.1 and 8.1 to 8.3 and reads the text with the reader of Rfc.v; hosts are lists of labels. C118_fraction_refuted and C118_relay_refuted are the false claims."
  },
  {
   "property": "C119",
   "status": "partial",
   "theorems": [
    "C119_exactly",
    "C119_nobody_by_name",
    "C119_relay",
    "C119_pushed_refuted"
   ],
   "note": "The TAO check is written down from the Fetch standard with the list reader of Rfc.v; the url crate is a parameter, with the promise `printed` (origin, then a path that begins with a slash). C119_pushed_refuted is the false claim."
  },
  {
   "property": "C120",
   "status": "partial",
   "theorems": [
    "C120_transparent",
    "C120_negotiation",
    "C120_wildcard",
    "C120_reused",
    "C120_unnamed_refuted"
   ],
   "note": "The cache is written down from RFC 9111, section 4.1 with the list reader of Rfc.v; freshness is not part of it (see C111). Requests are as the wire delivers them: every field has at least one line and lines have no blanks at their ends. C120_unnamed_refuted is the false claim."
  },
  {
   "property": "C121",
   "status": "proved",
   "theorems": [
    "C121_last_counts",
    "C121_same"
   ],
   "note": "The browser is written down from the standards with the list reader of Rfc.v, line by line; the crate's part is Security.v. What powered_by fails to do is C62."
  },
  {
   "property": "C122",
   "status": "partial",
   "theorems": [
    "C122_never_differ",
    "C122_taken",
    "C122_same_cuts",
    "C122_lenient_refuted"
   ],
   "note": "The front is written down from RFC 9112, section 6.3 and RFC 9110, section 8.6; messages with Transfer-Encoding are not part of it. C122_lenient_refuted is the false claim."
  },
  {
   "property": "C123",
   "status": "partial",
   "theorems": [
    "C123_serial",
    "C123_admitted",
    "C123_dates_refuted"
   ],
   "note": "The clients and the server are written down from RFC 9110, section 13.1.1; their calls into the crate are ETag and IfMatch (Conditional.v). The wish for different tags for different versions is on the server's side. C123_dates_refuted is the false claim."
  },
  {
   "property": "C124",
   "status": "partial",
   "theorems": [
    "C124_one_trace",
    "C124_ways",
    "C124_twice_refuted"
   ],
   "note": "The services and the collector are written down here; their calls into the crate are those of Trace.v, with the random numbers as inputs. C124_twice_refuted shows that distinct numbers are needed."
  },
  {
   "property": "C125",
   "status": "proved",
   "theorems": [
    "C125_alphabet",
    "C125_round_trip",
    "C125_injective",
    "C125_body",
    "C125_query"
   ],
   "note": "The format is written down from the URL standard, section 5, for lists of pairs, in place of serde_urlencoded/serde_qs. The lossy decoder and the URL's query encoding are parameters: the first decodes valid UTF-8, the second leaves the characters of a form alone."
  },
  {
   "property": "C126",
   "status": "partial",
   "theorems": [
    "C126_next",
    "C126_once",
    "C126_few",
    "C126_storm_refuted",
    "C126_clock"
   ],
   "note": "The service and the client are written down here. C126_storm_refuted: half a second before the return both forms make the client come back at once, as often as the lag allows; C126_once names the cases that do not."
  },
  {
   "property": "C127",
   "status": "partial",
   "theorems": [
    "C127_forgets",
    "C127_silent",
    "C127_remembered",
    "C127_layers",
    "C127_replaced_refuted",
    "C127_nothing_refuted"
   ],
   "note": "The browser is written down from Clear Site Data (W3C), section 4; cookies are counted to the site that answers, not to its registrable domain. C127_replaced_refuted and C127_nothing_refuted are the false claims."
  },
  {
   "property": "C128",
   "status": "partial",
   "theorems": [
    "C128_served",
    "C128_direct",
    "C128_bound_reached",
    "C128_nothing_refuted"
   ],
   "note": "Gateways and client are written down from RFC 9110, sections 15.5.6 and 10.2.1; they always read and write Allow with this crate. C128_nothing_refuted is the false claim."
  },
  {
   "property": "C129",
   "status": "partial",
   "theorems": [
    "C129_ends",
    "C129_exchange",
    "C129_spelling_refuted",
    "C129_removed_refuted"
   ],
   "note": "Client and server are written down from RFC 9110, section 10.1.1; the client has no timer. C129_spelling_refuted and C129_removed_refuted are the false claims."
  },
  {
   "property": "C130",
   "status": "partial",
   "theorems": [
    "C130_waits_iff",
    "C130_hangs",
    "C130_answered_refuted"
   ],
   "note": "Over the transition system of C30 (async-channel is outside the model: a bounded channel of one place that closes when all handles of a side are gone). C130_answered_refuted is the false claim."
  }
 ]
}