{
 "claims": [
  {
   "property": "C01",
   "status": "proved",
   "theorems": [
    "C01_stream_is_cursor",
    "C01_chunked_source_is_cursor"
   ],
   "note": ""
  },
  {
   "property": "C02",
   "status": "proved",
   "theorems": [
    "C02_guard_exact",
    "C02_read_is_primitive_operations"
   ],
   "note": ""
  },
  {
   "property": "C03",
   "status": "proved",
   "theorems": [
    "C03_reading_never_trips_guard"
   ],
   "note": ""
  },
  {
   "property": "C04",
   "status": "proved",
   "theorems": [
    "C04_chunkiter_lossless",
    "C04_chunkiter_exhausted_source_stops"
   ],
   "note": ""
  },
  {
   "property": "C05",
   "status": "partial",
   "theorems": [
    "C05_close_keeps_leftover_refuted",
    "C05_read_past_leftover_raises",
    "C05_close_keeps_leftover_partial"
   ],
   "note": "Refuted: after close() a read that needs more than the buffered bytes raises TypeError (None producer). Proved: reads within the buffered bytes work."
  },
  {
   "property": "C06",
   "status": "proved",
   "theorems": [
    "C06_framing_exact",
    "C06_body_readable",
    "C06_chunking_irrelevant"
   ],
   "note": ""
  },
  {
   "property": "C07",
   "status": "proved",
   "theorems": [
    "C07_no_terminator_rejected"
   ],
   "note": ""
  },
  {
   "property": "C08",
   "status": "partial",
   "theorems": [
    "C08_max_header_size_bounds_header_refuted",
    "C08_max_header_size_zero_partial"
   ],
   "note": "Refuted: MAX_HEADER_SIZE is only the read granularity; headers of any length are accepted. Proved: every value >= 1 gives the same outcome (C06_chunking_irrelevant), 0 refuses everything."
  },
  {
   "property": "C09",
   "status": "proved",
   "theorems": [
    "C09_headers_grouped_in_order"
   ],
   "note": ""
  },
  {
   "property": "C10",
   "status": "proved",
   "theorems": [
    "C10_every_line_decided",
    "C10_first_bad_line_decides",
    "C10_no_headers_rejected",
    "C10_framed_blocks",
    "C10_empty_block_rejected"
   ],
   "note": ""
  },
  {
   "property": "C11",
   "status": "proved",
   "theorems": [
    "C11_three_tokens_required",
    "C11_method_and_version_verbatim",
    "C11_other_counts_rejected",
    "C11_uri_errors"
   ],
   "note": ""
  },
  {
   "property": "C12",
   "status": "proved",
   "theorems": [
    "C12_url_split_lossless",
    "C12_absolute_url_components",
    "C12_origin_url_components",
    "C12_url_reading",
    "C12_url_not_read"
   ],
   "note": "C12_url_reading is an equivalence: which six parts a URL has, written out without reference to the code (scheme characters, schemes with parameters, brackets), and C12_url_not_read says when and how it is refused."
  },
  {
   "property": "C13",
   "status": "proved",
   "theorems": [
    "C13_host_source"
   ],
   "note": "For every request on the wire, however the source cuts it up, and every Settings with MAX_HEADER_SIZE None or >= 1."
  },
  {
   "property": "C14",
   "status": "partial",
   "theorems": [
    "C14_exact_content_type_refuted",
    "C14_recased_refuted",
    "C14_recased_host_refuted",
    "C14_recased_content_type_refuted",
    "C14_exact_name_required"
   ],
   "note": "False. Refuted for Host and for Content-Type; C14_exact_name_required shows that every relative request without a field named exactly 'Host' is rejected. C14_exact_content_type_refuted: every request whose content type is not named exactly 'Content-Type' is parsed as one without a content type. C14_recased_refuted: for every request, any spelling of the three names but one is a header without a meaning; the request is parsed as if the line were not there."
  },
  {
   "property": "C15",
   "status": "partial",
   "theorems": [
    "C15_host_decomposition_safe_partial",
    "C15_valid_hosts_accepted",
    "C15_host_decomposition_safe_refuted",
    "C15_only_final_newline",
    "C15_final_newline_refuted",
    "C15_host_field_safe",
    "C15_target_newline_refuted"
   ],
   "note": "Proved for every host without a newline, and for every Host field of a delivered request; a host accepted with a newline has exactly one, at its end. Refuted for all names and ports followed by a line feed, and by a request whose target has one."
  },
  {
   "property": "C16",
   "status": "proved",
   "theorems": [
    "C16_port"
   ],
   "note": ""
  },
  {
   "property": "C17",
   "status": "partial",
   "theorems": [
    "C17_port_refuted",
    "C17_params_refuted",
    "C17_get_uri_partial",
    "C17_formula",
    "C17_scheme_host",
    "C17_confused_refuted"
   ],
   "note": "False in general: an explicit port and path parameters are dropped (both refuted). C17_get_uri_partial: absolute URIs without port, parameters and characters outside the URI sets are given back exactly, up to the fragment. C17_formula gives get_uri() for every request (scheme or UNKNOWN, host without port, encoded path and query); C17_confused_refuted: for all requests that differ only in port, parameters or fragment it is the same URI."
  },
  {
   "property": "C18",
   "status": "partial",
   "theorems": [
    "C18_success_is_final",
    "C18_failure_is_forgotten",
    "C18_failed_parse_refuted"
   ],
   "note": "Idempotence after success is proved for all states. The first half is false: C18_failure_is_forgotten shows that after every refusal the second call succeeds (sources without failure, MAX_HEADER_SIZE None or >= 1)."
  },
  {
   "property": "C19",
   "status": "partial",
   "theorems": [
    "C19_quoted_value_exact",
    "C19_header_roundtrip_partial",
    "C19_quoted_semicolon_refuted"
   ],
   "note": "Refuted: a quoted value with a ';' after an odd number of quotes of its own is cut there (witness). Proved for every parameter list in which every quoted value has an even number of quotes before each of its semicolons. C19_quoted_value_exact: a quoted value survives exactly when every semicolon in it is preceded by an even number of its quotes; otherwise no parameter has that value."
  },
  {
   "property": "C20",
   "status": "proved",
   "theorems": [
    "C20_split_params",
    "C20_no_semicolon_first"
   ],
   "note": ""
  },
  {
   "property": "C21",
   "status": "proved",
   "theorems": [
    "C21_parts_delimited"
   ],
   "note": ""
  },
  {
   "property": "C22",
   "status": "partial",
   "theorems": [
    "C22_nonascii_refuted",
    "C22_form_roundtrip_partial",
    "C22_empty_file_refuted",
    "C22_nonascii_name_refuted"
   ],
   "note": "Refuted for empty files (dropped) and for non-ASCII field names (UnicodeDecodeError), both with witnesses. Proved for every other form: any number of fields and files, any chunking, chunk size and buffering. C22_nonascii_refuted: for every form with a field whose name is not ASCII the parser raises UnicodeDecodeError."
  },
  {
   "property": "C23",
   "status": "partial",
   "theorems": [
    "C23_preamble_all_refuted",
    "C23_no_trace_partial",
    "C23_preamble_refuted",
    "C23_leak_refuted",
    "C23_nameless_partial",
    "C23_preamble_all_refuted"
   ],
   "note": "Refuted: without its first delimiter every form means the same, so text before the first delimiter that looks like a part is one (all forms), and the end of a skipped part of more than 1024 bytes can become a field depending on the chunking (witness). Proved: preambles, pieces and epilogues of any length that do not mention Content-Disposition leave no trace, and parts without a name whose rest after 1024 bytes does not mention it. C23_preamble_all_refuted: every form means the same without its first delimiter, with the default handlers."
  },
  {
   "property": "C24",
   "status": "proved",
   "theorems": [
    "C24_limit_exact",
    "C24_form_limit",
    "C24_bounded"
   ],
   "note": ""
  },
  {
   "property": "C25",
   "status": "partial",
   "theorems": [
    "C25_base64_field_all_refuted",
    "C25_memory_limit_partial",
    "C25_bounded",
    "C25_base64_field_refuted"
   ],
   "note": "Refuted for base64 fields: the read is cut at the limit before decoding, so every form whose first part is an encoded field longer than a limit that is no multiple of four raises TypeError instead of RequestDataTooBig. Proved exactly for plain fields; proved bound for every body."
  },
  {
   "property": "C26",
   "status": "partial",
   "theorems": [
    "C26_files_unbounded_refuted"
   ],
   "note": "Refuted: for every n a body with n one-byte files gives n files, under the tightest limits."
  },
  {
   "property": "C27",
   "status": "proved",
   "theorems": [
    "C27_base64_file"
   ],
   "note": ""
  },
  {
   "property": "C28",
   "status": "partial",
   "theorems": [
    "C28_answers",
    "C28_endless_exact",
    "C28_endless_refuted",
    "C28_terminates_partial"
   ],
   "note": "Refuted: base64 content whose length without white space is 1 to 3 modulo 4 at the end of the part makes the parser read the exhausted part for ever (for every such body and every fuel). Proved: it terminates, with fuel linear in the body, for every body without a base64 file part. C28_answers: an answer does not depend on the supply of steps, for every source, also a failing one; C28_endless_exact: a parse that has not ended after 2*length+4 steps never does, so that OutOfFuel means exactly that the program does not end."
  },
  {
   "property": "C29",
   "status": "partial",
   "theorems": [
    "C29_field_refuted",
    "C29_file_refuted"
   ],
   "note": "Refuted for both halves, for all such bodies: Python 2 raises TypeError from base64, which the code does not catch (field), and six.reraise is called with an instance (file), again TypeError."
  },
  {
   "property": "C30",
   "status": "proved",
   "theorems": [
    "C30_files_complete",
    "C30_truncated_form"
   ],
   "note": ""
  },
  {
   "property": "C31",
   "status": "partial",
   "theorems": [
    "C31_files_appear_partial",
    "C31_empty_files_refuted"
   ],
   "note": "Refuted: an empty file never appears, for every body and every handler list. Proved: every non-empty one does, in order, with its content."
  },
  {
   "property": "C32",
   "status": "proved",
   "theorems": [
    "C32_guard_unreachable"
   ],
   "note": ""
  },
  {
   "property": "C33",
   "status": "proved",
   "theorems": [
    "C33_fully_consumed"
   ],
   "note": ""
  },
  {
   "property": "C34",
   "status": "proved",
   "theorems": [
    "C34_no_length_reads_nothing",
    "C34_negative_length_rejected",
    "C34_length_does_not_matter"
   ],
   "note": ""
  },
  {
   "property": "C35",
   "status": "partial",
   "theorems": [
    "C35_exact",
    "C35_missing_refuted",
    "C35_accepted_boundary_partial",
    "C35_newline_boundary_refuted",
    "C35_not_multipart_rejected",
    "C35_boundary_parameter",
    "C35_missing_boundary_refuted"
   ],
   "note": "Refuted: a missing boundary raises AttributeError, and a boundary may end in a newline (the '$' of the regex), witnesses. Proved: what an accepted boundary looks like up to that, which written boundaries are accepted, and that other content types are refused. C35_exact decides acceptance for every content type; C35_missing_refuted: every content type without a boundary raises AttributeError."
  },
  {
   "property": "C36",
   "status": "proved",
   "theorems": [
    "C36_spill_transparent",
    "C36_in_memory",
    "C36_any_input"
   ],
   "note": ""
  },
  {
   "property": "C37",
   "status": "partial",
   "theorems": [
    "C37_empty_name_refuted",
    "C37_dotdot_all_refuted",
    "C37_names_safe_partial",
    "C37_dotdot_refuted"
   ],
   "note": "Refuted for every form with a file called '..' ('.' by a witness), and for every file name that ends in a slash: the upload has an empty name. Proved: no slash, no backslash, at most 255 characters, for every file of every body."
  },
  {
   "property": "C38",
   "status": "proved",
   "theorems": [
    "C38_suffix_no_separator",
    "C38_files_on_disk"
   ],
   "note": ""
  },
  {
   "property": "C39",
   "status": "partial",
   "theorems": [
    "C39_numbers_exact",
    "C39_large_number_refuted",
    "C39_no_entity_unchanged",
    "C39_numeric_entities",
    "C39_total_partial",
    "C39_overflow_refuted",
    "C39_only_overflow_partial"
   ],
   "note": "Refuted: a numeric entity beyond the C long range raises OverflowError (witness). Proved: nothing else can be raised, and text without such entities never raises. C39_numbers_exact: which numeric entities raise, exactly; C39_large_number_refuted: every entity beyond the range does."
  },
  {
   "property": "C40",
   "status": "proved",
   "theorems": [
    "C40_urlencode_roundtrip",
    "C40_nonascii_values_raise"
   ],
   "note": "The theorem's limit hypothesis only excludes dictionaries with more values than DATA_UPLOAD_MAX_NUMBER_FIELDS."
  },
  {
   "property": "C41",
   "status": "proved",
   "theorems": [
    "C41_parse_spec",
    "C41_parse_total",
    "C41_pairs_per_piece",
    "C41_querydict"
   ],
   "note": ""
  },
  {
   "property": "C42",
   "status": "proved",
   "theorems": [
    "C42_limit_exact",
    "C42_unlimited",
    "C42_separators_count_fields"
   ],
   "note": ""
  },
  {
   "property": "C43",
   "status": "partial",
   "theorems": [
    "C43_zero_all_refuted",
    "C43_limits_agree_partial",
    "C43_zero_refuted"
   ],
   "note": "Refuted for 0: no limit for urlencoded bodies, no fields at all for multipart ones (witness). Proved equal for every limit >= 1 and None. C43_zero_all_refuted: for every form with a field and every query string."
  },
  {
   "property": "C44",
   "status": "proved",
   "theorems": [
    "C44_immutable_unchanged",
    "C44_changing_calls_raise"
   ],
   "note": ""
  },
  {
   "property": "C45",
   "status": "partial",
   "theorems": [
    "C45_copy_refuted",
    "C45_fromkeys_refuted"
   ],
   "note": "False for every QueryDict: the copying code passes settings='' to the constructor, so copy(), copy.copy, deepcopy and fromkeys always raise AttributeError."
  },
  {
   "property": "C46",
   "status": "proved",
   "theorems": [
    "C46_refines_plain_map",
    "C46_reading_methods"
   ],
   "note": ""
  },
  {
   "property": "C47",
   "status": "proved",
   "theorems": [
    "C47_list_mutation_invisible",
    "C47_dictionaries_independent"
   ],
   "note": ""
  },
  {
   "property": "C48",
   "status": "partial",
   "theorems": [
    "C48_setters_refused_partial",
    "C48_immutable_refuted",
    "C48_mutable_partial",
    "C48_mutable_defaults_partial",
    "C48_other_keys_kept",
    "C48_mutable_refuted",
    "C48_every_dictionary_refuted"
   ],
   "note": "False: pop, popitem and clear are not overridden and change an immutable dictionary; when mutable, item assignment nests the value, appendlist and update raise. Proved: every overridden method is refused without effect while immutable, and setlist, del, pop, clear behave as MultiValueDict's when mutable. C48_every_dictionary_refuted: pop, popitem and clear change every immutable dictionary with a key."
  },
  {
   "property": "C49",
   "status": "proved",
   "theorems": [
    "C49_body_exact",
    "C49_body_parses_header"
   ],
   "note": "Also after any number of read(n) calls. With DATA_UPLOAD_MAX_MEMORY_SIZE = None every body is refused (fits _ None is False)."
  },
  {
   "property": "C50",
   "status": "partial",
   "theorems": [
    "C50_refused_then_empty_refuted"
   ],
   "note": "False for every request whose body is larger than the limit and at most 64 KB: the second call returns an empty body."
  },
  {
   "property": "C51",
   "status": "partial",
   "theorems": [
    "C51_raw_body_unavailable_partial",
    "C51_empty_body_refuted"
   ],
   "note": "Proved over all histories for non-empty bodies; false for an empty body (C51_empty_body_refuted), where the object does not record that it was parsed."
  },
  {
   "property": "C52",
   "status": "partial",
   "theorems": [
    "C52_header_first_partial",
    "C52_unknown_charset_refuted",
    "C52_unknown_charset_all_refuted"
   ],
   "note": "Proved over all histories except that an error of QueryDict(settings) comes first (unknown charset: LookupError after every history; negative field limit); the stream is untouched in all cases."
  },
  {
   "property": "C53",
   "status": "partial",
   "theorems": [
    "C53_urlencoded_partial",
    "C53_errors",
    "C53_empty_body",
    "C53_undecodable_refuted"
   ],
   "note": "Proved for bodies the charset can decode, and for empty bodies; C53_errors passes on limits and QueryDict errors. False for undecodable bytes, which abort the parse after the QueryDict was built."
  },
  {
   "property": "C54",
   "status": "partial",
   "theorems": [
    "C54_header_replaced",
    "C54_reuse_partial",
    "C54_stale_body_refuted",
    "C54_stale_post_refuted"
   ],
   "note": "The header part is proved for every object; everything when no body is stored and the new body is not empty. False otherwise: a stored body is returned for the new request, and an empty new body leaves POST and FILES of the old one."
  },
  {
   "property": "C55",
   "status": "proved",
   "theorems": [
    "C55_body_stream_replaces"
   ],
   "note": "For two objects that agree on the header attributes, and all later histories without handler operations."
  },
  {
   "property": "C56",
   "status": "partial",
   "theorems": [
    "C56_independent_partial",
    "C56_no_charset_no_change",
    "C56_charset_leak_refuted",
    "C56_charset_stays_refuted"
   ],
   "note": "False: a charset parameter changes the shared Settings. Proved for every interleaving of two programs that leave the Settings alone; C56_no_charset_no_change says which header parses do. C56_charset_stays_refuted: the charset named by one request is used for the query of every later request with the same Settings."
  },
  {
   "property": "C57",
   "status": "partial",
   "theorems": [
    "C57_body_first_refuted"
   ],
   "note": "False for every request with a body that fits: after body() the parse finds no body and POST stays as it was."
  },
  {
   "property": "C58",
   "status": "proved",
   "theorems": [
    "C58_only_a_prefix_disappears",
    "C58_read_returns_the_prefix"
   ],
   "note": "Sources may fail at any point; failures are cells of the tape."
  },
  {
   "property": "C59",
   "status": "partial",
   "theorems": [
    "C59_never_raised_refuted",
    "C59_type_error"
   ],
   "note": "False: body() never raises UnreadablePostError (all states); a failure in the first block of the body gives TypeError."
  },
  {
   "property": "C60",
   "status": "proved",
   "theorems": [
    "C60_iri_to_uri_encodes",
    "C60_iri_to_uri_output",
    "C60_iri_to_uri_idempotent",
    "C60_iri_to_uri_invertible"
   ],
   "note": ""
  },
  {
   "property": "C61",
   "status": "proved",
   "theorems": [
    "C61_escape_uri_path_encodes",
    "C61_escape_uri_path_invertible",
    "C61_escape_uri_path_idempotent",
    "C61_escape_uri_path_output"
   ],
   "note": ""
  },
  {
   "property": "C62",
   "status": "proved",
   "theorems": [
    "C62_set_path_safe",
    "C62_set_path_raw"
   ],
   "note": ""
  },
  {
   "property": "C63",
   "status": "proved",
   "theorems": [
    "C63_safe_url_iff",
    "C63_none_unsafe",
    "C63_foreign_host_rejected",
    "C63_paths_accepted",
    "C63_native_never_safe"
   ],
   "note": "Stated as an equivalence for unicode strings (ctl = unicodedata category C, a parameter). For Python 2 byte strings the function never returns True: it rejects or raises TypeError."
  },
  {
   "property": "C64",
   "status": "proved",
   "theorems": [
    "C64_escape_leading_slashes"
   ],
   "note": ""
  },
  {
   "property": "C65",
   "status": "proved",
   "theorems": [
    "C65_is_same_domain"
   ],
   "note": ""
  },
  {
   "property": "C66",
   "status": "proved",
   "theorems": [
    "C66_base36_roundtrip",
    "C66_base36_too_big",
    "C66_base36_shape",
    "C66_negative_rejected"
   ],
   "note": ""
  },
  {
   "property": "C67",
   "status": "proved",
   "theorems": [
    "C67_urlsafe_roundtrip",
    "C67_urlsafe_output"
   ],
   "note": ""
  },
  {
   "property": "C68",
   "status": "partial",
   "theorems": [
    "C68_junk_refuted",
    "C68_malformed_raises_valueerror_refuted",
    "C68_alphabet_decodes_partial",
    "C68_exceptions_partial"
   ],
   "note": "False as stated: Python 2's base64 raises TypeError, which is not caught (witness 'a'). Proved: which URL-safe texts decode, and which exceptions can occur. C68_junk_refuted: characters outside the alphabet are skipped, for all such texts."
  },
  {
   "property": "C69",
   "status": "partial",
   "theorems": [
    "C69_commas_refuted",
    "C69_list_exact",
    "C69_quote_etag_exact",
    "C69_etag_list_roundtrip_partial",
    "C69_etag_list_roundtrip_refuted",
    "C69_star",
    "C69_only_etags_returned",
    "C69_quote_etag_idempotent_partial",
    "C69_quote_etag_idempotent_refuted"
   ],
   "note": "False for ETags containing a comma and quote_etag is not idempotent for strings with an inner quote (witnesses); proved for all comma-free ETags and for strings that are ETags or have no quote. C69_list_exact and C69_quote_etag_exact say what is returned for every text; C69_commas_refuted: every ETag with a comma is torn apart."
  },
  {
   "property": "C70",
   "status": "proved",
   "theorems": [
    "C70_http_date_written",
    "C70_written_read",
    "C70_all_times",
    "C70_first_century_misread",
    "C70_http_date_roundtrip",
    "C70_rfc850_roundtrip",
    "C70_asctime_roundtrip",
    "C70_http_date_text"
   ],
   "note": "C70_http_date_written is an equivalence with an independent calendar (DateSpec.v: days counted one after the other, leap years, names of days and months, week days): for every moment of the years 1-9999 the text is the IMF-fixdate of RFC 7231. C70_written_read: every writing of a moment of the years 100-9999 in the three formats of the RFC (two-digit years for 1970-2069) is read as that moment. C70_all_times: every time stamp in range is such a moment. C70_first_century_misread: no moment of the years 1-99 is read back."
  },
  {
   "property": "C71",
   "status": "partial",
   "theorems": [
    "C71_read",
    "C71_not_read",
    "C71_exact",
    "C71_weekday_refuted",
    "C71_bad_shape_valueerror",
    "C71_invalid_dates_valueerror_refuted",
    "C71_outcomes_partial",
    "C71_parsed_dates_exist"
   ],
   "note": "False as stated: a well-shaped impossible date raises TypeError (six.reraise misuse). Proved: ValueError exactly for ill-shaped text, what a successful parse means, and that the safe variant returns None exactly on failure. C71_exact decides every text of one of the three shapes; C71_weekday_refuted: the name of the day is ignored, for all dates. C71_read and C71_not_read are equivalences over the independent DateSpec.v: which texts are read, as which moment, and which exception every other text gives."
  },
  {
   "property": "C72",
   "status": "proved",
   "theorems": [
    "C72_file_lines",
    "C72_any_chunking",
    "C72_memory_lines",
    "C72_chunks"
   ],
   "note": ""
  },
  {
   "property": "C73",
   "status": "partial",
   "theorems": [
    "C73_settings_overlay_partial",
    "C73_empty_settings_refuted"
   ],
   "note": "Proved for every non-empty dictionary; false for the empty dictionary, which yields an object without options."
  },
  {
   "property": "C74",
   "status": "partial",
   "theorems": [
    "C74_unknown_charset_refuted"
   ],
   "note": "False: LookupError for every such request, and the Settings object keeps the unknown name so that later constructors fail too."
  },
  {
   "property": "C75",
   "status": "partial",
   "theorems": [
    "C75_encoding_drops_get_refuted"
   ],
   "note": "False in every state: GET is deleted and not recomputed."
  },
  {
   "property": "C76",
   "status": "proved",
   "theorems": [
    "C76_leading_blank_line_joins_request_line"
   ],
   "note": ""
  },
  {
   "property": "C77",
   "status": "partial",
   "theorems": [
    "C77_line_attributes",
    "C77_get_pairs",
    "C77_get_limit",
    "C77_get_immutable",
    "C77_get_mutable_refuted",
    "C77_no_query_refuted"
   ],
   "note": "Proved for targets of the usual two forms. GET of a request without a query is mutable (C77_get_mutable_refuted). C77_no_query_refuted: for every request without a query."
  },
  {
   "property": "C78",
   "status": "partial",
   "theorems": [
    "C78_text_body",
    "C78_raw_bytes_refuted",
    "C78_text_not_bytes_refuted"
   ],
   "note": "POST and FILES empty and the body kept: proved; but body() returns bytes before parse() and decoded text after it. C78_text_not_bytes_refuted: for every non-empty body of another type."
  },
  {
   "property": "C79",
   "status": "partial",
   "theorems": [
    "C79_any_handlers",
    "C79_multipart_request",
    "C79_no_memory_limit_refuted"
   ],
   "note": "C79_multipart_request: the default handler (ConvenientFileUploadHandler); C79_any_handlers: every list of library handlers in which somebody takes the files and nobody comes after a handler that keeps them for itself. With DATA_UPLOAD_MAX_MEMORY_SIZE None every form is refused (RequestDataTooBig). The subtype may be written in any case."
  },
  {
   "property": "C80",
   "status": "proved",
   "theorems": [
    "C80_any_handlers",
    "C80_same_as_parser"
   ],
   "note": "C80_same_as_parser: the default handler; C80_any_handlers: every list of library handlers that fits the request (`setup`), aside from where the files are kept. Temporary files can be created. The subtype may be written in any case."
  },
  {
   "property": "C81",
   "status": "partial",
   "theorems": [
    "C81_unmeasured_form_refuted"
   ],
   "note": "False for every such request whose body fits the limit and decodes: POST and FILES are empty, the form is left as text in body. The subtype may be written in any case."
  },
  {
   "property": "C82",
   "status": "proved",
   "theorems": [
    "C82_secure_is_https",
    "C82_origin_not_secure"
   ],
   "note": ""
  },
  {
   "property": "C83",
   "status": "partial",
   "theorems": [
    "C83_ajax_header",
    "C83_requested_with_refuted"
   ],
   "note": "C83_ajax_header says what the code looks for instead."
  },
  {
   "property": "C84",
   "status": "partial",
   "theorems": [
    "C84_assignment_ignored_refuted",
    "C84_early_getter_refuted",
    "C84_frozen_after_parsing"
   ],
   "note": "Assignment is ignored (all states), reading on a new request raises AttributeError; frozen after parsing: proved."
  },
  {
   "property": "C85",
   "status": "partial",
   "theorems": [
    "C85_inverts_iri_to_uri_partial",
    "C85_percent_refuted",
    "C85_other_bytes_lost",
    "C85_exact",
    "C85_escapes_refuted"
   ],
   "note": "Holds for UTF-8 text without '%' (C85_inverts_iri_to_uri_partial); false with '%' (refuted: iri_to_uri keeps '%', uri_to_iri decodes it); bytes that are not UTF-8 never come back (all such bytes). C85_exact gives the value for every text; C85_escapes_refuted: every text with a decodable escape is changed."
  },
  {
   "property": "C86",
   "status": "partial",
   "theorems": [
    "C86_raw_uri",
    "C86_raw_full_path_partial",
    "C86_raw_ambiguous_refuted",
    "C86_exact",
    "C86_same_raw_refuted"
   ],
   "note": "Proved for paths and queries that are UTF-8 text without '%'; false in general: an encoded '?' in the path is printed like the one that starts the query (refuted). C86_exact gives the raw full path for every path and query; C86_same_raw_refuted: for all pairs with the same decoding; C86_raw_uri: get_uri(raw=True)."
  },
  {
   "property": "C87",
   "status": "partial",
   "theorems": [
    "C87_no_port_refuted",
    "C87_number",
    "C87_get_port",
    "C87_not_a_port_refuted",
    "C87_unparsed_refuted"
   ],
   "note": "Exact value for every parsed request (C87_get_port). Refuted: 65536 is returned when neither a port nor an http(s) scheme is given, and the text None before parsing. C87_number: a port that is an integer is printed as the decimal text of that integer. C87_no_port_refuted: '65536' for every request to a path whose Host names no port."
  },
  {
   "property": "C88",
   "status": "partial",
   "theorems": [
    "C88_method_verbatim_refuted",
    "C88_repr_unparsed",
    "C88_one_line_refuted",
    "C88_one_line_partial"
   ],
   "note": "Refuted: the method is printed as it is, and may contain a line feed. C88_one_line_partial: printable when the method is printable, for all byte paths and queries. C88_method_verbatim_refuted: every method is printed character by character."
  },
  {
   "property": "C89",
   "status": "partial",
   "theorems": [
    "C89_uploaded_multiple_chunks_partial",
    "C89_plain_file_refuted"
   ],
   "note": "Proved for uploaded files whose size is that of their content; false for a plain File, where multiple_chunks compares a method with a number and is always true (all plain files)."
  },
  {
   "property": "C90",
   "status": "partial",
   "theorems": [
    "C90_length_of_uploads",
    "C90_truth_is_content",
    "C90_empty_upload_refuted",
    "C90_plain_file_refuted",
    "C90_length_is_size",
    "C90_wrong_size_refuted",
    "C90_no_size_refuted",
    "C90_upload_first_read"
   ],
   "note": "Length proved for uploaded files. Refuted: an empty named upload is false, a plain File raises TypeError for len and bool (all plain files), a ContentFile cannot be constructed. C90_length_is_size, C90_wrong_size_refuted, C90_no_size_refuted: len() is the size attribute, for every file, whatever was written."
  },
  {
   "property": "C91",
   "status": "proved",
   "theorems": [
    "C91_simple_file",
    "C91_from_dict",
    "C91_first_read"
   ],
   "note": "Proved. C91_first_read: reading starts at the beginning."
  },
  {
   "property": "C92",
   "status": "proved",
   "theorems": [
    "C92_size_is_content"
   ],
   "note": "Proved."
  },
  {
   "property": "C93",
   "status": "proved",
   "theorems": [
    "C93_no_amplification"
   ],
   "note": "Proved."
  },
  {
   "property": "C94",
   "status": "partial",
   "theorems": [
    "C94_announced_refuted",
    "C94_default_handler",
    "C94_two_handlers_partial",
    "C94_content_length_refuted"
   ],
   "note": "Proved for the default handler. For MemoryFileUploadHandler and TemporaryFileUploadHandler it needs a Content-Length that is not smaller than the body: a witness shows that it fails otherwise. In general (C94_announced_refuted): with MemoryFileUploadHandler before the other handlers and an announced length within the limit, every file of the message stays in memory, however long it is."
  },
  {
   "property": "C95",
   "status": "partial",
   "theorems": [
    "C95_first_handler",
    "C95_all_handlers",
    "C95_stopped_handlers_refuted",
    "C95_upload_complete",
    "C95_upload_complete_refuted",
    "C95_content",
    "C95_library"
   ],
   "note": "Proved for the first handler, and for all handlers if none raises StopFutureHandlers; the content for all bodies made of parts. Witnesses: after StopFutureHandlers the later handlers still get data and file_complete without new_file; a handler whose upload_complete returns a true value keeps the later ones from being told."
  },
  {
   "property": "C96",
   "status": "proved",
   "theorems": [
    "C96_post",
    "C96_post_returned",
    "C96_skip"
   ],
   "note": "Proved: POST for all handlers; the form without the skipped files for a handler that decides in new_file, in front of the default handler."
  },
  {
   "property": "C97",
   "status": "proved",
   "theorems": [
    "C97_stop"
   ],
   "note": "Proved for a handler that decides in new_file, in front of the default handler."
  },
  {
   "property": "C98",
   "status": "proved",
   "theorems": [
    "C98_handlers",
    "C98_parser",
    "C98_body",
    "C98_request",
    "C98_parse"
   ],
   "note": ""
  },
  {
   "property": "C99",
   "status": "proved",
   "theorems": [
    "C99_observers"
   ],
   "note": ""
  },
  {
   "property": "C100",
   "status": "partial",
   "theorems": [
    "C100_directory",
    "C100_leading_slashes",
    "C100_outside_refuted",
    "C100_anywhere_refuted"
   ],
   "note": "Proved: absolute, normalised, the named location, two leading slashes kept. Refuted: a relative setting with '..' may leave the package; for every location of the file system there is a relative setting that names it."
  },
  {
   "property": "C101",
   "status": "partial",
   "theorems": [
    "C101_success_iff",
    "C101_effect",
    "C101_unchecked",
    "C101_invalid_refuted",
    "C101_invalid_partial",
    "C101_file_lost_refuted",
    "C101_left_behind_refuted",
    "C101_file_lost_all_refuted",
    "C101_left_behind_all_refuted"
   ],
   "note": "Proved: success iff usable, and the effect. Refuted: mkdir's OSError is not an IOError in Python 2, so a directory that cannot be made gives OSError; every file acdr423x.tmp in a directory that passes is destroyed; on a full disk every directory is refused and the test file stays."
  },
  {
   "property": "C102",
   "status": "partial",
   "theorems": [
    "C102_default_directory",
    "C102_configured_directory",
    "C102_unused_directory_refuted",
    "C102_unused_all_refuted"
   ],
   "note": "Refuted: with check_presence=True the default directory is checked too, although it is not used: any unusable default directory makes the constructor fail, whatever is configured."
  },
  {
   "property": "C103",
   "status": "partial",
   "theorems": [
    "C103_resolves",
    "C103_import_error",
    "C103_import_error_refuted",
    "C103_handlers"
   ],
   "note": "Proved: resolution and order. Refuted: a name without a dot or an unknown attribute gives TypeError, not ImportError (six.reraise is called with wrong arguments)."
  },
  {
   "property": "C104",
   "status": "partial",
   "theorems": [
    "C104_closes_partial",
    "C104_no_files",
    "C104_unreadable",
    "C104_again",
    "C104_moved_refuted",
    "C104_moved_anywhere"
   ],
   "note": "Proved when no temporary file was moved. Refuted: a moved temporary file raises OSError and later files stay open."
  },
  {
   "property": "C105",
   "status": "partial",
   "theorems": [
    "C105_reopen_partial",
    "C105_reopen_refuted"
   ],
   "note": "Proved for open files and files in memory. Refuted: a closed temporary file is reopened under the client's file name in the working directory, with its mode w+b, which empties that file."
  },
  {
   "property": "C106",
   "status": "partial",
   "theorems": [
    "C106_quote_roundtrip",
    "C106_unquote_bytes",
    "C106_quote_plus_roundtrip",
    "C106_quoted_chars",
    "C106_safe_refuted",
    "C106_percent_safe_refuted",
    "C106_plus_safe_refuted"
   ],
   "note": "Proved for safe sets without '%' (and '+'). Refuted otherwise. C106_percent_safe_refuted, C106_plus_safe_refuted: for every ASCII text with an escape or a plus sign."
  },
  {
   "property": "C107",
   "status": "partial",
   "theorems": [
    "C107_roundtrip_partial",
    "C107_unicode_value_refuted",
    "C107_unicode_value_split",
    "C107_no_doseq_refuted",
    "C107_none",
    "C107_no_doseq_all_refuted"
   ],
   "note": "Proved with doseq for byte strings, objects and sequences. Refuted: a unicode value is split into its characters (Python 2), and without doseq the values of a MultiValueDict become the text of a list. C107_no_doseq_all_refuted: for every list of plain values under a key."
  },
  {
   "property": "C108",
   "status": "partial",
   "theorems": [
    "C108_copy_independent",
    "C108_original_independent",
    "C108_shared_refuted",
    "C108_shared_all_refuted",
    "C108_pickle_refuted"
   ],
   "note": "Proved: both directions for copy() and deepcopy(). Refuted: the constructor, lists() and setlistdefault() share lists, in every reachable state and for every change of the list; pickling raises TypeError."
  },
  {
   "property": "C109",
   "status": "proved",
   "theorems": [
    "C109_delivery_makes_no_difference",
    "C109_object_always_made_or_never"
   ],
   "note": "Proved for every pair of sources that do not fail."
  },
  {
   "property": "C110",
   "status": "proved",
   "theorems": [
    "C110_only_three_headers_matter"
   ],
   "note": "Proved: no other header has any influence."
  },
  {
   "property": "C111",
   "status": "partial",
   "theorems": [
    "C111_multipart_length_unused_refuted",
    "C111_length_unused_refuted",
    "C111_transfer_coding_ignored_refuted",
    "C111_contradiction_ignored_refuted",
    "C111_pipelined_request_swallowed_refuted",
    "C111_short_body_accepted_refuted"
   ],
   "note": "Refuted: Content-Length is not looked at unless the request is a multipart one, and there any two positive numbers mean the same unless MemoryFileUploadHandler is used (see C34); later bytes become part of the body, short bodies are accepted; of contradictory headers all but the last may be left out; Transfer-Encoding has no influence at all."
  },
  {
   "property": "C112",
   "status": "partial",
   "theorems": [
    "C112_headers_come_from_their_lines",
    "C112_bare_newlines_kept_refuted",
    "C112_names_not_checked_refuted",
    "C112_any_name_refuted"
   ],
   "note": "Proved: every name and value comes from one line, is ASCII and free of CRLF. Refuted for all requests: one more line with any ASCII text before its colon is accepted and that text is a header name; a bare CR or LF stays in names and values."
  },
  {
   "property": "C113",
   "status": "partial",
   "theorems": [
    "C113_extended_parameters",
    "C113_quotes_lost_refuted",
    "C113_file_name_refuted",
    "C113_form_lost_refuted",
    "C113_unknown_charset_refuted",
    "C113_quotes_all_refuted"
   ],
   "note": "Proved for parse_header. Refuted: a text in double quotes loses them; in a form a name or file name outside ASCII raises UnicodeEncodeError and the whole form is lost; an unknown charset raises LookupError. C113_quotes_all_refuted: for every text in double quotes (without backslashes)."
  },
  {
   "property": "C114",
   "status": "partial",
   "theorems": [
    "C114_inside_a_line_refuted",
    "C114_longer_boundary_refuted",
    "C114_closing_delimiter_refuted"
   ],
   "note": "Refuted for all forms, in three ways: the delimiter in the middle of a line ends the part and starts a new one, a longer boundary that begins with the delimiter ends it too, and parts after the closing delimiter are taken into the form. That contents without the characters come back is C22."
  },
  {
   "property": "C115",
   "status": "partial",
   "theorems": [
    "C115_size_in_memory",
    "C115_size_on_disk_partial",
    "C115_unflushed_refuted",
    "C115_other_file_refuted",
    "C115_nested_refuted",
    "C115_empty_upload_closed_refuted",
    "C115_size_of_upload",
    "C115_closed",
    "C115_memory_answers",
    "C115_modes_partial",
    "C115_modes_refuted",
    "C115_repr_refuted",
    "C115_upload_repr"
   ],
   "note": "Proved: size in memory, closed, in-memory answers. Partial: size on disk needs everything flushed; writable() is only right for mode 'w'. Refuted: bytes not flushed are not counted, another file under the name, a File around a File, an empty upload counts as closed, append/update modes are called not writable, repr of a File always raises."
  },
  {
   "property": "C116",
   "status": "partial",
   "theorems": [
    "C116_bytes_unchanged",
    "C116_not_decoded_refuted",
    "C116_protected_kept",
    "C116_other_values",
    "C116_decode_error_refuted",
    "C116_unicode",
    "C116_unicode_refuted",
    "C116_iri_to_uri",
    "C116_iri_refuted"
   ],
   "note": "Proved: what happens to bytes, ASCII text, protected values and None. Refuted: bytes are never decoded, so nothing undecodable is refused; unicode outside ASCII raises, also in iri_to_uri."
  },
  {
   "property": "C117",
   "status": "partial",
   "theorems": [
    "C117_not_a_package",
    "C117_looks_for",
    "C117_submodules_refuted",
    "C117_module_dir",
    "C117_split_package_refuted"
   ],
   "note": "Proved: no package has no submodules; module_dir of packages and modules. Refuted: module_has_submodule is always false where module names have no dots; a package in several directories gives a directory instead of ValueError."
  },
  {
   "property": "C118",
   "status": "partial",
   "theorems": [
    "C118_backslash_refuted",
    "C118_empty_file_refuted",
    "C118_nameless_file_refuted",
    "C118_long_head_refuted",
    "C118_long_head_all_refuted",
    "C118_kept_partial",
    "C118_long_head_all_refuted"
   ],
   "note": "Partial: the parts of C22 are kept. Refuted for all forms: a file whose name ends in a backslash, a file without content, a file without a field name, and a part with a header block of more than 1024 bytes leave no trace. C118_long_head_all_refuted says the last for every part with such a header."
  },
  {
   "property": "C119",
   "status": "partial",
   "theorems": [
    "C119_header_from_what_arrived",
    "C119_complete_header_refuted"
   ],
   "note": "Partial: holds exactly if the whole blocks of MAX_HEADER_SIZE bytes that have arrived contain the header. Refuted for all other cases, also for MAX_HEADER_SIZE None: a failure after a complete header makes the header fail and what arrived is lost."
  },
  {
   "property": "C120",
   "status": "proved",
   "theorems": [
    "C120_failure_publishes_nothing",
    "C120_parse"
   ],
   "note": ""
  },
  {
   "property": "C121",
   "status": "partial",
   "theorems": [
    "C121_second_call_refuted",
    "C121_multipart_refuted",
    "C121_multipart_all_refuted"
   ],
   "note": "Refuted for every urlencoded form that its QueryDict refuses, and for every multipart form of at most 64 KB that is refused for any reason, with any handlers (C121_multipart_all_refuted): the second parse() accepts it as an empty form."
  },
  {
   "property": "C122",
   "status": "proved",
   "theorems": [
    "C122_body_takes_at_most",
    "C122_parse_takes_at_most"
   ],
   "note": ""
  },
  {
   "property": "C123",
   "status": "proved",
   "theorems": [
    "C123_immutable_list"
   ],
   "note": ""
  },
  {
   "property": "C124",
   "status": "partial",
   "theorems": [
    "C124_both_ways_partial",
    "C124_ascii_partial",
    "C124_nonascii_refuted"
   ],
   "note": "Partial: both requests are accepted and the values agree once decoded; for values in ASCII the texts are equal. Refuted: the multipart parser leaves the values as bytes, so a value outside ASCII is a byte string in one POST and a text in the other."
  },
  {
   "property": "C125",
   "status": "partial",
   "theorems": [
    "C125_spelling_partial",
    "C125_multipart_letters_refuted"
   ],
   "note": "Partial: for multipart types both spellings have to begin with 'multipart/' in small letters. Refuted without that: every such request with a body raises MultiPartParserError (multipartparser.py compares without lowering, request.py lowers)."
  },
  {
   "property": "C126",
   "status": "proved",
   "theorems": [
    "C126_never_swallowed",
    "C126_signals_taken",
    "C126_noted_same"
   ],
   "note": "What is taken is written out per method (`signal`, `maybe`). C126_signals_taken: an exception other than an ordinary one comes out only where the code does not look for it."
  },
  {
   "property": "C127",
   "status": "proved",
   "theorems": [
    "C127_take_over",
    "C127_raised",
    "C127_nobody",
    "C127_nothing_announced",
    "C127_same_parser"
   ],
   "note": "C127_take_over is an equivalence. C127_nobody: what was read is gone. C127_same_parser: handlers that do not read are those of the other theorems."
  },
  {
   "property": "C128",
   "status": "partial",
   "theorems": [
    "C128_requests_partial",
    "C128_same_partial",
    "C128_or_error_partial",
    "C128_nobody_refuted",
    "C128_memory_first_refuted"
   ],
   "note": "Partial: for lists in which somebody takes the files and nobody comes after a handler that keeps them for itself (`setup`); C128_or_error_partial: for any list in which somebody takes the files, the same result or AttributeError. Refuted: if nobody takes the files they are lost without a word (C128_nobody_refuted); MemoryFileUploadHandler before another handler makes every form with a file without content raise AttributeError (C128_memory_first_refuted, for all such forms). C128_requests_partial: the same for parse() of any request object: the two requests agree in everything but the list of handlers and the place of the files' content; requests that are not multipart or announce no length need no condition."
  },
  {
   "property": "C129",
   "status": "proved",
   "theorems": [
    "C129_plain_map",
    "C129_other_keys",
    "C129_failed"
   ],
   "note": "Arguments are unrestricted; non-ASCII bytes are part of the specification (UnicodeDecodeError). The list returned by setlistdefault is a value here; that it is the stored list itself is modelled for MultiValueDict (C46, C47)."
  },
  {
   "property": "C130",
   "status": "partial",
   "theorems": [
    "C130_ascii_partial",
    "C130_bytes_refuted",
    "C130_update_refuted"
   ],
   "note": "Partial: for ASCII. Refuted: every other byte string is refused with UnicodeDecodeError, also if the encoding can decode it (C130_bytes_refuted), or stays bytes (update, C130_update_refuted)."
  },
  {
   "property": "C131",
   "status": "partial",
   "theorems": [
    "C131_no_files_partial",
    "C131_files_refuted",
    "C131_other_handlers_partial"
   ],
   "note": "Refuted for every input: whenever some limit >= 0 gives a file, None or a negative limit gives AttributeError (the inner handler is not activated, so file_complete() returns None). Partial: otherwise the result is the same, or AttributeError. Default handler. For lists with TemporaryFileUploadHandler and without ConvenientFileUploadHandler the result is the one of the default handler under any limit >= 0 (C131_other_handlers_partial)."
  },
  {
   "property": "C132",
   "status": "partial",
   "theorems": [
    "C132_closes_all",
    "C132_again",
    "C132_reopen",
    "C132_with_block_refuted"
   ],
   "note": "Proved: closing (all failures), closing again, reopening (AttributeError or ValueError, nothing touched). Refuted: leaving a with block closes the file but leaves it on the disk until the object is closed or collected."
  },
  {
   "property": "C133",
   "status": "partial",
   "theorems": [
    "C133_only",
    "C133_never",
    "C133_any_state",
    "C133_header",
    "C133_other_bodies",
    "C133_bad_input_refuted",
    "C133_multipart",
    "C133_suspicious",
    "C133_ends"
   ],
   "note": "Proved for all inputs: the set of exceptions, none of them KeyError, IndexError, AssertionError, IOError or StopFutureHandlers; which of them come from the header, from bodies that are not multipart, and from requests whose input and disk do not fail; parse ends for every request that never says base64. Refuted: UnicodeDecodeError, UnicodeEncodeError, LookupError, ValueError, TypeError, AttributeError, OverflowError and an endless loop can each be provoked by the bytes of a request; SuspiciousMultipartForm never is."
  },
  {
   "property": "C134",
   "status": "partial",
   "theorems": [
    "C134_disk",
    "C134_reported",
    "C134_not_closed_refuted"
   ],
   "note": "Proved: an exception of the disk comes out or the result is that of a disk that never fails; no failure goes unnoticed. Refuted: _close_files is never called for the library's handlers, so the temporary file of an upload that failed stays open."
  },
  {
   "property": "C135",
   "status": "partial",
   "theorems": [
    "C135_notation_partial",
    "C135_nonascii_refuted",
    "C135_requests",
    "C135_exceptions"
   ],
   "note": "Partial: the same outcome, or UnicodeDecodeError; the same for ASCII input. Refuted: every body outside ASCII that is accepted with boundary=X is refused with UnicodeDecodeError when the boundary is written in the extended notation (find() of a unicode object in bytes). C135_requests, C135_exceptions: what the theorems that use MultipartModel, which does not know this, are worth for such requests."
  },
  {
   "property": "C136",
   "status": "proved",
   "theorems": [
    "C136_pieces",
    "C136_uploads",
    "C136_chunk_size_exceeded"
   ],
   "note": "Bound: chunk_size + len(boundary delimiter, with the two dashes) + 1029. C136_chunk_size_exceeded: chunk_size alone is not a bound."
  },
  {
   "property": "C137",
   "status": "proved",
   "theorems": [
    "C137_handlers",
    "C137_parser"
   ],
   "note": "An input that fails after s, with an exception that does not come out, stands for \"only s has been read\"."
  },
  {
   "property": "C138",
   "status": "partial",
   "theorems": [
    "C138_own_address",
    "C138_unescaped_refuted"
   ],
   "note": "False without escape_leading_slashes: the target ////n/... gives the address //n/... for every host n. Proved with it, for all targets that begin with '/' (or a scheme and '/'), as text (is_safe_url wants unicode; see C63)."
  },
  {
   "property": "C139",
   "status": "proved",
   "theorems": [
    "C139_order_of_header_lines"
   ],
   "note": ""
  },
  {
   "property": "C140",
   "status": "proved",
   "theorems": [
    "C140_parsing_is_final"
   ],
   "note": "Proved as equality of the whole state. A request without a body is never marked as parsed, so that each call looks at the stream again; that look changes nothing."
  },
  {
   "property": "C141",
   "status": "partial",
   "theorems": [
    "C141_raised_limits",
    "C141_limits_only_refuse",
    "C141_new_request",
    "C141_zero_refuted",
    "C141_none_refuted"
   ],
   "note": "Proved for all numbers of bytes, and for numbers of fields from 1 on and None. Refuted: 0 fields is no limit for query strings, so raising it to 1 can refuse a request (witness); DATA_UPLOAD_MAX_MEMORY_SIZE = None refuses every request with a body (all requests)."
  },
  {
   "property": "C142",
   "status": "proved",
   "theorems": [
    "C142_line_does_not_matter"
   ],
   "note": ""
  },
  {
   "property": "C143",
   "status": "partial",
   "theorems": [
    "C143_absolute_and_origin_form",
    "C143_port_refuted"
   ],
   "note": "Proved for everything, exceptions included, except the port: if none is written it follows the scheme, and in origin form it is 65536 (C143_port_refuted, all requests)."
  },
  {
   "property": "C144",
   "status": "proved",
   "theorems": [
    "C144_ascii",
    "C144_multipart"
   ],
   "note": "Both theorems hold for every request; C144_high_case shows that beyond ASCII the charset does decide."
  },
  {
   "property": "C145",
   "status": "proved",
   "theorems": [
    "C145_pairs",
    "C145_form",
    "C145_query"
   ],
   "note": "Known charsets are assumed to extend ASCII (ascii_codecs)."
  },
  {
   "property": "C146",
   "status": "proved",
   "theorems": [
    "C146_transparent",
    "C146_pipeline",
    "C146_filter"
   ],
   "note": "For handlers of any kind given as ops; handlers do not read the input themselves."
  },
  {
   "property": "C147",
   "status": "proved",
   "theorems": [
    "C147_joined",
    "C147_joined_limit",
    "C147_order",
    "C147_form",
    "C147_multipart"
   ],
   "note": "Urlencoded requests: ASCII bodies (escapes of any byte allowed) that fit in DATA_UPLOAD_MAX_MEMORY_SIZE; multipart requests: well-formed forms within the limits, as in C79."
  },
  {
   "property": "C148",
   "status": "partial",
   "theorems": [
    "C148_again",
    "C148_name",
    "C148_extension",
    "C148_lost_refuted",
    "C148_files"
   ],
   "note": "False for extensions of 255 characters and more and for names that begin with many dots: C148_lost_refuted, for all such names. C148_extension says exactly when the extension is kept."
  },
  {
   "property": "C149",
   "status": "partial",
   "theorems": [
    "C149_pairs",
    "C149_usable",
    "C149_leads_back",
    "C149_two_slashes_refuted"
   ],
   "note": "Proved for paths that begin with exactly one slash (C149_leads_back); false for a path that begins with two slashes, which names another host when sent as a target: C149_two_slashes_refuted."
  },
  {
   "property": "C150",
   "status": "partial",
   "theorems": [
    "C150_written",
    "C150_requests",
    "C150_unknown_encoding_refuted"
   ],
   "note": "Proved for all further lines without '*' (C150_written for MultiPartParser, C150_requests for parse()); false for a further line with an extended parameter in an unknown encoding, which makes the form fail: C150_unknown_encoding_refuted."
  },
  {
   "property": "C151",
   "status": "partial",
   "theorems": [
    "C151_tells",
    "C151_one_line",
    "C151_multivaluedict",
    "C151_two_files_refuted",
    "C151_sent_refuted"
   ],
   "note": "Proved for all dictionaries without uploaded files; false for FILES, whose file names are printed as they are: C151_two_files_refuted (all names), C151_sent_refuted (forms that send such names). The printed form of a file is that of a name within ASCII; for others see C161."
  },
  {
   "property": "C152",
   "status": "partial",
   "theorems": [
    "C152_restored",
    "C152_own_lists",
    "C152_roundtrip",
    "C152_twice_refuted",
    "C152_querydict_refuted"
   ],
   "note": "Proved for one use of a state. False: obj_dict.pop takes the data out of the caller's state (C152_twice_refuted, all states); QueryDict.setlist needs the settings, which are restored last (C152_querydict_refuted, all states with a key)."
  },
  {
   "property": "C153",
   "status": "partial",
   "theorems": [
    "C153_roundtrip_partial",
    "C153_left_alone",
    "C153_special_refuted"
   ],
   "note": "Proved for all ASCII safe sets without '%', '&', '+', ';' and '='. False for each of these five characters (C153_special_refuted): declared safe, it takes its meaning when parsed."
  },
  {
   "property": "C154",
   "status": "partial",
   "theorems": [
    "C154_read_back",
    "C154_keys_alike_partial",
    "C154_encoding_ignored_refuted"
   ],
   "note": "The constructor ignores its encoding argument: what is read is given exactly (C154_read_back), for every dictionary and pair of charsets. Refuted: a key that the two charsets write differently is lost. Partial: the dictionary comes back when both charsets write its keys alike. Values are ASCII, as in C40."
  },
  {
   "property": "C155",
   "status": "partial",
   "theorems": [
    "C155_stays",
    "C155_immutable",
    "C155_parse_partial",
    "C155_empty_body_refuted",
    "C155_get_partial"
   ],
   "note": "Proved for every program once a body has been parsed (C155_stays, C155_immutable). Refuted: after parse() of a request with an empty body POST is the mutable dictionary of the new request and can be changed (C155_empty_body_refuted); GET is immutable exactly when the query string is not empty (C155_get_partial). The values of a multipart POST are dictionaries; changing one in place is not modelled."
  },
  {
   "property": "C156",
   "status": "partial",
   "theorems": [
    "C156_stays_partial",
    "C156_encoding_refuted"
   ],
   "note": "Proved for every sequence of later calls that assigns neither a stream nor the encoding (C156_stays_partial), for requests whose body fits the limit. Refuted in general: assigning the encoding, even the same one, drops the kept bytes while the stream is at its end, so the next body() returns an empty body (C156_encoding_refuted, for every such request)."
  },
  {
   "property": "C157",
   "status": "proved",
   "theorems": [
    "C157_charset",
    "C157_form",
    "C157_query",
    "C157_default"
   ],
   "note": "C157_charset, C157_form, C157_query, C157_default. That the declared charset stays in the shared Settings object afterwards is C56, an unknown charset C74."
  },
  {
   "property": "C158",
   "status": "partial",
   "theorems": [
    "C158_memory",
    "C158_with_closes",
    "C158_with_runs",
    "C158_two_paths",
    "C158_own_partial",
    "C158_until_closed",
    "C158_client_name_refuted"
   ],
   "note": "Proved: C158_memory, C158_with_closes, C158_with_runs, C158_until_closed; for any program only the temporary file and the file named like the upload in the working directory can change (C158_two_paths), and only the temporary file if there is none of that name (C158_own_partial). Refuted: open() after the end of a with statement empties the file in the working directory that has the client's name (C158_client_name_refuted)."
  },
  {
   "property": "C159",
   "status": "partial",
   "theorems": [
    "C159_other_parameters_partial",
    "C159_one_more_partial",
    "C159_undecodable_refuted",
    "C159_undecodable_all_refuted"
   ],
   "note": "For parameters that are well formed: C159_other_parameters_partial, C159_one_more_partial. Refuted for a parameter in extended notation with an unknown charset: a note nobody reads ends the parse in a LookupError (C159_undecodable_refuted), and no header with such a parameter is ever accepted (C159_undecodable_all_refuted)."
  },
  {
   "property": "C160",
   "status": "proved",
   "theorems": [
    "C160_as_clients_write"
   ],
   "note": "C160_as_clients_write. Blanks around the '=' of parameters in ordinary notation only; undecodable extended parameters are C159_undecodable_refuted."
  },
  {
   "property": "C161",
   "status": "partial",
   "theorems": [
    "C161_str",
    "C161_unicode_name_refuted",
    "C161_repr_partial",
    "C161_nothing_given",
    "C161_repr_all_refuted",
    "C161_untyped",
    "C161_repr_refuted",
    "C161_files_partial",
    "C161_files_refuted"
   ],
   "note": "str() holds for every file of a request (C161_str); when repr() of a file and of FILES works is described exactly (C161_repr_partial, C161_files_partial). False for a file with a Content-Type and a name outside ASCII (C161_repr_all_refuted; a form that sends one: C161_repr_refuted, C161_files_refuted) and for str() of a file object with a unicode name outside ASCII (C161_unicode_name_refuted). A missing name or type is shown as None (C161_nothing_given)."
  }
 ]
}