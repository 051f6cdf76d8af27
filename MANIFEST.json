{
 "claims": [
  {
   "property": "C01",
   "status": "proved",
   "theorems": [
    "C01_lexing_is_lossless",
    "C01_lexing_is_lossless_without_nul",
    "C01_lexing_is_lossless_bytes",
    "C01_ends_with_one_eof",
    "C01_nul_truncates_refuted"
   ],
   "note": "All documents (unicode or arbitrary bytes); the document ends at its first NUL (refuted beyond)."
  },
  {
   "property": "C02",
   "status": "proved",
   "theorems": [
    "C02_positions_are_real",
    "C02_parse_errors_point_into_the_document"
   ],
   "note": ""
  },
  {
   "property": "C03",
   "status": "proved",
   "theorems": [
    "C03_tokens_have_their_shape",
    "C03_segmentation_is_unique"
   ],
   "note": ""
  },
  {
   "property": "C04",
   "status": "partial",
   "theorems": [
    "C04_parsing_terminates_partial",
    "C04_verdict_in_linear_time_or_never",
    "C04_hang_iff_bare_at",
    "C04_hang_refuted",
    "C04_errors_are_located"
   ],
   "note": "The claim is false of the code (refuted with a witness: @ without a word in a service); exact characterisation of when parsing terminates is proved."
  },
  {
   "property": "C05",
   "status": "proved",
   "theorems": [
    "C05_quoted_values_denote_their_content",
    "C05_strings_end_on_their_line",
    "C05_reading_is_unique",
    "C05_plain_text_reads_as_itself",
    "C05_quoted_definition",
    "C05_empty_and_non_ascii_and_quote_refuted"
   ],
   "note": "Refuted beyond the stated alphabet."
  },
  {
   "property": "C06",
   "status": "proved",
   "theorems": [
    "C06_kinds_round_trip",
    "C06_kinds_are_read_by_name",
    "C06_unknown_kinds_are_refused_refuted",
    "C06_declared_kinds_round_trip_refuted",
    "C06_other_values_are_no_kinds",
    "C06_print_then_parse",
    "C06_parse_then_print",
    "C06_core_types",
    "C06_printing_is_injective",
    "C06_parsing_terminates",
    "C06_missing_component_refuted"
   ],
   "note": "For types without missing components; refuted otherwise (missing_component_refuted). Kinds in JSON: unknown names are not refused and kinds of declared types lose their name (refuted)."
  },
  {
   "property": "C07",
   "status": "proved",
   "theorems": [
    "C07_accepted_types_are_legal",
    "C07_accepted_iff_legal",
    "C07_map_key_case_refuted",
    "C07_struct_key_panics_refuted"
   ],
   "note": "Map keys are looked up ignoring case and a struct as key crashes (refuted theorems)."
  },
  {
   "property": "C08",
   "status": "proved",
   "theorems": [
    "C08_predicates_are_exact",
    "C08_selectors_return_components",
    "C08_template_sees_the_type_tree",
    "C08_helpers_on_any_text",
    "C08_vartype_helpers_agree"
   ],
   "note": ""
  },
  {
   "property": "C09",
   "status": "proved",
   "theorems": [
    "C09_type_names_of_ridl_files_are_unique",
    "C09_type_names_are_unique",
    "C09_upper_case_is_A_to_Z",
    "C09_upper_case_refuted"
   ],
   "note": "Upper case means A-Z for ASCII names; refuted for non-ASCII first letters."
  },
  {
   "property": "C10",
   "status": "proved",
   "theorems": [
    "C10_fields_are_valid_and_unique",
    "C10_fields_have_types_members_have_values"
   ],
   "note": ""
  },
  {
   "property": "C11",
   "status": "proved",
   "theorems": [
    "C11_errors_are_well_formed",
    "C11_decoding_by_code_is_unambiguous"
   ],
   "note": ""
  },
  {
   "property": "C12",
   "status": "proved",
   "theorems": [
    "C12_services_are_well_formed",
    "C12_argument_names_refuted"
   ],
   "note": "As restated: argument and method names are only checked to be non-empty (refuted theorem)."
  },
  {
   "property": "C13",
   "status": "proved",
   "theorems": [
    "C13_base_path_is_normalised",
    "C13_base_path_of_accepted_schema"
   ],
   "note": ""
  },
  {
   "property": "C14",
   "status": "proved",
   "theorems": [
    "C14_schemas_of_files_are_well_formed",
    "C14_validation_is_idempotent",
    "C14_validation_only_resolves",
    "C14_accepted_schemas_are_well_formed",
    "C14_well_formed_schemas_are_accepted",
    "C14_missing_component_refuted",
    "C14_missing_type_panics_refuted",
    "C14_alias_unchecked_refuted"
   ],
   "note": "For schemas without missing components; refuted otherwise."
  },
  {
   "property": "C15",
   "status": "proved",
   "theorems": [
    "C15_cycle_check_is_exact",
    "C15_circular_import_errors_are_right",
    "C15_cyclic_imports_are_rejected"
   ],
   "note": ""
  },
  {
   "property": "C16",
   "status": "proved",
   "theorems": [
    "C16_loading_terminates",
    "C16_no_file_is_read_twice",
    "C16_success_has_read_every_reachable_file",
    "C16_result_is_that_of_the_import_tree",
    "C16_outcomes"
   ],
   "note": "Unless the parser hangs on a reachable file (C04)."
  },
  {
   "property": "C17",
   "status": "partial",
   "theorems": [
    "C17_types_are_the_exported_ones",
    "C17_errors_are_the_exported_ones",
    "C17_services_are_the_exported_ones",
    "C17_services_once_refuted",
    "C17_imported_alias_dangles_refuted",
    "C17_circular_aliases_refuted"
   ],
   "note": "Proved for the import filter, types and errors; merging of services is false of the code (refuted)."
  },
  {
   "property": "C18",
   "status": "proved",
   "theorems": [
    "C18_import_errors_carry_the_chain"
   ],
   "note": ""
  },
  {
   "property": "C19",
   "status": "proved",
   "theorems": [
    "C19_service_filter_is_exact",
    "C19_no_names_is_identity",
    "C19_names_are_a_set",
    "C19_idempotent"
   ],
   "note": ""
  },
  {
   "property": "C20",
   "status": "proved",
   "theorems": [
    "C20_annotation_filters_are_exact",
    "C20_filters_partition_the_methods",
    "C20_iteration_order_is_irrelevant",
    "C20_filtered_schema_stays_valid_refuted"
   ],
   "note": ""
  },
  {
   "property": "C21",
   "status": "partial",
   "theorems": [
    "C21_shaking_keeps_exactly_the_needed_types_partial",
    "C21_shaken_schema_is_closed_partial",
    "C21_shaking_terminates_iff_not_recursive",
    "C21_recursive_struct_refuted",
    "C21_alias_refuted"
   ],
   "note": "Termination is false for recursive structs and aliases are not walked (both refuted with witnesses); exactness is proved when neither occurs."
  },
  {
   "property": "C22",
   "status": "partial",
   "theorems": [
    "C22_detection_terminates",
    "C22_detection_is_exact",
    "C22_table_is_exact",
    "C22_table_of_distinct_names",
    "C22_table_is_sound",
    "C22_hidden_bigints_refuted",
    "C22_type_named_bigint_refuted",
    "C22_recursive_structs_refuted",
    "C22_colliding_methods_refuted"
   ],
   "note": "Predicate exact for all schemas; table exact without recursive structs, sound always; recursive structs refuted with a witness."
  },
  {
   "property": "C23",
   "status": "partial",
   "theorems": [
    "C23_min_version_is_componentwise",
    "C23_min_version_partial",
    "C23_min_version_refuted"
   ],
   "note": "Exact for equal majors; the total-order claim is false of the code (v1.0 vs v0.7), see the refuted theorem."
  },
  {
   "property": "C24",
   "status": "proved",
   "theorems": [
    "C24_header_round_trip",
    "C24_header_separator_refuted",
    "C24_committed_headers_refuted",
    "C24_ts_reads_the_parts",
    "C24_go_wants_every_version",
    "C24_ts_reads_what_go_reads",
    "C24_readers_agree",
    "C24_readers_agree_refuted",
    "C24_ts_header_round_trip",
    "C24_short_headers",
    "C24_header_names_the_generator",
    "C24_branch_with_slash_refuted",
    "C24_directory_with_slash_refuted",
    "C24_injected_version_is_kept",
    "C24_required_version_is_used",
    "C24_described_version_is_used",
    "C24_version_is_never_empty",
    "C24_header_names_the_tool",
    "C24_version_is_the_tools_refuted",
    "C24_same_header_in_every_directory_refuted",
    "C24_header_names_the_generator_everywhere_refuted"
   ],
   "note": "For fields without the separators; refuted otherwise. The version of tools built without one is that of the working directory (refuted as the version of the tool). GenTs.v: the TypeScript readers of the header, against the Go ones."
  },
  {
   "property": "C25",
   "status": "proved",
   "theorems": [
    "C25_arguments_are_collected",
    "C25_malformed_arguments_are_reported",
    "C25_every_argument_has_one_destination",
    "C25_options_are_unambiguous",
    "C25_repeated_option_refuted",
    "C25_own_flags_are_set",
    "C25_flag_swallows_flag_refuted",
    "C25_annotation_list_is_read_back",
    "C25_malformed_annotations_are_reported"
   ],
   "note": "A repeated option silently replaces the earlier one (refuted theorem)."
  },
  {
   "property": "C26",
   "status": "partial",
   "theorems": [
    "C26_interrupted_first_download",
    "C26_never_half_written",
    "C26_completed_download_is_usable",
    "C26_interrupted_refresh_refuted",
    "C26_removed_template_refuted"
   ],
   "note": "Proved for first downloads and unchanged repositories at every crash point; interrupted refreshes and removed templates are refuted with witnesses."
  },
  {
   "property": "C27",
   "status": "proved",
   "theorems": [
    "C27_fresh_cache_is_used",
    "C27_otherwise_fetched",
    "C27_failed_fetch_falls_back",
    "C27_download_sets_the_timestamp",
    "C27_cache_directory",
    "C27_shared_cache_refuted"
   ],
   "note": "Cache directories can be shared by two targets (refuted theorem with a hash collision)."
  },
  {
   "property": "C28",
   "status": "proved",
   "theorems": [
    "C28_calls_follow_the_path",
    "C28_other_paths_are_not_found",
    "C28_routes_are_distinct",
    "C28_slash_refuted"
   ],
   "note": "Calls follow the path for every request; all other paths 404. Routes of accepted schemas are distinct for service names without \"/\"; the unconditional claim is refuted (C28_slash_refuted): service and method names are not checked. The mapping base path + service + \"/\" + method is read off the committed generated code (the Go templates are not in the repository)."
  },
  {
   "property": "C29",
   "status": "proved",
   "theorems": [
    "C29_every_request_is_answered",
    "C29_answers_are_determined",
    "C29_one_status_line",
    "C29_bad_hook_refuted",
    "C29_invalid_status_refuted"
   ],
   "note": "Complete specification (Expected) of the answer for every request, hook and handler outcome; uniqueness; exactly one status line for any options. Refuted corner cases: errors or OnError hooks with an invalid HTTP status."
  },
  {
   "property": "C30",
   "status": "proved",
   "theorems": [
    "C30_results_arrive",
    "C30_arguments_arrive",
    "C30_errors_arrive",
    "C30_error_texts_arrive",
    "C30_last_of_repeated_keys_counts",
    "C30_rejections_arrive",
    "C30_panics_arrive",
    "C30_status_200_refuted",
    "C30_stream_finished_is_success_refuted",
    "C30_no_body_refuted",
    "C30_undeclared_enum_refuted",
    "C30_invalid_text_refuted"
   ],
   "note": "For all values the wire carries (Fits) and all errors with a transportable status. Refuted without these conditions: status 200 errors look like success, 204/304 lose the error, undeclared enum values become the zero value, invalid UTF-8 is replaced."
  },
  {
   "property": "C31",
   "status": "proved",
   "theorems": [
    "C31_is_equivalence",
    "C31_causes_preserve_matching",
    "C31_errors_is_by_code",
    "C31_causes_are_found",
    "C31_added_causes_are_matched",
    "C31_error_texts",
    "C31_declarations_match_themselves_only",
    "C31_declared_errors_arrive",
    "C31_matching_codes_is_linear",
    "C31_matching_others_doubles",
    "C31_matching_others_is_linear_refuted"
   ],
   "note": "Is by code, chains of causes, errors.Is, declarations of accepted schemas, also after the error travelled to the client; matching a webrpc error is linear in the chain. Finding: for targets that are not webrpc errors (io.EOF, context.Canceled) each layer doubles the work (C31_matching_others_doubles)."
  },
  {
   "property": "C32",
   "status": "proved",
   "theorems": [
    "C32_every_schedule_delivers",
    "C32_cut_streams_deliver_a_beginning",
    "C32_delivered_lines_are_received",
    "C32_concurrent_writers",
    "C32_no_deadlock",
    "C32_every_schedule_ends",
    "C32_runs_exist",
    "C32_panic_answer_refuted",
    "C32_no_writes_after_the_handler_refuted"
   ],
   "note": "Every byte-level schedule of handler and keep-alive goroutine; also streams cut anywhere and several writing goroutines. Refuted: the answer to a panic is written without the mutex; the keep-alive goroutine can write after the handler is done."
  },
  {
   "property": "C33",
   "status": "proved",
   "theorems": [
    "C33_chunking_is_invisible",
    "C33_every_schedule_and_chunking_delivers",
    "C33_broken_streams_deliver_a_beginning",
    "C33_unfinished_lines_are_reported_refuted",
    "C33_only_messages_are_delivered_refuted"
   ],
   "note": "Every server schedule and every chunking of the bytes; streams broken at any byte deliver a beginning of the messages. Refuted: an unterminated last line is dropped silently, undefined is delivered after a bad line."
  },
  {
   "property": "C34",
   "status": "proved",
   "theorems": [
    "C34_every_schedule_gives_a_beginning",
    "C34_every_schedule_gives_the_tokens",
    "C34_the_result_does_not_depend_on_the_schedule",
    "C34_no_deadlock_no_leak",
    "C34_every_schedule_ends",
    "C34_runs_exist"
   ],
   "note": ""
  },
  {
   "property": "C35",
   "status": "proved",
   "theorems": [
    "C35_first_letter",
    "C35_first_letter_non_ascii_refuted",
    "C35_first_word_changes_only_case",
    "C35_first_word_idempotent",
    "C35_first_word_keeps_the_rest",
    "C35_first_word_acronym"
   ],
   "note": "ASCII first letter; refuted otherwise."
  },
  {
   "property": "C36",
   "status": "partial",
   "theorems": [
    "C36_members_have_their_values",
    "C36_implicit_values_are_distinct",
    "C36_distinct_values_refuted"
   ],
   "note": "Distinctness of all values is false of the code (refuted); implicit values are distinct."
  },
  {
   "property": "C37",
   "status": "proved",
   "theorems": [
    "C37_block_above_a_struct_is_its_comment",
    "C37_every_definition_takes_its_block",
    "C37_block_above_any_definition_is_its_comment",
    "C37_no_comment_line_is_used_twice",
    "C37_comments_are_recorded_by_line",
    "C37_no_comment_without_hash",
    "C37_definition_takes_its_block_once",
    "C37_recorded_comments_do_not_change_the_parse",
    "C37_leading_comments_do_not_change_the_parse",
    "C37_general_comments_refuted"
   ],
   "note": "for every accepted document and every kind of definition (C37_every_definition_takes_its_block and its consequences); the exceptions named in the statement are witnessed by C37_general_comments_refuted"
  },
  {
   "property": "C38",
   "status": "proved",
   "theorems": [
    "C38_types_say_what_was_declared",
    "C38_services_say_what_was_declared",
    "C38_header_is_the_roots",
    "C38_error_numbers",
    "C38_error_codes_saturate_refuted",
    "C38_distinct_error_codes_refuted"
   ],
   "note": ""
  },
  {
   "property": "C39",
   "status": "proved",
   "theorems": [
    "C39_flags_restrict_the_schema",
    "C39_ignore_and_match_are_exclusive"
   ],
   "note": ""
  },
  {
   "property": "C40",
   "status": "proved",
   "theorems": [
    "C40_target_resolution",
    "C40_old_aliases",
    "C40_run_uses_the_denoted_generator"
   ],
   "note": ""
  },
  {
   "property": "C41",
   "status": "proved",
   "theorems": [
    "C41_results_arrive",
    "C41_errors_arrive",
    "C41_declared_errors_have_their_class",
    "C41_error_messages_arrive_refuted",
    "C41_every_failure_is_a_webrpc_error_refuted",
    "C41_every_answer_is_classified"
   ],
   "note": "For results and errors the wire carries. Refuted: the message field (msg vs message), null error bodies."
  },
  {
   "property": "C42",
   "status": "proved",
   "theorems": [
    "C42_documents_parse_as_written",
    "C42_documents_are_unambiguous",
    "C42_types_of_a_document",
    "C42_errors_of_a_document",
    "C42_services_of_a_document",
    "C42_accepted_declarations_are_well_formed",
    "C42_succinct_result_swallows_the_next_word_refuted",
    "C42_stray_word_is_dropped_refuted",
    "C42_lexeme_after_annotation_value_is_dropped_refuted",
    "C42_dangling_annotation_is_dropped_refuted",
    "C42_empty_string_refuted"
   ],
   "note": "For the documents of Grammar.v; lexemes the parser swallows outside of it are shown with witnesses (refuted theorems)."
  },
  {
   "property": "C43",
   "status": "proved",
   "theorems": [
    "C43_schema_json_round_trip",
    "C43_ridl_types_are_listed_once",
    "C43_portable",
    "C43_json_target_keeps_the_hash",
    "C43_ridl_schemas_can_be_written",
    "C43_ridl_round_trip",
    "C43_enum_alias_key_refuted",
    "C43_service_imported_twice_refuted",
    "C43_unprintable_name_refuted",
    "C43_null_document_refuted"
   ],
   "note": "For schemas whose texts are valid UTF-8 (every schema loaded from RIDL is: C43_ridl_schemas_can_be_written), whose type expressions are complete and need no escape and whose map keys are core types or enums; the conditions are needed (refuted theorems)."
  },
  {
   "property": "C44",
   "status": "proved",
   "theorems": [
    "C44_same_document_iff_same_content",
    "C44_same_content_same_hash",
    "C44_same_hash_same_content",
    "C44_hash_is_40_hex_digits",
    "C44_comments_change_the_hash_refuted"
   ],
   "note": "Same conditions on the texts. SHA-1 itself is modelled and tested on standard vectors; nothing is assumed about collisions."
  },
  {
   "property": "C45",
   "status": "proved",
   "theorems": [
    "C45_dict_has_the_last_values",
    "C45_dict_fails_otherwise",
    "C45_get_returns_what_was_set_last",
    "C45_set_changes_no_array",
    "C45_types_as_keys"
   ],
   "note": ""
  },
  {
   "property": "C46",
   "status": "proved",
   "theorems": [
    "C46_array_has_its_elements",
    "C46_append_adds_at_the_end",
    "C46_append_loop_collects_everything",
    "C46_append_twice_refuted",
    "C46_first_and_last",
    "C46_last_index",
    "C46_sort_answers",
    "C46_sort_is_a_sorted_copy",
    "C46_sort_is_determined",
    "C46_in_is_membership",
    "C46_coalesce_is_the_first_non_empty",
    "C46_default_and_ternary",
    "C46_empty_collections_refuted",
    "C46_type_in_names_refuted"
   ],
   "note": "Slices are those the helpers make (no text/template slice builtin); sort.Slice is specified by what it guarantees. Refuted: append twice to one array, emptiness of collections, types in name lists."
  },
  {
   "property": "C47",
   "status": "proved",
   "theorems": [
    "C47_split_is_exact",
    "C47_join_then_split",
    "C47_join_then_split_refuted",
    "C47_split_characters",
    "C47_join_of_arrays"
   ],
   "note": ""
  },
  {
   "property": "C48",
   "status": "proved",
   "theorems": [
    "C48_json_round_trip",
    "C48_json_is_a_quoted_numeral",
    "C48_binary_round_trip",
    "C48_binary_is_injective",
    "C48_database_round_trip",
    "C48_json_reads_exactly_numerals",
    "C48_numerals_are_unambiguous",
    "C48_scan_reads_powers_of_ten",
    "C48_scan_reads_nothing_else",
    "C48_negative_exponents_are_dropped_refuted",
    "C48_binary_forms_are_not_unique_refuted"
   ],
   "note": "Negative exponents when scanning and non-unique binary forms refuted with witnesses."
  },
  {
   "property": "C49",
   "status": "partial",
   "theorems": [
    "C49_bigints_arrive_partial",
    "C49_typescript_round_trip_partial",
    "C49_go_answers_arrive_partial",
    "C49_requests_arrive_in_go",
    "C49_decoding_returns",
    "C49_readers_agree",
    "C49_hidden_bigints_stay_strings_refuted",
    "C49_recursive_structs_refuted",
    "C49_renamed_fields_refuted",
    "C49_colliding_methods_refuted",
    "C49_readers_differ_refuted"
   ],
   "note": "Proved for accepted schemas whose bigints occur as fields, lists, structs and lists of structs with unrenamed, unambiguous names (record Setting); the other positions are refuted with witnesses."
  },
  {
   "property": "C50",
   "status": "partial",
   "theorems": [
    "C50_only_declared_arguments_partial",
    "C50_null_skips_validation_refuted",
    "C50_declared_arguments_arrive",
    "C50_results_and_errors_are_answered_partial",
    "C50_wrong_arguments_are_refused",
    "C50_other_methods_are_refused",
    "C50_prototype_names_refuted",
    "C50_no_path_is_served_refuted",
    "C50_requests_are_not_answered_refuted",
    "C50_results_are_never_returned_refuted",
    "C50_validators_reject_everything_refuted",
    "C50_errors_lose_their_name_refuted",
    "C50_client_paths_refuted"
   ],
   "note": "Checks of arguments and refusals proved; what would be answered for results and errors proved for any encodeType; answering requests is false of the committed code (refuted for all paths, bodies and implementations)."
  },
  {
   "property": "C51",
   "status": "proved",
   "theorems": [
    "C51_imports_are_relative_to_the_importing_file",
    "C51_every_path_leads_somewhere_or_out",
    "C51_imports_cannot_leave_the_tree",
    "C51_imports_of_a_loaded_file_exist",
    "C51_absolute_import_refuted",
    "C51_schema_file_is_found_and_read",
    "C51_schema_path_leads_somewhere",
    "C51_extension_is_unique"
   ],
   "note": "Absolute import paths refuted with a witness."
  },
  {
   "property": "C52",
   "status": "proved",
   "theorems": [
    "C52_only_generated_code_is_written",
    "C52_generated_code_is_delivered",
    "C52_success_means_generated",
    "C52_failure_changes_nothing",
    "C52_version",
    "C52_templates_get_the_schema",
    "C52_json_target",
    "C52_hash_of_a_run",
    "C52_format_errors_are_reported_refuted",
    "C52_output_is_replaced_at_once_refuted",
    "C52_help_is_shown_refuted"
   ],
   "note": "Formatting errors, torn writes and help refuted with witnesses."
  },
  {
   "property": "C53",
   "status": "proved",
   "theorems": [
    "C53_messages_are_numbered",
    "C53_history_is_explained",
    "C53_streams_are_runs",
    "C53_ids_are_consecutive",
    "C53_streams_agree",
    "C53_new_subscriber_sees_the_history",
    "C53_reconnect_repeats_nothing",
    "C53_reconnect_misses_nothing",
    "C53_results",
    "C53_send_can_always_finish",
    "C53_reconnect_gap_refuted",
    "C53_restart_loses_messages_refuted",
    "C53_times_follow_ids_refuted"
   ],
   "note": "The ring buffer library is modelled by its documented behaviour. Reconnection gaps, restarts and times refuted with witnesses."
  },
  {
   "property": "C54",
   "status": "proved",
   "theorems": [
    "C54_reference_server_passes",
    "C54_suite_is_exact",
    "C54_tests_cover_the_schema",
    "C54_wrong_errors_are_noticed",
    "C54_server_takes_exactly_the_fixtures",
    "C54_values_are_not_checked_refuted",
    "C54_status_line_is_not_checked_refuted",
    "C54_missing_cause_is_not_noticed_refuted"
   ],
   "note": "What the suite does not notice is refuted with witnesses."
  },
  {
   "property": "C55",
   "status": "partial",
   "theorems": [
    "C55_numbers_are_floating_point",
    "C55_one_nearest",
    "C55_error_is_bounded",
    "C55_changed_at_most_once",
    "C55_safe_values_return_partial",
    "C55_narrow_types_return_partial",
    "C55_member_order",
    "C55_different_ids_stay_different_refuted",
    "C55_values_return_refuted"
   ],
   "note": "Proved for safe integers and for all types without 64-bit integers; refuted with witnesses for uint64."
  },
  {
   "property": "C56",
   "status": "proved",
   "theorems": [
    "C56_streams_between_versions",
    "C56_cut_streams_between_versions",
    "C56_streams_survive_any_field_refuted",
    "C56_calls_between_versions",
    "C56_errors_between_versions",
    "C56_missing_methods_are_reported",
    "C56_case_of_names_does_not_matter",
    "C56_integers_are_never_cut",
    "C56_added_fields_are_ignored_refuted",
    "C56_new_enum_members_are_recognised_refuted"
   ],
   "note": "Calls and streams. Names differing in case only and new enum members refuted with witnesses."
  },
  {
   "property": "C57",
   "status": "proved",
   "theorems": [
    "C57_every_request_is_answered_once",
    "C57_answers_are_as_specified",
    "C57_rpc_function_is_called_once",
    "C57_answers_carry_the_common_headers",
    "C57_exceptions_are_answered",
    "C57_middleware_runs_in_order",
    "C57_body_is_read_right_iff_no_character_is_cut",
    "C57_chunks_change_the_arguments_refuted",
    "C57_log_shows_the_wrong_status_refuted",
    "C57_trace_ids_differ_refuted",
    "C57_generated_server_leaves_requests_open_refuted"
   ],
   "note": "Chunking, logging, trace ids and unanswered requests refuted with witnesses."
  },
  {
   "property": "C58",
   "status": "proved",
   "theorems": [
    "C58_paths_are_distinct",
    "C58_descriptor_belongs_to_the_path",
    "C58_descriptor_is_that_of_the_called_method",
    "C58_methods_list_the_services",
    "C58_listed_handlers_serve_their_paths",
    "C58_webrpc_methods_filters",
    "C58_deprecated_methods_are_never_called",
    "C58_other_requests_do_not_notice_the_hook",
    "C58_refusals_arrive",
    "C58_example_methods_are_reached",
    "C58_admin_is_unreachable_refuted",
    "C58_request_headers",
    "C58_own_headers",
    "C58_reserved_headers_are_refused",
    "C58_canonical_keys_cannot_override",
    "C58_other_keys_override_refuted"
   ],
   "note": "Header keys in other case and the unreachable Admin service refuted with witnesses."
  },
  {
   "property": "C59",
   "status": "proved",
   "theorems": [
    "C59_page_shows_the_last_messages",
    "C59_new_subscriptions_resume",
    "C59_new_subscriptions_repeat_nothing",
    "C59_delays_double_up_to_thirty_seconds",
    "C59_reconnects_repeat_the_request",
    "C59_reconnecting_shows_nothing_twice_refuted",
    "C59_one_stream_at_a_time",
    "C59_closed_is_final",
    "C59_finished_streams_close_the_chat",
    "C59_impatient_users_see_double_refuted",
    "C59_old_browsers_disconnect",
    "C59_the_button_disconnects_refuted",
    "C59_failures_are_retried_refuted",
    "C59_other_failures_are_retried",
    "C59_sends_when_connected",
    "C59_page_contains_the_texts",
    "C59_page_shows_who_wrote_what_refuted"
   ],
   "note": "Reconnects showing messages twice, impatient clicks, the Disconnect button, request failures and unescaped texts refuted with witnesses."
  },
  {
   "property": "C60",
   "status": "proved",
   "theorems": [
    "C60_calls_arrive",
    "C60_errors_arrive",
    "C60_rejections_arrive",
    "C60_panics_arrive",
    "C60_no_answer_is_a_failed_request",
    "C60_missing_methods_are_reported",
    "C60_headers_do_not_disturb_calls_refuted"
   ],
   "note": "The lower-case content-type header refuted with a witness."
  },
  {
   "property": "C61",
   "status": "proved",
   "theorems": [
    "C61_go_clients_reach_the_route",
    "C61_ts_clients_reach_the_route",
    "C61_older_go_clients_reach_the_route",
    "C61_accepted_base_paths_are_reached_refuted",
    "C61_ts_clients_drop_queries_refuted",
    "C61_older_go_clients_take_slashes_refuted",
    "C61_addresses_without_scheme_refuted",
    "C61_question_marks_refuted"
   ],
   "note": "Characterised exactly; accepted base paths no client reaches, queries, final slashes and missing schemes refuted with witnesses."
  },
  {
   "property": "C62",
   "status": "proved",
   "theorems": [
    "C62_pages_call_the_go_examples",
    "C62_other_headers_are_blocked",
    "C62_calls_get_through_iff_listed",
    "C62_pages_call_the_node_server",
    "C62_pages_call_the_hono_server",
    "C62_server_go_is_unreachable_refuted",
    "C62_credentials_are_accepted_refuted",
    "C62_page_reads_the_version_refuted"
   ],
   "note": "The unreachable Go server of node-ts, refused credentials and the hidden version header refuted with witnesses."
  },
  {
   "property": "C63",
   "status": "proved",
   "theorems": [
    "C63_wait_ends",
    "C63_wait_tells_the_truth",
    "C63_wait_finds_the_server",
    "C63_wait_survives_a_hanging_call_refuted",
    "C63_served_while_it_lives",
    "C63_server_ends_in_time",
    "C63_server_lets_requests_finish",
    "C63_late_requests_fail_the_server",
    "C63_a_second_of_grace_refuted",
    "C63_close_lets_requests_finish",
    "C63_close_ends_the_wait_refuted",
    "C63_failures_are_reported_refuted",
    "C63_the_port_is_needed",
    "C63_waiting_for_the_server",
    "C63_first_argument_chooses",
    "C63_the_tool_does_what_it_is_told",
    "C63_bad_settings_end_the_tool",
    "C63_make_reports_failures_refuted"
   ],
   "note": "Exact bounds of the grace period; the second of grace, Close, lost listener failures, hanging calls and the make target refuted with witnesses."
  },
  {
   "property": "C64",
   "status": "proved",
   "theorems": [
    "C64_implementations_see_the_request",
    "C64_hooks_see_the_request",
    "C64_descriptors_in_contexts",
    "C64_hooks_see_the_method_name_refuted",
    "C64_request_in_context_has_the_names_refuted",
    "C64_middleware_values_arrive",
    "C64_packages_do_not_interfere",
    "C64_contexts_change_no_answer",
    "C64_results_arrive",
    "C64_errors_arrive",
    "C64_headers_arrive",
    "C64_errors_are_reported",
    "C64_panics_are_reported",
    "C64_panicking_hook_answers_nothing",
    "C64_reported_once_refuted",
    "C64_guards"
   ],
   "note": "The method name in hooks, the names in the request of the context and single reports refuted with witnesses."
  },
  {
   "property": "C65",
   "status": "proved",
   "theorems": [
    "C65_implementations_get_the_struct",
    "C65_results_arrive",
    "C65_errors_arrive",
    "C65_panics_arrive",
    "C65_one_answer",
    "C65_other_bodies_are_refused",
    "C65_same_answers_as_the_long_form",
    "C65_ordinary_clients_of_succinct_methods",
    "C65_succinct_clients_of_ordinary_methods",
    "C65_other_methods_are_unaffected",
    "C65_ordinary_clients_see_nil_results_refuted",
    "C65_empty_requests_get_the_same_answers_refuted"
   ],
   "note": "The nil result for clients of the long form and empty request structs are refuted with witnesses."
  },
  {
   "property": "C66",
   "status": "proved",
   "theorems": [
    "C66_routes_are_the_declared_methods",
    "C66_arguments_arrive",
    "C66_results_arrive",
    "C66_declared_errors_arrive",
    "C66_succinct_methods",
    "C66_payloads_have_the_declared_names",
    "C66_every_complete_schema_has_a_program",
    "C66_go_tags_are_not_compared_refuted",
    "C66_argument_names_may_repeat_refuted"
   ],
   "note": "For schemas whose enum members have different values and whose go.tag.json entries agree with the JSON names; floats, null and lists of bytes aside (their values are not modelled). The clashes that validation accepts are refuted with witnesses."
  },
  {
   "property": "C67",
   "status": "proved",
   "theorems": [
    "C67_silences_are_short",
    "C67_live_streams_are_kept",
    "C67_streams_go_on",
    "C67_dead_streams_are_noticed",
    "C67_timeouts_are_not_early",
    "C67_the_interval_ends",
    "C67_keep_alive_ends",
    "C67_one_late_ping",
    "C67_running_calls_are_kept_alive",
    "C67_one_writer",
    "C67_failed_pings_end_calls_refuted",
    "C67_timeouts_end_calls_refuted"
   ],
   "note": "Delays are parameters: 13 on the server and one on the way, a second together. What follows from the call only if failures of pings, or timeouts of clients, ended it is refuted with witnesses."
  },
  {
   "property": "C68",
   "status": "proved",
   "theorems": [
    "C68_every_request_is_answered",
    "C68_rpc_function_is_called_once",
    "C68_results_are_sent",
    "C68_failures_are_answered",
    "C68_hono_answers_like_node",
    "C68_malformed_bodies_are_refused_refuted",
    "C68_bodies_of_other_verbs_refuted",
    "C68_generated_server_is_not_found_refuted"
   ],
   "note": "For paths without percent signs and dot segments. What the Hono server does differently from the Node server (malformed bodies, bodies of other verbs) is refuted with witnesses, for all requests of that kind."
  }
 ]
}