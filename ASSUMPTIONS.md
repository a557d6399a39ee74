# Print Assumptions, theorem by theorem

Written by `tools/assumptions.py`.

| theorem | file | Print Assumptions |
|---|---|---|
| `asm_shown_settles` | PropAgain | Closed under the global context |
| `asm_shown_settles_refuted` | PropAgain | Closed under the global context |
| `comment_settles_refuted` | PropAgain | Closed under the global context |
| `label_margin_settles` | PropAgain | Closed under the global context |
| `squash_quotes_settles` | PropAgain | Closed under the global context |
| `squash_settles` | PropAgain | Closed under the global context |
| `strings_run_together` | PropAgain | Closed under the global context |
| `tabs_settle` | PropAgain | Closed under the global context |
| `asm_carriage_returns_kept` | PropAsm1 | Closed under the global context |
| `asm_carriage_returns_refuted` | PropAsm1 | Closed under the global context |
| `asm_filters_only_delete` | PropAsm1 | Closed under the global context |
| `asm_label_table` | PropAsm1 | Closed under the global context |
| `asm_label_table_indices` | PropAsm1 | Closed under the global context |
| `asm_last_line_parsed` | PropAsm1 | Closed under the global context |
| `asm_library_filter_empty` | PropAsm1 | Closed under the global context |
| `asm_library_filter_refuted` | PropAsm1 | Closed under the global context |
| `asm_line_count` | PropAsm1 | Closed under the global context |
| `asm_no_filter_shows_all` | PropAsm1 | Closed under the global context |
| `asm_no_filter_shows_read` | PropAsm1 | Closed under the global context |
| `asm_no_undefined_behaviour` | PropAsm1 | Closed under the global context |
| `asm_references_defined` | PropAsm1 | Closed under the global context |
| `asm_shown_lines` | PropAsm1 | Closed under the global context |
| `asm_shown_lines_order` | PropAsm1 | Closed under the global context |
| `asm_white_line_moves` | PropAsm1 | Closed under the global context |
| `asm_white_line_refuted` | PropAsm1 | Closed under the global context |
| `asm_calls_counted` | PropAsm10 | Closed under the global context |
| `asm_calls_follow_chains` | PropAsm10 | Closed under the global context |
| `asm_ladder_length` | PropAsm10 | Closed under the global context |
| `asm_recursion_bounded` | PropAsm10 | Closed under the global context |
| `asm_recursion_deep` | PropAsm10 | Closed under the global context |
| `asm_recursion_follows_chains` | PropAsm10 | Closed under the global context |
| `asm_search_exponential` | PropAsm10 | Closed under the global context |
| `asm_endless_balanced` | PropAsm11 | Closed under the global context |
| `asm_ends_unless_balanced` | PropAsm11 | Closed under the global context |
| `asm_lines_unless_balanced` | PropAsm11 | Closed under the global context |
| `asm_depth_irrelevant` | PropAsm2 | Closed under the global context |
| `asm_endless_refuted` | PropAsm2 | Closed under the global context |
| `asm_hash_order_matters_refuted` | PropAsm2 | Closed under the global context |
| `asm_history_matters_refuted` | PropAsm2 | Closed under the global context |
| `asm_same_result` | PropAsm2 | Closed under the global context |
| `asm_search_exact` | PropAsm2 | Closed under the global context |
| `asm_some_label_marked` | PropAsm2 | Closed under the global context |
| `asm_terminates` | PropAsm2 | Closed under the global context |
| `asm_used_label_unmarked_refuted` | PropAsm2 | Closed under the global context |
| `asm_used_labels_reached` | PropAsm2 | Closed under the global context |
| `asm_file_lines` | PropAsm3 | Closed under the global context |
| `asm_loc_ended` | PropAsm3 | Closed under the global context |
| `asm_loc_in_force` | PropAsm3 | Closed under the global context |
| `asm_locations` | PropAsm3 | Closed under the global context |
| `asm_views_alive` | PropAsm3 | Closed under the global context |
| `asm_views_alive_reading` | PropAsm3 | Closed under the global context |
| `asm_views_comment_filter_refuted` | PropAsm3 | Closed under the global context |
| `asm_no_parent_of_functions` | PropAsm4 | Closed under the global context |
| `asm_removal_rule` | PropAsm4 | Closed under the global context |
| `asm_removed_exactly` | PropAsm4 | Closed under the global context |
| `asm_alias_made` | PropAsm5 | Closed under the global context |
| `asm_alias_table` | PropAsm5 | Closed under the global context |
| `asm_internal_names` | PropAsm5 | Closed under the global context |
| `asm_label_in_force` | PropAsm5 | Closed under the global context |
| `asm_line_entries` | PropAsm5 | Closed under the global context |
| `asm_line_record` | PropAsm5 | Closed under the global context |
| `asm_nothing_in_force` | PropAsm5 | Closed under the global context |
| `asm_parent_in_force` | PropAsm5 | Closed under the global context |
| `asm_reference_tables` | PropAsm5 | Closed under the global context |
| `asm_result_exactly` | PropAsm5 | Closed under the global context |
| `asm_section_in_force` | PropAsm5 | Closed under the global context |
| `asm_setting_lines` | PropAsm5 | Closed under the global context |
| `asm_stored_exactly` | PropAsm5 | Closed under the global context |
| `asm_verdicts` | PropAsm5 | Closed under the global context |
| `asm_label_keeps_own` | PropAsm6 | Closed under the global context |
| `asm_label_location` | PropAsm6 | Closed under the global context |
| `asm_label_takes_next` | PropAsm6 | Closed under the global context |
| `asm_result_references` | PropAsm6 | Closed under the global context |
| `asm_later_parse_unmarked` | PropAsm7 | Closed under the global context |
| `asm_marks_exactly` | PropAsm7 | Closed under the global context |
| `asm_marks_take_roots` | PropAsm7 | Closed under the global context |
| `asm_one_root_one_mark` | PropAsm7 | Closed under the global context |
| `asm_calls_defined` | PropAsm8 | Closed under the global context |
| `asm_reuse_out_of_range` | PropAsm8 | Closed under the global context |
| `asm_second_call_refuted` | PropAsm8 | Closed under the global context |
| `asm_dead_view_read` | PropAsm9 | Closed under the global context |
| `asm_parsed_twice` | PropAsm9 | Closed under the global context |
| `asm_visited_left` | PropAsm9 | Closed under the global context |
| `asm_visited_names` | PropAsm9 | Closed under the global context |
| `cli_outputs_agree` | PropBoth | Closed under the global context |
| `text_output_is_json_text` | PropBoth | Closed under the global context |
| `cli_debug_file` | PropCli | Closed under the global context |
| `cli_exit` | PropCli | Closed under the global context |
| `cli_json_text` | PropCli | Closed under the global context |
| `cli_nothing_to_read` | PropCli | Closed under the global context |
| `cli_options` | PropCli | Closed under the global context |
| `cli_outcomes` | PropCli | Closed under the global context |
| `cli_reads_file` | PropCli | Closed under the global context |
| `cli_reads_stdin` | PropCli | Closed under the global context |
| `json_asm_crlf` | PropCli | Closed under the global context |
| `json_asm_valid` | PropCli | Closed under the global context |
| `json_asm_valid_iff` | PropCli | Closed under the global context |
| `asm_dump_says` | PropDump | Closed under the global context |
| `asm_at_label_dropped_refuted` | PropFilters | Closed under the global context |
| `asm_comment_filter` | PropFilters | Closed under the global context |
| `asm_comment_filter_changes_refuted` | PropFilters | Closed under the global context |
| `asm_directives_filter` | PropFilters | Closed under the global context |
| `asm_filter_drops_label_refuted` | PropFilters | Closed under the global context |
| `asm_filter_moves_labels_refuted` | PropFilters | Closed under the global context |
| `asm_reading_on` | PropGrow | Closed under the global context |
| `asm_reading_on_location_refuted` | PropGrow | Closed under the global context |
| `asm_reading_on_unused_refuted` | PropGrow | Closed under the global context |
| `objdump_reading_on` | PropGrow | Closed under the global context |
| `objdump_reading_on_library` | PropGrow | Closed under the global context |
| `objdump_reading_on_library_refuted` | PropGrow | Closed under the global context |
| `json_compat_mode` | PropJson | Closed under the global context |
| `json_control_characters_refuted` | PropJson | Closed under the global context |
| `json_debug_grouping_refuted` | PropJson | Closed under the global context |
| `json_debug_says` | PropJson | Closed under the global context |
| `json_document_says` | PropJson | Closed under the global context |
| `json_escape_lossless` | PropJson | Closed under the global context |
| `json_file_shown` | PropJson | Closed under the global context |
| `json_objdump_reproducible` | PropJson | Closed under the global context |
| `json_objdump_valid_iff` | PropJson | Closed under the global context |
| `json_text_never_reproducible` | PropJson | Closed under the global context |
| `json_valid_iff` | PropJson | Closed under the global context |
| `asm_locale` | PropLocale | Closed under the global context |
| `asm_locale_ascii` | PropLocale | Closed under the global context |
| `asm_locale_ends_refuted` | PropLocale | Closed under the global context |
| `objdump_locale` | PropLocale | Closed under the global context |
| `objdump_locale_ascii` | PropLocale | Closed under the global context |
| `objdump_locale_names_refuted` | PropLocale | Closed under the global context |
| `objdump_cap` | PropObj1 | Closed under the global context |
| `objdump_cap_final` | PropObj1 | Closed under the global context |
| `objdump_cr_irrelevant` | PropObj1 | Closed under the global context |
| `objdump_filename_branch_dead` | PropObj1 | Closed under the global context |
| `objdump_filename_branch_dead_history_refuted` | PropObj1 | Closed under the global context |
| `objdump_filtered_count` | PropObj1 | Closed under the global context |
| `objdump_ignored_never_shown` | PropObj1 | Closed under the global context |
| `objdump_label_at_cap` | PropObj1 | Closed under the global context |
| `objdump_label_definitions` | PropObj1 | Closed under the global context |
| `objdump_label_table` | PropObj1 | Closed under the global context |
| `objdump_last_line_dropped` | PropObj1 | Closed under the global context |
| `objdump_lines_counted` | PropObj1 | Closed under the global context |
| `objdump_no_line_break` | PropObj1 | Closed under the global context |
| `objdump_text_output_lines` | PropObj1 | Closed under the global context |
| `objdump_address_undefined` | PropObj2 | Closed under the global context |
| `objdump_address_value` | PropObj2 | Closed under the global context |
| `objdump_address_wraps` | PropObj2 | Closed under the global context |
| `objdump_instruction_line` | PropObj2 | Closed under the global context |
| `objdump_label_ignored` | PropObj2 | Closed under the global context |
| `objdump_label_shown` | PropObj2 | Closed under the global context |
| `objdump_listing` | PropObj2 | Closed under the global context |
| `objdump_listing_line_start` | PropObj2 | Closed under the global context |
| `objdump_multibyte_columns_refuted` | PropObj2 | Closed under the global context |
| `objdump_opcode_groups` | PropObj2 | Closed under the global context |
| `objdump_overflow_cases` | PropObj2 | Closed under the global context |
| `objdump_pieces` | PropObj2 | Closed under the global context |
| `objdump_pieces_output` | PropObj2 | Closed under the global context |
| `objdump_reference_columns` | PropObj2 | Closed under the global context |
| `objdump_section_line` | PropObj2 | Closed under the global context |
| `objdump_source_line` | PropObj2 | Closed under the global context |
| `objdump_source_line_lost_refuted` | PropObj2 | Closed under the global context |
| `objdump_undefined_sources` | PropObj2 | Closed under the global context |
| `objdump_functions_split` | PropObj3 | Closed under the global context |
| `objdump_library_filter_removes` | PropObj3 | Closed under the global context |
| `objdump_library_function_kept_refuted` | PropObj3 | Closed under the global context |
| `objdump_library_functions_touch_user` | PropObj3 | Closed under the global context |
| `objdump_library_keep` | PropObj3 | Closed under the global context |
| `objdump_library_last_function_kept` | PropObj3 | Closed under the global context |
| `objdump_library_last_function_refuted` | PropObj3 | Closed under the global context |
| `objdump_count_after_cap` | PropObj4 | Closed under the global context |
| `objdump_count_again` | PropObj4 | Closed under the global context |
| `objdump_lead_ignored` | PropObj4 | Closed under the global context |
| `objdump_every_line` | PropObj5 | Closed under the global context |
| `objdump_hidden_ends` | PropObj5 | Closed under the global context |
| `objdump_label_word` | PropObj5 | Closed under the global context |
| `objdump_line_alone` | PropObj5 | Closed under the global context |
| `objdump_open_bracket_refuted` | PropObj5 | Closed under the global context |
| `objdump_references_exact` | PropObj5 | Closed under the global context |
| `objdump_source_column_refuted` | PropObj5 | Closed under the global context |
| `objdump_source_pieces` | PropObj5 | Closed under the global context |
| `objdump_template_reference_refuted` | PropObj5 | Closed under the global context |
| `objdump_word_line` | PropObj5 | Closed under the global context |
| `patterns_are_read` | PropPatterns | Closed under the global context |
| `patterns_of_names` | PropPatterns | Closed under the global context |
| `patterns_of_others` | PropPatterns | Closed under the global context |
| `patterns_of_places` | PropPatterns | Closed under the global context |
| `patterns_of_tests` | PropPatterns | Closed under the global context |
| `json_debug_writer_steps` | PropPretty | Closed under the global context |
| `json_pretty_debug_line_feeds` | PropPretty | Closed under the global context |
| `json_pretty_debug_says` | PropPretty | Closed under the global context |
| `json_pretty_line_feeds` | PropPretty | Closed under the global context |
| `json_pretty_says` | PropPretty | Closed under the global context |
| `json_writer_steps` | PropPretty | Closed under the global context |
| `assigned_labels` | PropRecog | Closed under the global context |
| `assignment_lines` | PropRecog | Closed under the global context |
| `block_marks` | PropRecog | Closed under the global context |
| `comment_lines` | PropRecog | Closed under the global context |
| `d2_lines` | PropRecog | Closed under the global context |
| `dbg_lines` | PropRecog | Closed under the global context |
| `global_symbols` | PropRecog | Closed under the global context |
| `instruction_lines` | PropRecog | Closed under the global context |
| `label_lines` | PropRecog | Closed under the global context |
| `line_kinds` | PropRecog | Closed under the global context |
| `nvcc_comment_lines` | PropRecog | Closed under the global context |
| `nvcc_instruction_lines` | PropRecog | Closed under the global context |
| `section_names` | PropRecog | Closed under the global context |
| `stab_lines` | PropRecog | Closed under the global context |
| `typed_symbols` | PropRecog | Closed under the global context |
| `user_file_names` | PropRecog | Closed under the global context |
| `weak_symbols` | PropRecog | Closed under the global context |
| `objdump_is_its_source` | PropSource | Closed under the global context |
| `source_methods` | PropSource | Closed under the global context |
| `source_objects` | PropSource | Closed under the global context |
| `source_utilities` | PropSource | Closed under the global context |
| `asm_whitespace_directory` | PropSpace | Closed under the global context |
| `asm_whitespace_file_refuted` | PropSpace | Closed under the global context |
| `asm_whitespace_filter` | PropSpace | Closed under the global context |
| `asm_whitespace_output` | PropSpace | Closed under the global context |
| `asm_whitespace_unfair_refuted` | PropSpace | Closed under the global context |
| `text_eol_is_its_source` | PropTextEol | Closed under the global context |
| `text_labels_are_their_source` | PropTextLabels | Closed under the global context |
| `text_marking_is_its_source` | PropTextMark | Closed under the global context |
| `text_use_is_its_source` | PropTextMark | Closed under the global context |
| `text_directive_methods_are_their_source` | PropTextMethods | Closed under the global context |
| `text_label_methods_are_their_source` | PropTextMethods | Closed under the global context |
| `text_line_methods_are_their_source` | PropTextMethods | Closed under the global context |
| `text_places_are_their_source` | PropTextSource | Closed under the global context |
| `text_scanners_are_their_source` | PropTextSource | Closed under the global context |
| `text_tests_are_their_source` | PropTextSource | Closed under the global context |
| `text_parser_is_its_source` | PropTextStream | Closed under the global context |
| `text_removal_is_its_source` | PropTextStream | Closed under the global context |
| `asm_file_exactly` | PropUtf8 | Closed under the global context |
| `asm_utf8` | PropUtf8 | Closed under the global context |
| `cli_utf8` | PropUtf8 | Closed under the global context |
| `objdump_utf8` | PropUtf8 | Closed under the global context |
| `objdump_utf8_refuted` | PropUtf8 | Closed under the global context |
| `characters_counted` | PropUtils | Closed under the global context |
| `command_line` | PropUtils | Closed under the global context |
| `comment_stripped` | PropUtils | Closed under the global context |
| `comment_words_kept` | PropUtils | Closed under the global context |
| `cuda_label_keyword` | PropUtils | Closed under the global context |
| `first_word_stripped` | PropUtils | Closed under the global context |
| `ignored_names` | PropUtils | Closed under the global context |
| `last_word_lost` | PropUtils | Closed under the global context |
| `library_paths` | PropUtils | Closed under the global context |
| `operands_kept` | PropUtils | Closed under the global context |
| `quotes_cut_unique` | PropUtils | Closed under the global context |
| `quotes_kept` | PropUtils | Closed under the global context |
| `regex_groups` | PropUtils | Closed under the global context |
| `regex_match_language` | PropUtils | Closed under the global context |
| `regex_search_language` | PropUtils | Closed under the global context |
| `regex_search_leftmost` | PropUtils | Closed under the global context |
| `tab_stops_missed` | PropUtils | Closed under the global context |
| `tab_stops_reached` | PropUtils | Closed under the global context |
| `tab_stops_refuted` | PropUtils | Closed under the global context |
| `tabs_expanded` | PropUtils | Closed under the global context |
| `used_labels_columns` | PropUtils | Closed under the global context |
| `used_labels_comment_refuted` | PropUtils | Closed under the global context |
| `used_labels_exact` | PropUtils | Closed under the global context |
| `used_labels_shifted` | PropUtils | Closed under the global context |
| `utf8_locale_exists` | PropUtils | Closed under the global context |
| `words_kept` | PropUtils | Closed under the global context |
