c("C01", "proved", "objdump_cr_irrelevant")
c("C02", "proved", "objdump_last_line_dropped")
c("C03", "proved", "objdump_cap objdump_cap_final")
c("C04", "proved", "objdump_lines_counted objdump_filtered_count", "assumes fewer than 2^63 newlines")
c("C05", "proved", "objdump_label_table objdump_label_definitions", "for one call on a fresh parser")
c("C06", "proved", "objdump_label_at_cap objdump_overflow_cases", "for one call on a fresh parser; both overflow cases are shown to occur")
c("C07", "proved", "objdump_ignored_never_shown")
c("C22", "proved", "objdump_no_line_break objdump_text_output_lines")
c("C24", "proved", "objdump_filename_branch_dead objdump_filename_branch_dead_history_refuted",
  "true for one call on a fresh parser; false for a second call after an unterminated source line, with a witness")
c("C08", "proved", "objdump_reference_columns", "for one call on a fresh parser and a locale in which ASCII bytes are single characters")
c("C09", "proved", "objdump_multibyte_columns_refuted", "the code violates the selection property of C08 for multibyte text; witness")
c("C10", "proved", "objdump_address_value objdump_instruction_line")
c("C11", "proved", "objdump_address_wraps objdump_address_undefined")
c("C12", "proved", "objdump_undefined_sources")
c("C13", "proved", "objdump_instruction_line", "ASCII text shorter than 65533 bytes")
c("C14", "proved", "objdump_source_line objdump_source_line_lost_refuted",
  "later lines are those of any well-formed listing; inside an ignored function a line number without tail is lost, with a witness")
c("C15", "proved", "objdump_section_line", "later lines are those of any well-formed listing")
c("C16", "proved", "objdump_label_shown objdump_label_ignored", "without the library filter, which C17 covers")
c("C17", "proved", "objdump_listing objdump_listing_line_start")
c("C21", "proved", "objdump_pieces objdump_pieces_output")
c("C23", "proved", "objdump_opcode_groups", "for one call on a fresh parser")
c("C25", "proved", "json_escape_lossless")
c("C26", "proved", "json_document_says")
c("C27", "proved", "json_valid_iff json_objdump_valid_iff json_control_characters_refuted")
c("C28", "proved", "json_objdump_reproducible json_text_never_reproducible")
c("C29", "proved", "json_file_shown")
c("C30", "proved", "json_compat_mode")
c("C31", "proved", "json_debug_says json_debug_grouping_refuted")
c("C32", "proved", "asm_label_table")
c("C33", "proved", "asm_filters_only_delete")
c("C34", "proved", "asm_no_filter_shows_all asm_no_filter_shows_read")
c("C35", "proved", "asm_white_line_moves asm_white_line_refuted", "a white space line does change the next one; witness and general form")
c("C36", "proved", "asm_carriage_returns_kept asm_carriage_returns_refuted", "CRLF and LF input differ; witness and general form")
c("C37", "proved", "asm_last_line_parsed")
c("C38", "proved", "asm_shown_lines asm_shown_lines_order", "for input without CUDA function labels")
c("C39", "proved", "asm_shown_lines asm_shown_lines_order", "for input without CUDA function labels")
c("C40", "proved", "asm_library_filter_empty asm_library_filter_refuted")
c("C45", "proved", "asm_no_undefined_behaviour asm_label_table_indices", "input shorter than 2^31 bytes; divergence is C43")
c("C48", "proved", "asm_references_defined", "input shorter than 2^31 bytes")
c("C49", "proved", "asm_line_count")
c("C51", "proved", "ignored_names")
c("C52", "proved", "tabs_expanded")
c("C53", "proved", "tab_stops_refuted tab_stops_missed tab_stops_reached", "the code violates the expected tab stops; witness and general form")
c("C54", "proved", "words_kept")
c("C55", "proved", "quotes_kept quotes_cut_unique")
c("C56", "proved", "comment_stripped comment_words_kept last_word_lost")
c("C57", "proved", "first_word_stripped operands_kept")
c("C58", "proved", "used_labels_exact used_labels_columns", "columns for lines shorter than 65535 bytes and an ASCII-compatible locale")
c("C59", "proved", "used_labels_shifted used_labels_comment_refuted", "the code violates the expected selection; witness and exact shift")
c("C60", "proved", "characters_counted utf8_locale_exists")
c("C61", "proved", "regex_match_language regex_search_language regex_search_leftmost regex_groups",
  "about the model of the CTRE matcher; CTRE itself is a dependency outside the repository")
c("C62", "proved", "cuda_label_keyword")
c("C63", "proved", "library_paths")
c("C64", "proved", "command_line")
c("C41", "proved", "asm_used_labels_reached")
c("C42", "proved", "asm_search_exact asm_some_label_marked asm_used_label_unmarked_refuted",
  "the code violates the expected completeness; witness for every hash order, and the part that holds")
c("C43", "proved", "asm_terminates asm_endless_refuted", "the code violates termination in general; witness for every hash order and depth")
c("C44", "proved", "asm_same_result asm_depth_irrelevant asm_hash_order_matters_refuted asm_history_matters_refuted",
  "the code violates determinism with the unused-labels filter; witnesses")
c("C46", "proved", "asm_views_alive_reading asm_views_alive")
c("C47", "proved", "asm_views_comment_filter_refuted", "the code violates the lifetime property with the comment filter; witness")
c("C50", "proved", "asm_locations asm_loc_in_force asm_loc_ended asm_file_lines asm_file_exactly")
c("C18", "proved", "objdump_library_functions_touch_user objdump_functions_split")
c("C19", "proved", "objdump_library_function_kept_refuted objdump_library_last_function_refuted objdump_library_last_function_kept",
  "the code violates the expected removal; witnesses, and the universal form for the last function")
c("C20", "proved", "objdump_library_filter_removes objdump_functions_split objdump_library_keep")
c("C65", "proved", "line_kinds block_marks user_file_names")
c("C66", "proved", "comment_lines nvcc_comment_lines")
c("C67", "proved", "label_lines assigned_labels")
c("C68", "proved", "global_symbols weak_symbols typed_symbols")
c("C69", "proved", "section_names")
c("C70", "proved", "stab_lines dbg_lines d2_lines")
c("C71", "proved", "instruction_lines assignment_lines nvcc_instruction_lines")
c("C72", "proved", "cli_exit cli_debug_file")
c("C73", "proved", "cli_reads_stdin cli_reads_file")
c("C74", "proved", "cli_options")
c("C75", "proved", "cli_outcomes cli_nothing_to_read")
c("C76", "proved", "json_asm_valid json_asm_valid_iff json_asm_crlf cli_json_text")
c("C77", "proved", "objdump_lead_ignored")
c("C78", "proved", "objdump_count_again objdump_count_after_cap")
c("C79", "proved", "asm_removed_exactly asm_removal_rule asm_no_parent_of_functions")
c("C80", "proved", "asm_stored_exactly asm_verdicts asm_result_exactly")
c("C81", "proved", "asm_line_record asm_internal_names")
c("C82", "proved", "asm_section_in_force asm_label_in_force asm_parent_in_force asm_nothing_in_force asm_setting_lines")
c("C83", "proved", "asm_reference_tables asm_line_entries")
c("C84", "proved", "asm_alias_table asm_alias_made")
c("C85", "proved", "asm_label_location asm_label_takes_next asm_label_keeps_own")
c("C86", "proved", "asm_result_references")
c("C87", "proved", "objdump_every_line")
c("C88", "proved", "objdump_word_line")
c("C89", "proved", "objdump_source_pieces objdump_source_column_refuted")
c("C90", "proved", "objdump_line_alone objdump_open_bracket_refuted")
c("C91", "proved", "objdump_references_exact objdump_template_reference_refuted")
c("C92", "proved", "objdump_label_word")
c("C93", "proved", "objdump_hidden_ends")
c("C94", "proved", "asm_marks_take_roots asm_one_root_one_mark asm_later_parse_unmarked")
c("C95", "proved", "asm_marks_exactly")
c("C96", "proved", "asm_calls_defined asm_reuse_out_of_range asm_second_call_refuted")
c("C97", "proved", "asm_visited_names asm_visited_left asm_dead_view_read asm_parsed_twice")
c("C98", "proved", "asm_calls_counted asm_calls_follow_chains asm_search_exponential asm_ladder_length")
c("C99", "proved", "asm_recursion_bounded asm_recursion_follows_chains asm_recursion_deep")
c("C100", "proved", "asm_ends_unless_balanced asm_lines_unless_balanced asm_endless_balanced", "between the two lie rings that visit a name twice")
c("C101", "proved", "squash_settles squash_quotes_settles tabs_settle label_margin_settles comment_settles_refuted strings_run_together")
c("C102", "proved", "asm_shown_settles asm_shown_settles_refuted")
c("C103", "proved", "asm_directives_filter asm_filter_moves_labels_refuted asm_filter_drops_label_refuted")
c("C104", "proved", "asm_comment_filter asm_at_label_dropped_refuted asm_comment_filter_changes_refuted")
c("C105", "proved", "asm_locale asm_locale_ascii asm_locale_ends_refuted")
c("C106", "proved", "objdump_locale objdump_locale_ascii objdump_locale_names_refuted")
c("C107", "proved", "asm_utf8 cli_utf8 asm_file_exactly")
c("C108", "proved", "objdump_utf8 objdump_utf8_refuted", "the refutation shows the JSON that is not well-formed")
c("C109", "proved", "asm_reading_on asm_reading_on_location_refuted asm_reading_on_unused_refuted", "the refutations are the exceptions named in the statement")
c("C110", "proved", "objdump_reading_on objdump_reading_on_library objdump_reading_on_library_refuted", "the refutation is the exception named in the statement")
c("C111", "proved", "asm_whitespace_filter asm_whitespace_output asm_whitespace_directory asm_whitespace_unfair_refuted asm_whitespace_file_refuted", "the first refutation shows that the condition is needed, the second the lost file name")
c("C112", "proved", "json_writer_steps json_debug_writer_steps", "")
c("C113", "proved", "json_pretty_line_feeds json_pretty_debug_line_feeds json_pretty_says json_pretty_debug_says", "")
c("C114", "proved", "patterns_are_read patterns_of_tests patterns_of_names patterns_of_places patterns_of_others", "")
c("C115", "proved", "source_objects source_utilities source_methods objdump_is_its_source", "fromStream is stated for a newly made object.")
c("C116", "proved", "text_tests_are_their_source text_places_are_their_source text_scanners_are_their_source", "")
c("C117", "proved", "text_directive_methods_are_their_source text_line_methods_are_their_source text_label_methods_are_their_source", "")
c("C118", "proved", "text_eol_is_its_source", "")
c("C119", "proved", "text_use_is_its_source text_marking_is_its_source", "")
c("C120", "proved", "text_removal_is_its_source text_parser_is_its_source", "For inputs of fewer than 2^27 bytes, so that the line and column counters of the interpreted program cannot overflow.")
c("C121", "proved", "asm_dump_says", "")
c("C122", "proved", "text_output_is_json_text cli_outputs_agree", "")
c("C123", "proved", "text_labels_are_their_source", "")
