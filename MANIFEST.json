{
 "claims": [
  {
   "property": "C01",
   "status": "proved",
   "theorems": [
    "objdump_cr_irrelevant"
   ],
   "note": ""
  },
  {
   "property": "C02",
   "status": "proved",
   "theorems": [
    "objdump_last_line_dropped"
   ],
   "note": ""
  },
  {
   "property": "C03",
   "status": "proved",
   "theorems": [
    "objdump_cap",
    "objdump_cap_final"
   ],
   "note": ""
  },
  {
   "property": "C04",
   "status": "proved",
   "theorems": [
    "objdump_lines_counted",
    "objdump_filtered_count"
   ],
   "note": "assumes fewer than 2^63 newlines"
  },
  {
   "property": "C05",
   "status": "proved",
   "theorems": [
    "objdump_label_table",
    "objdump_label_definitions"
   ],
   "note": "for one call on a fresh parser"
  },
  {
   "property": "C06",
   "status": "proved",
   "theorems": [
    "objdump_label_at_cap",
    "objdump_overflow_cases"
   ],
   "note": "for one call on a fresh parser; both overflow cases are shown to occur"
  },
  {
   "property": "C07",
   "status": "proved",
   "theorems": [
    "objdump_ignored_never_shown"
   ],
   "note": ""
  },
  {
   "property": "C22",
   "status": "proved",
   "theorems": [
    "objdump_no_line_break",
    "objdump_text_output_lines"
   ],
   "note": ""
  },
  {
   "property": "C24",
   "status": "proved",
   "theorems": [
    "objdump_filename_branch_dead",
    "objdump_filename_branch_dead_history_refuted"
   ],
   "note": "true for one call on a fresh parser; false for a second call after an unterminated source line, with a witness"
  },
  {
   "property": "C08",
   "status": "proved",
   "theorems": [
    "objdump_reference_columns"
   ],
   "note": "for one call on a fresh parser and a locale in which ASCII bytes are single characters"
  },
  {
   "property": "C09",
   "status": "proved",
   "theorems": [
    "objdump_multibyte_columns_refuted"
   ],
   "note": "the code violates the selection property of C08 for multibyte text; witness"
  },
  {
   "property": "C10",
   "status": "proved",
   "theorems": [
    "objdump_address_value",
    "objdump_instruction_line"
   ],
   "note": ""
  },
  {
   "property": "C11",
   "status": "proved",
   "theorems": [
    "objdump_address_wraps",
    "objdump_address_undefined"
   ],
   "note": ""
  },
  {
   "property": "C12",
   "status": "proved",
   "theorems": [
    "objdump_undefined_sources"
   ],
   "note": ""
  },
  {
   "property": "C13",
   "status": "proved",
   "theorems": [
    "objdump_instruction_line"
   ],
   "note": "ASCII text shorter than 65533 bytes"
  },
  {
   "property": "C14",
   "status": "proved",
   "theorems": [
    "objdump_source_line",
    "objdump_source_line_lost_refuted"
   ],
   "note": "later lines are those of any well-formed listing; inside an ignored function a line number without tail is lost, with a witness"
  },
  {
   "property": "C15",
   "status": "proved",
   "theorems": [
    "objdump_section_line"
   ],
   "note": "later lines are those of any well-formed listing"
  },
  {
   "property": "C16",
   "status": "proved",
   "theorems": [
    "objdump_label_shown",
    "objdump_label_ignored"
   ],
   "note": "without the library filter, which C17 covers"
  },
  {
   "property": "C17",
   "status": "proved",
   "theorems": [
    "objdump_listing",
    "objdump_listing_line_start"
   ],
   "note": ""
  },
  {
   "property": "C21",
   "status": "proved",
   "theorems": [
    "objdump_pieces",
    "objdump_pieces_output"
   ],
   "note": ""
  },
  {
   "property": "C23",
   "status": "proved",
   "theorems": [
    "objdump_opcode_groups"
   ],
   "note": "for one call on a fresh parser"
  },
  {
   "property": "C25",
   "status": "proved",
   "theorems": [
    "json_escape_lossless"
   ],
   "note": ""
  },
  {
   "property": "C26",
   "status": "proved",
   "theorems": [
    "json_document_says"
   ],
   "note": ""
  },
  {
   "property": "C27",
   "status": "proved",
   "theorems": [
    "json_valid_iff",
    "json_objdump_valid_iff",
    "json_control_characters_refuted"
   ],
   "note": ""
  },
  {
   "property": "C28",
   "status": "proved",
   "theorems": [
    "json_objdump_reproducible",
    "json_text_never_reproducible"
   ],
   "note": ""
  },
  {
   "property": "C29",
   "status": "proved",
   "theorems": [
    "json_file_shown"
   ],
   "note": ""
  },
  {
   "property": "C30",
   "status": "proved",
   "theorems": [
    "json_compat_mode"
   ],
   "note": ""
  },
  {
   "property": "C31",
   "status": "proved",
   "theorems": [
    "json_debug_says",
    "json_debug_grouping_refuted"
   ],
   "note": ""
  },
  {
   "property": "C32",
   "status": "proved",
   "theorems": [
    "asm_label_table"
   ],
   "note": ""
  },
  {
   "property": "C33",
   "status": "proved",
   "theorems": [
    "asm_filters_only_delete"
   ],
   "note": ""
  },
  {
   "property": "C34",
   "status": "proved",
   "theorems": [
    "asm_no_filter_shows_all",
    "asm_no_filter_shows_read"
   ],
   "note": ""
  },
  {
   "property": "C35",
   "status": "proved",
   "theorems": [
    "asm_white_line_moves",
    "asm_white_line_refuted"
   ],
   "note": "a white space line does change the next one; witness and general form"
  },
  {
   "property": "C36",
   "status": "proved",
   "theorems": [
    "asm_carriage_returns_kept",
    "asm_carriage_returns_refuted"
   ],
   "note": "CRLF and LF input differ; witness and general form"
  },
  {
   "property": "C37",
   "status": "proved",
   "theorems": [
    "asm_last_line_parsed"
   ],
   "note": ""
  },
  {
   "property": "C38",
   "status": "proved",
   "theorems": [
    "asm_shown_lines",
    "asm_shown_lines_order"
   ],
   "note": "for input without CUDA function labels"
  },
  {
   "property": "C39",
   "status": "proved",
   "theorems": [
    "asm_shown_lines",
    "asm_shown_lines_order"
   ],
   "note": "for input without CUDA function labels"
  },
  {
   "property": "C40",
   "status": "proved",
   "theorems": [
    "asm_library_filter_empty",
    "asm_library_filter_refuted"
   ],
   "note": ""
  },
  {
   "property": "C45",
   "status": "proved",
   "theorems": [
    "asm_no_undefined_behaviour",
    "asm_label_table_indices"
   ],
   "note": "input shorter than 2^31 bytes; divergence is C43"
  },
  {
   "property": "C48",
   "status": "proved",
   "theorems": [
    "asm_references_defined"
   ],
   "note": "input shorter than 2^31 bytes"
  },
  {
   "property": "C49",
   "status": "proved",
   "theorems": [
    "asm_line_count"
   ],
   "note": ""
  },
  {
   "property": "C51",
   "status": "proved",
   "theorems": [
    "ignored_names"
   ],
   "note": ""
  },
  {
   "property": "C52",
   "status": "proved",
   "theorems": [
    "tabs_expanded"
   ],
   "note": ""
  },
  {
   "property": "C53",
   "status": "proved",
   "theorems": [
    "tab_stops_refuted",
    "tab_stops_missed",
    "tab_stops_reached"
   ],
   "note": "the code violates the expected tab stops; witness and general form"
  },
  {
   "property": "C54",
   "status": "proved",
   "theorems": [
    "words_kept"
   ],
   "note": ""
  },
  {
   "property": "C55",
   "status": "proved",
   "theorems": [
    "quotes_kept",
    "quotes_cut_unique"
   ],
   "note": ""
  },
  {
   "property": "C56",
   "status": "proved",
   "theorems": [
    "comment_stripped",
    "comment_words_kept",
    "last_word_lost"
   ],
   "note": ""
  },
  {
   "property": "C57",
   "status": "proved",
   "theorems": [
    "first_word_stripped",
    "operands_kept"
   ],
   "note": ""
  },
  {
   "property": "C58",
   "status": "proved",
   "theorems": [
    "used_labels_exact",
    "used_labels_columns"
   ],
   "note": "columns for lines shorter than 65535 bytes and an ASCII-compatible locale"
  },
  {
   "property": "C59",
   "status": "proved",
   "theorems": [
    "used_labels_shifted",
    "used_labels_comment_refuted"
   ],
   "note": "the code violates the expected selection; witness and exact shift"
  },
  {
   "property": "C60",
   "status": "proved",
   "theorems": [
    "characters_counted",
    "utf8_locale_exists"
   ],
   "note": ""
  },
  {
   "property": "C61",
   "status": "proved",
   "theorems": [
    "regex_match_language",
    "regex_search_language",
    "regex_search_leftmost",
    "regex_groups"
   ],
   "note": "about the model of the CTRE matcher; CTRE itself is a dependency outside the repository"
  },
  {
   "property": "C62",
   "status": "proved",
   "theorems": [
    "cuda_label_keyword"
   ],
   "note": ""
  },
  {
   "property": "C63",
   "status": "proved",
   "theorems": [
    "library_paths"
   ],
   "note": ""
  },
  {
   "property": "C64",
   "status": "proved",
   "theorems": [
    "command_line"
   ],
   "note": ""
  },
  {
   "property": "C41",
   "status": "proved",
   "theorems": [
    "asm_used_labels_reached"
   ],
   "note": ""
  },
  {
   "property": "C42",
   "status": "proved",
   "theorems": [
    "asm_search_exact",
    "asm_some_label_marked",
    "asm_used_label_unmarked_refuted"
   ],
   "note": "the code violates the expected completeness; witness for every hash order, and the part that holds"
  },
  {
   "property": "C43",
   "status": "proved",
   "theorems": [
    "asm_terminates",
    "asm_endless_refuted"
   ],
   "note": "the code violates termination in general; witness for every hash order and depth"
  },
  {
   "property": "C44",
   "status": "proved",
   "theorems": [
    "asm_same_result",
    "asm_depth_irrelevant",
    "asm_hash_order_matters_refuted",
    "asm_history_matters_refuted"
   ],
   "note": "the code violates determinism with the unused-labels filter; witnesses"
  },
  {
   "property": "C46",
   "status": "proved",
   "theorems": [
    "asm_views_alive_reading",
    "asm_views_alive"
   ],
   "note": ""
  },
  {
   "property": "C47",
   "status": "proved",
   "theorems": [
    "asm_views_comment_filter_refuted"
   ],
   "note": "the code violates the lifetime property with the comment filter; witness"
  },
  {
   "property": "C50",
   "status": "proved",
   "theorems": [
    "asm_locations",
    "asm_loc_in_force",
    "asm_loc_ended",
    "asm_file_lines",
    "asm_file_exactly"
   ],
   "note": ""
  },
  {
   "property": "C18",
   "status": "proved",
   "theorems": [
    "objdump_library_functions_touch_user",
    "objdump_functions_split"
   ],
   "note": ""
  },
  {
   "property": "C19",
   "status": "proved",
   "theorems": [
    "objdump_library_function_kept_refuted",
    "objdump_library_last_function_refuted",
    "objdump_library_last_function_kept"
   ],
   "note": "the code violates the expected removal; witnesses, and the universal form for the last function"
  },
  {
   "property": "C20",
   "status": "proved",
   "theorems": [
    "objdump_library_filter_removes",
    "objdump_functions_split",
    "objdump_library_keep"
   ],
   "note": ""
  },
  {
   "property": "C65",
   "status": "proved",
   "theorems": [
    "line_kinds",
    "block_marks",
    "user_file_names"
   ],
   "note": ""
  },
  {
   "property": "C66",
   "status": "proved",
   "theorems": [
    "comment_lines",
    "nvcc_comment_lines"
   ],
   "note": ""
  },
  {
   "property": "C67",
   "status": "proved",
   "theorems": [
    "label_lines",
    "assigned_labels"
   ],
   "note": ""
  },
  {
   "property": "C68",
   "status": "proved",
   "theorems": [
    "global_symbols",
    "weak_symbols",
    "typed_symbols"
   ],
   "note": ""
  },
  {
   "property": "C69",
   "status": "proved",
   "theorems": [
    "section_names"
   ],
   "note": ""
  },
  {
   "property": "C70",
   "status": "proved",
   "theorems": [
    "stab_lines",
    "dbg_lines",
    "d2_lines"
   ],
   "note": ""
  },
  {
   "property": "C71",
   "status": "proved",
   "theorems": [
    "instruction_lines",
    "assignment_lines",
    "nvcc_instruction_lines"
   ],
   "note": ""
  },
  {
   "property": "C72",
   "status": "proved",
   "theorems": [
    "cli_exit",
    "cli_debug_file"
   ],
   "note": ""
  },
  {
   "property": "C73",
   "status": "proved",
   "theorems": [
    "cli_reads_stdin",
    "cli_reads_file"
   ],
   "note": ""
  },
  {
   "property": "C74",
   "status": "proved",
   "theorems": [
    "cli_options"
   ],
   "note": ""
  },
  {
   "property": "C75",
   "status": "proved",
   "theorems": [
    "cli_outcomes",
    "cli_nothing_to_read"
   ],
   "note": ""
  },
  {
   "property": "C76",
   "status": "proved",
   "theorems": [
    "json_asm_valid",
    "json_asm_valid_iff",
    "json_asm_crlf",
    "cli_json_text"
   ],
   "note": ""
  },
  {
   "property": "C77",
   "status": "proved",
   "theorems": [
    "objdump_lead_ignored"
   ],
   "note": ""
  },
  {
   "property": "C78",
   "status": "proved",
   "theorems": [
    "objdump_count_again",
    "objdump_count_after_cap"
   ],
   "note": ""
  },
  {
   "property": "C79",
   "status": "proved",
   "theorems": [
    "asm_removed_exactly",
    "asm_removal_rule",
    "asm_no_parent_of_functions"
   ],
   "note": ""
  },
  {
   "property": "C80",
   "status": "proved",
   "theorems": [
    "asm_stored_exactly",
    "asm_verdicts",
    "asm_result_exactly"
   ],
   "note": ""
  },
  {
   "property": "C81",
   "status": "proved",
   "theorems": [
    "asm_line_record",
    "asm_internal_names"
   ],
   "note": ""
  },
  {
   "property": "C82",
   "status": "proved",
   "theorems": [
    "asm_section_in_force",
    "asm_label_in_force",
    "asm_parent_in_force",
    "asm_nothing_in_force",
    "asm_setting_lines"
   ],
   "note": ""
  },
  {
   "property": "C83",
   "status": "proved",
   "theorems": [
    "asm_reference_tables",
    "asm_line_entries"
   ],
   "note": ""
  },
  {
   "property": "C84",
   "status": "proved",
   "theorems": [
    "asm_alias_table",
    "asm_alias_made"
   ],
   "note": ""
  },
  {
   "property": "C85",
   "status": "proved",
   "theorems": [
    "asm_label_location",
    "asm_label_takes_next",
    "asm_label_keeps_own"
   ],
   "note": ""
  },
  {
   "property": "C86",
   "status": "proved",
   "theorems": [
    "asm_result_references"
   ],
   "note": ""
  },
  {
   "property": "C87",
   "status": "proved",
   "theorems": [
    "objdump_every_line"
   ],
   "note": ""
  },
  {
   "property": "C88",
   "status": "proved",
   "theorems": [
    "objdump_word_line"
   ],
   "note": ""
  },
  {
   "property": "C89",
   "status": "proved",
   "theorems": [
    "objdump_source_pieces",
    "objdump_source_column_refuted"
   ],
   "note": ""
  },
  {
   "property": "C90",
   "status": "proved",
   "theorems": [
    "objdump_line_alone",
    "objdump_open_bracket_refuted"
   ],
   "note": ""
  },
  {
   "property": "C91",
   "status": "proved",
   "theorems": [
    "objdump_references_exact",
    "objdump_template_reference_refuted"
   ],
   "note": ""
  },
  {
   "property": "C92",
   "status": "proved",
   "theorems": [
    "objdump_label_word"
   ],
   "note": ""
  },
  {
   "property": "C93",
   "status": "proved",
   "theorems": [
    "objdump_hidden_ends"
   ],
   "note": ""
  },
  {
   "property": "C94",
   "status": "proved",
   "theorems": [
    "asm_marks_take_roots",
    "asm_one_root_one_mark",
    "asm_later_parse_unmarked"
   ],
   "note": ""
  },
  {
   "property": "C95",
   "status": "proved",
   "theorems": [
    "asm_marks_exactly"
   ],
   "note": ""
  },
  {
   "property": "C96",
   "status": "proved",
   "theorems": [
    "asm_calls_defined",
    "asm_reuse_out_of_range",
    "asm_second_call_refuted"
   ],
   "note": ""
  },
  {
   "property": "C97",
   "status": "proved",
   "theorems": [
    "asm_visited_names",
    "asm_visited_left",
    "asm_dead_view_read",
    "asm_parsed_twice"
   ],
   "note": ""
  },
  {
   "property": "C98",
   "status": "proved",
   "theorems": [
    "asm_calls_counted",
    "asm_calls_follow_chains",
    "asm_search_exponential",
    "asm_ladder_length"
   ],
   "note": ""
  },
  {
   "property": "C99",
   "status": "proved",
   "theorems": [
    "asm_recursion_bounded",
    "asm_recursion_follows_chains",
    "asm_recursion_deep"
   ],
   "note": ""
  },
  {
   "property": "C100",
   "status": "proved",
   "theorems": [
    "asm_ends_unless_balanced",
    "asm_lines_unless_balanced",
    "asm_endless_balanced"
   ],
   "note": "between the two lie rings that visit a name twice"
  },
  {
   "property": "C101",
   "status": "proved",
   "theorems": [
    "squash_settles",
    "squash_quotes_settles",
    "tabs_settle",
    "label_margin_settles",
    "comment_settles_refuted",
    "strings_run_together"
   ],
   "note": ""
  },
  {
   "property": "C102",
   "status": "proved",
   "theorems": [
    "asm_shown_settles",
    "asm_shown_settles_refuted"
   ],
   "note": ""
  },
  {
   "property": "C103",
   "status": "proved",
   "theorems": [
    "asm_directives_filter",
    "asm_filter_moves_labels_refuted",
    "asm_filter_drops_label_refuted"
   ],
   "note": ""
  },
  {
   "property": "C104",
   "status": "proved",
   "theorems": [
    "asm_comment_filter",
    "asm_at_label_dropped_refuted",
    "asm_comment_filter_changes_refuted"
   ],
   "note": ""
  },
  {
   "property": "C105",
   "status": "proved",
   "theorems": [
    "asm_locale",
    "asm_locale_ascii",
    "asm_locale_ends_refuted"
   ],
   "note": ""
  },
  {
   "property": "C106",
   "status": "proved",
   "theorems": [
    "objdump_locale",
    "objdump_locale_ascii",
    "objdump_locale_names_refuted"
   ],
   "note": ""
  },
  {
   "property": "C107",
   "status": "proved",
   "theorems": [
    "asm_utf8",
    "cli_utf8",
    "asm_file_exactly"
   ],
   "note": ""
  },
  {
   "property": "C108",
   "status": "proved",
   "theorems": [
    "objdump_utf8",
    "objdump_utf8_refuted"
   ],
   "note": "the refutation shows the JSON that is not well-formed"
  },
  {
   "property": "C109",
   "status": "proved",
   "theorems": [
    "asm_reading_on",
    "asm_reading_on_location_refuted",
    "asm_reading_on_unused_refuted"
   ],
   "note": "the refutations are the exceptions named in the statement"
  },
  {
   "property": "C110",
   "status": "proved",
   "theorems": [
    "objdump_reading_on",
    "objdump_reading_on_library",
    "objdump_reading_on_library_refuted"
   ],
   "note": "the refutation is the exception named in the statement"
  },
  {
   "property": "C111",
   "status": "proved",
   "theorems": [
    "asm_whitespace_filter",
    "asm_whitespace_output",
    "asm_whitespace_directory",
    "asm_whitespace_unfair_refuted",
    "asm_whitespace_file_refuted"
   ],
   "note": "the first refutation shows that the condition is needed, the second the lost file name"
  },
  {
   "property": "C112",
   "status": "proved",
   "theorems": [
    "json_writer_steps",
    "json_debug_writer_steps"
   ],
   "note": ""
  },
  {
   "property": "C113",
   "status": "proved",
   "theorems": [
    "json_pretty_line_feeds",
    "json_pretty_debug_line_feeds",
    "json_pretty_says",
    "json_pretty_debug_says"
   ],
   "note": ""
  },
  {
   "property": "C114",
   "status": "proved",
   "theorems": [
    "patterns_are_read",
    "patterns_of_tests",
    "patterns_of_names",
    "patterns_of_places",
    "patterns_of_others"
   ],
   "note": ""
  },
  {
   "property": "C115",
   "status": "proved",
   "theorems": [
    "source_objects",
    "source_utilities",
    "source_methods",
    "objdump_is_its_source"
   ],
   "note": "fromStream is stated for a newly made object."
  },
  {
   "property": "C116",
   "status": "proved",
   "theorems": [
    "text_tests_are_their_source",
    "text_places_are_their_source",
    "text_scanners_are_their_source"
   ],
   "note": ""
  },
  {
   "property": "C117",
   "status": "proved",
   "theorems": [
    "text_directive_methods_are_their_source",
    "text_line_methods_are_their_source",
    "text_label_methods_are_their_source"
   ],
   "note": ""
  },
  {
   "property": "C118",
   "status": "proved",
   "theorems": [
    "text_eol_is_its_source"
   ],
   "note": ""
  },
  {
   "property": "C119",
   "status": "proved",
   "theorems": [
    "text_use_is_its_source",
    "text_marking_is_its_source"
   ],
   "note": ""
  },
  {
   "property": "C120",
   "status": "proved",
   "theorems": [
    "text_removal_is_its_source",
    "text_parser_is_its_source"
   ],
   "note": "For inputs of fewer than 2^27 bytes, so that the line and column counters of the interpreted program cannot overflow."
  },
  {
   "property": "C121",
   "status": "proved",
   "theorems": [
    "asm_dump_says"
   ],
   "note": ""
  },
  {
   "property": "C122",
   "status": "proved",
   "theorems": [
    "text_output_is_json_text",
    "cli_outputs_agree"
   ],
   "note": ""
  },
  {
   "property": "C123",
   "status": "proved",
   "theorems": [
    "text_labels_are_their_source"
   ],
   "note": ""
  }
 ]
}