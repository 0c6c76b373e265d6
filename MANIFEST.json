{
 "claims": [
  {
   "property": "C01",
   "status": "proved",
   "theorems": [
    "C01_next_progress",
    "C01_lexer_terminates"
   ],
   "note": "Err items do not exist in the model because the code never constructs one (lexer.rs:250-724)."
  },
  {
   "property": "C02",
   "status": "proved",
   "theorems": [
    "C02_span_in_bounds",
    "C02_spans_ordered"
   ],
   "note": ""
  },
  {
   "property": "C03",
   "status": "proved",
   "theorems": [
    "C03_token_text_is_slice"
   ],
   "note": ""
  },
  {
   "property": "C04",
   "status": "proved",
   "theorems": [
    "C04_input_is_tokens_and_layout",
    "C04_only_layout_dropped",
    "C04_unconditional_refuted"
   ],
   "note": "The unconditional claim is refuted by a multi-byte string literal; what is lost is characterised exactly."
  },
  {
   "property": "C05",
   "status": "proved",
   "theorems": [
    "C05_ascii_never_panics",
    "C05_panic_iff_bad_word",
    "C05_bad_word_is_multibyte",
    "C05_panic_freedom_refuted"
   ],
   "note": ""
  },
  {
   "property": "C06",
   "status": "proved",
   "theorems": [
    "C06_keyword_iff_whole_word",
    "C06_words_not_split",
    "C06_bystr_exception"
   ],
   "note": ""
  },
  {
   "property": "C07",
   "status": "proved",
   "theorems": [
    "C07_lexing_inverts_printing"
   ],
   "note": ""
  },
  {
   "property": "C08",
   "status": "proved",
   "theorems": [
    "C08_comment_invisible",
    "C08_comment_invisible_anywhere",
    "C08_comments_do_not_nest",
    "C08_unterminated_comment"
   ],
   "note": ""
  },
  {
   "property": "C09",
   "status": "proved",
   "theorems": [
    "C09_line_counts_layout_newlines",
    "C09_line_at_most_true_line",
    "C09_line_exact_without_multiline_pieces",
    "C09_true_line_refuted"
   ],
   "note": ""
  },
  {
   "property": "C10",
   "status": "proved",
   "theorems": [
    "C10_column_span",
    "C10_column_exact",
    "C10_column_zero_at_line_start",
    "C10_column_after_space",
    "C10_true_column_refuted"
   ],
   "note": ""
  },
  {
   "property": "C11",
   "status": "proved",
   "theorems": [
    "C11_accepted_is_derived",
    "C11_accepted_text_is_derived"
   ],
   "note": ""
  },
  {
   "property": "C12",
   "status": "proved",
   "theorems": [
    "C12_derived_is_accepted",
    "C12_derived_text_is_accepted"
   ],
   "note": ""
  },
  {
   "property": "C13",
   "status": "proved",
   "theorems": [
    "C13_unambiguous"
   ],
   "note": ""
  },
  {
   "property": "C16",
   "status": "proved",
   "theorems": [
    "C16_error_at_first_offending_token",
    "C16_error_at_end_of_input",
    "C16_panic_is_the_lexers"
   ],
   "note": ""
  },
  {
   "property": "C15",
   "status": "proved",
   "theorems": [
    "C15_positions_do_not_matter",
    "C15_from_str_depends_on_tokens",
    "C15_layout_does_not_matter"
   ],
   "note": "Error positions are compared by token and index."
  },
  {
   "property": "C37",
   "status": "proved",
   "theorems": [
    "C37_ok",
    "C37_error",
    "C37_panic",
    "C37_total",
    "C37_no_unknown"
   ],
   "note": ""
  },
  {
   "property": "C41",
   "status": "proved",
   "theorems": [
    "C41_ast_is_what_was_read",
    "C41_ast_of_text"
   ],
   "note": ""
  },
  {
   "property": "C42",
   "status": "proved",
   "theorems": [
    "C42_written_ast_is_read_back",
    "C42_any_layout",
    "C42_reprinting"
   ],
   "note": "Writing chooses the shortest form at the three places where the grammar loses information."
  },
  {
   "property": "C17",
   "status": "proved",
   "theorems": [
    "C17_contract_name"
   ],
   "note": ""
  },
  {
   "property": "C18",
   "status": "proved",
   "theorems": [
    "C18_init_params"
   ],
   "note": "Types of annotations outside the reading relation says_type (Event, namespaces, address keys, special address fields) are the subject of C26-C29."
  },
  {
   "property": "C19",
   "status": "proved",
   "theorems": [
    "C19_fields",
    "C19_field_names"
   ],
   "note": ""
  },
  {
   "property": "C20",
   "status": "proved",
   "theorems": [
    "C20_transitions",
    "C20_transition_names"
   ],
   "note": ""
  },
  {
   "property": "C21",
   "status": "proved",
   "theorems": [
    "C21_only_the_signature_matters"
   ],
   "note": ""
  },
  {
   "property": "C22",
   "status": "proved",
   "theorems": [
    "C22_field_type",
    "C22_spelled_type"
   ],
   "note": ""
  },
  {
   "property": "C23",
   "status": "proved",
   "theorems": [
    "C23_type_pushes_one",
    "C23_declaration_pushes_one",
    "C23_transition_restores_the_stack",
    "C23_field_restores_the_stack"
   ],
   "note": ""
  },
  {
   "property": "C24",
   "status": "proved",
   "theorems": [
    "C24_supported_denotes",
    "C24_supported_programs_succeed"
   ],
   "note": ""
  },
  {
   "property": "C25",
   "status": "proved",
   "theorems": [
    "C25_first_undenoted_type_panics",
    "C25_undenoted_type_never_accepted",
    "C25_unsupported_denotes_nothing",
    "C25_unsupported_types_panic"
   ],
   "note": ""
  },
  {
   "property": "C36",
   "status": "proved",
   "theorems": [
    "C36_described_program",
    "C36_any_layout",
    "C36_spelled_contract",
    "C36_spelled_unsupported",
    "C36_spelled_with_spaces"
   ],
   "note": ""
  },
  {
   "property": "C29",
   "status": "proved",
   "theorems": [
    "C29_errors_end_the_visit",
    "C29_address_types",
    "C29_builtin_argument",
    "C29_every_error_aborts_refuted",
    "C29_address_field_stolen"
   ],
   "note": "\"every error aborts\" is refuted; what holds instead is proved"
  },
  {
   "property": "C30",
   "status": "proved",
   "theorems": [
    "C30_skip",
    "C30_enter_error",
    "C30_enter_panic",
    "C30_depth_first",
    "C30_one_traversal",
    "C30_recorded"
   ],
   "note": ""
  },
  {
   "property": "C31",
   "status": "proved",
   "theorems": [
    "C31_push_pop",
    "C31_visit",
    "C31_declarations_bracketed",
    "C31_declarations_balanced",
    "C31_balance_refuted"
   ],
   "note": ""
  },
  {
   "property": "C32",
   "status": "proved",
   "theorems": [
    "C32_let_panics",
    "C32_libraries"
   ],
   "note": ""
  },
  {
   "property": "C26",
   "status": "proved",
   "theorems": [
    "C26_namespaces_dropped",
    "C26_field_other",
    "C26_says_reads",
    "C26_transition_panics",
    "C26_map_value",
    "C26_any_transition_panics_refuted"
   ],
   "note": "from_str level; the unrestricted transition claim is refuted by a witness"
  },
  {
   "property": "C27",
   "status": "proved",
   "theorems": [
    "C27_address_key_never_accepted",
    "C27_address_key_error",
    "C27_address_key_panic",
    "C27_every_address_key_rejected_refuted"
   ],
   "note": "any position outside address fields; the unrestricted claim is refuted by a witness"
  },
  {
   "property": "C28",
   "status": "proved",
   "theorems": [
    "C28_event_field_is_the_contract",
    "C28_second_event_field",
    "C28_event_field_with_params",
    "C28_event_param",
    "C28_event_transition",
    "C28_event_is_other_event_refuted"
   ],
   "note": "the naive claim is refuted, the actual behaviour proved"
  },
  {
   "property": "C33",
   "status": "proved",
   "theorems": [
    "C33_bystr_sizes",
    "C33_leading_zeros"
   ],
   "note": ""
  },
  {
   "property": "C34",
   "status": "proved",
   "theorems": [
    "C34_panics_iff_missing",
    "C34_last_arguments"
   ],
   "note": ""
  },
  {
   "property": "C35",
   "status": "proved",
   "theorems": [
    "C35_every_type",
    "C35_display_round_trip",
    "C35_map_refuted",
    "C35_address_fields_refuted"
   ],
   "note": "every producible type: round trip or syntax error; Map and address types with fields are refuted, as the property says"
  },
  {
   "property": "C38",
   "status": "proved",
   "theorems": [
    "C38_names_in_order",
    "C38_name_shapes"
   ],
   "note": ""
  },
  {
   "property": "C39",
   "status": "proved",
   "theorems": [
    "C39_parse_reads_the_file",
    "C39_io_error_iff",
    "C39_text_is_unique",
    "C39_only_this_file"
   ],
   "note": ""
  },
  {
   "property": "C40",
   "status": "proved",
   "theorems": [
    "C40_accepted_starts_with_version",
    "C40_no_version_is_an_error",
    "C40_empty_is_an_error",
    "C40_readme_refuted"
   ],
   "note": "the README example is refuted, as the property says"
  },
  {
   "property": "C14",
   "status": "proved",
   "theorems": [
    "C14_spans",
    "C14_nested",
    "C14_import_list",
    "C14_imports_of_program",
    "C14_address_kind",
    "C14_import_span_refuted"
   ],
   "note": ""
  },
  {
   "property": "C43",
   "status": "proved",
   "theorems": [
    "C43_lexer_is_segmentation",
    "C43_one_segmentation",
    "C43_always_segmented",
    "C43_character_classes"
   ],
   "note": ""
  },
  {
   "property": "C44",
   "status": "proved",
   "theorems": [
    "C44_listed_tokens_fit",
    "C44_listed_tokens_continue",
    "C44_complete_at_unknown",
    "C44_complete_at_eof_refuted",
    "C44_complete_at_token_refuted"
   ],
   "note": "Proved for the modelled LALR(1) tables; which further terminals lalrpop's lane-table construction lists after spurious reductions, and in which order, is not modelled."
  },
  {
   "property": "C45",
   "status": "proved",
   "theorems": [
    "C45_errors_have_messages",
    "C45_token_message",
    "C45_eof_message",
    "C45_emit_message",
    "C45_message_identifies_error"
   ],
   "note": "IoError has the operating system's message and is not modelled."
  },
  {
   "property": "C46",
   "status": "proved",
   "theorems": [
    "C46_type_name_display",
    "C46_meta_display",
    "C46_variable_display",
    "C46_display_is_read_back"
   ],
   "note": "Reading back is for tokens that can be written down (all tokens of ASCII texts that are whole words)."
  },
  {
   "property": "C47",
   "status": "proved",
   "theorems": [
    "C47_traversal_is_specified",
    "C47_one_outcome",
    "C47_same_children",
    "C47_pruning",
    "C47_pruned_exists"
   ],
   "note": "Emitters whose callbacks start visits themselves (like SrEmitter) are the subject of C29/C30 and C48."
  },
  {
   "property": "C48",
   "status": "proved",
   "theorems": [
    "C48_passes_over",
    "C48_refuses",
    "C48_type_name",
    "C48_program_without_imports",
    "C48_program_with_imports"
   ],
   "note": ""
  },
  {
   "property": "C49",
   "status": "proved",
   "theorems": [
    "C49_same_answer",
    "C49_ascii",
    "C49_unicode",
    "C49_lexer_and_parser",
    "C49_tables_matter"
   ],
   "note": "The Unicode tables and the Debug rendering of stack objects are parameters of the model."
  },
  {
   "property": "C50",
   "status": "proved",
   "theorems": [
    "C50_range",
    "C50_only_producible",
    "C50_every_producible",
    "C50_excluded"
   ],
   "note": "Against the specification in Range.v."
  },
  {
   "property": "C51",
   "status": "proved",
   "theorems": [
    "C51_derived",
    "C51_text_is_quoted",
    "C51_shows_everything",
    "C51_emit_message_decoded",
    "C51_parser_error"
   ],
   "note": "Against the specification of derive(Debug) in Derive.v."
  },
  {
   "property": "C52",
   "status": "proved",
   "theorems": [
    "C52_texts",
    "C52_display_distinguishes",
    "C52_bystr20_twice",
    "C52_all_types_refuted"
   ],
   "note": "Producible types as specified in Range.v; for arbitrary values refuted, as the property says."
  },
  {
   "property": "C53",
   "status": "proved",
   "theorems": [
    "C53_error_is_local",
    "C53_error_is_final",
    "C53_open_quote_refuted"
   ],
   "note": "With no open quote, as specified by quotes_closed in Local.v; refuted otherwise, as the property says."
  },
  {
   "property": "C54",
   "status": "proved",
   "theorems": [
    "C54_unexpected_end_can_be_completed",
    "C54_error_cannot_be_repaired",
    "C54_only_kinds_count"
   ],
   "note": ""
  },
  {
   "property": "C55",
   "status": "proved",
   "theorems": [
    "C55_brackets",
    "C55_accepted_text_is_balanced",
    "C55_ends",
    "C55_nesting",
    "C55_phrases_nested"
   ],
   "note": ""
  },
  {
   "property": "C56",
   "status": "proved",
   "theorems": [
    "C56_parameters_taken",
    "C56_none_left",
    "C56_contract_parameter",
    "C56_transition_parameter"
   ],
   "note": "Against the relations of Takes.v; Event and namespaces inside the same annotations are C26-C28."
  },
  {
   "property": "C57",
   "status": "proved",
   "theorems": [
    "C57_parser_steps",
    "C57_visits"
   ],
   "note": "Steps of the automaton and visits of nodes are counted, not the time of each; the budgeted emitter of Budget.v is proved to be the emitter (lifted_same, cost_contract)."
  },
  {
   "property": "C58",
   "status": "proved",
   "theorems": [
    "C58_nesting_is_linear",
    "C58_nesting_is_not_bounded"
   ],
   "note": ""
  },
  {
   "property": "C59",
   "status": "proved",
   "theorems": [
    "C59_spelled_from_tokens",
    "C59_names_in_text",
    "C59_size",
    "C59_each_token_once_refuted"
   ],
   "note": "The spelling relation is Origin.v; a ByStrX n may be spelled with any decimal notation of n."
  },
  {
   "property": "C60",
   "status": "proved",
   "theorems": [
    "C60_same_lexer",
    "C60_quadratic",
    "C60_linear",
    "C60_written_words",
    "C60_linear_when_written",
    "C60_not_linear",
    "C60_linear_bound_refuted"
   ],
   "note": "Reads are the calls of next and peek on character iterators; the regular expressions are not counted. The counting lexer of LexCost.v is proved to give the items of the lexer."
  },
  {
   "property": "C61",
   "status": "proved",
   "theorems": [
    "C61_parser",
    "C61_names_are_opaque",
    "C61_accepted",
    "C61_written",
    "C61_all_names_alike",
    "C61_any_renaming_refuted"
   ],
   "note": "Against the specification in RenameSpec.v; renamings need not be injective. The message of an emitter error is the one with the renamed object rendered."
  },
  {
   "property": "C62",
   "status": "proved",
   "theorems": [
    "C62_compose",
    "C62_select",
    "C62_context_free",
    "C62_fields_refuted"
   ],
   "note": "Statements are about the words of texts (tokens_of); any text with those words will do. That fields compose in the same way is refuted."
  },
  {
   "property": "C63",
   "status": "proved",
   "theorems": [
    "C63_total_order",
    "C63_extremes",
    "C63_fits",
    "C63_tokens",
    "C63_end_before_next_start_refuted",
    "C63_nodes"
   ],
   "note": "usize is that of a 64 bit machine in is_valid and invalid_position."
  },
  {
   "property": "C64",
   "status": "proved",
   "theorems": [
    "C64_patterns_compile",
    "C64_one_answer",
    "C64_ways_are_matches",
    "C64_found_is_match",
    "C64_not_found",
    "C64_tokens"
   ],
   "note": "The patterns are parsed from their source text by regex_new; the semantics of finds (Regex.v) is the leftmost-first semantics documented for the regex crate."
  },
  {
   "property": "C65",
   "status": "proved",
   "theorems": [
    "C65_machine",
    "C65_same_code",
    "C65_one_command"
   ],
   "note": "For texts that parse; what the parse is, is C11 and C41, and what happens otherwise is C37 and C39. The specification is Machine.v."
  },
  {
   "property": "C66",
   "status": "proved",
   "theorems": [
    "C66_declared",
    "C66_nodes_equal",
    "C66_located_equal",
    "C66_nodes_ordered",
    "C66_located_ordered",
    "C66_options_lists",
    "C66_strings",
    "C66_results_equal",
    "C66_positions",
    "C66_layout_refuted",
    "C66_source_order_refuted"
   ],
   "note": "The variants, their order and their parts are in AstView.v and ResultView.v, checked against Declared.v (printed from nodes.rs by tools/declared.py); View.v says what the derive macros make of them."
  },
  {
   "property": "C67",
   "status": "proved",
   "theorems": [
    "C67_node_debug",
    "C67_located",
    "C67_equal_iff_same_text",
    "C67_views_of_results"
   ],
   "note": "The texts themselves are defined by Derive.v (C51); only {:?}, not the alternate form {:#?}."
  },
  {
   "property": "C68",
   "status": "proved",
   "theorems": [
    "C68_complaints",
    "C68_all_occur"
   ],
   "note": "For texts that parse; the texts of the things found are those of C51."
  },
  {
   "property": "C69",
   "status": "proved",
   "theorems": [
    "C69_layout",
    "C69_same_text",
    "C69_shows_everything"
   ],
   "note": "Pretty.v models core::fmt's builders and PadAdapter with the alternate flag; which characters above ASCII are printed as they are is a parameter."
  },
  {
   "property": "C70",
   "status": "proved",
   "theorems": [
    "C70_expected_value",
    "C70_elements_seen",
    "C70_never_default",
    "C70_clone"
   ],
   "note": ""
  },
  {
   "property": "C71",
   "status": "proved",
   "theorems": [
    "C71_no_panic",
    "C71_each_condition_needed"
   ],
   "note": "A sufficient condition; for supported types C24 says which value results, and C36/C62 say which unsupported ones panic."
  },
  {
   "property": "C72",
   "status": "proved",
   "theorems": [
    "C72_fields",
    "C72_transitions",
    "C72_params_refuted"
   ],
   "note": "For texts that parse; programs are compared by their signatures (C21). The corresponding claim for contract parameters is refuted."
  },
  {
   "property": "C73",
   "status": "proved",
   "theorems": [
    "C73_accepted_is_made_of",
    "C73_refused",
    "C73_plain",
    "C73_all_used"
   ],
   "note": "For every entry point of the parser."
  },
  {
   "property": "C74",
   "status": "proved",
   "theorems": [
    "C74_ascii",
    "C74_unicode",
    "C74_line_endings",
    "C74_tabs",
    "C74_accepted",
    "C74_removing_refuted",
    "C74_multibyte_refuted",
    "C74_trailing_refuted"
   ],
   "note": "For ASCII texts in full; for texts with other characters when there is no double quote and the end is left alone, and refuted otherwise."
  },
  {
   "property": "C75",
   "status": "proved",
   "theorems": [
    "C75_tokens",
    "C75_front",
    "C75_answers",
    "C75_answers_front",
    "C75_before_a_token",
    "C75_answers_before_a_token",
    "C75_inside_refuted",
    "C75_dropped_refuted",
    "C75_columns_refuted",
    "C75_inside_word_refuted",
    "C75_quote_refuted",
    "C75_unknown_refuted"
   ],
   "note": "Insertion after a white space character, at the front or before a token. Columns are claimed on later lines only; on the line of the insertion the claim is refuted."
  },
  {
   "property": "C76",
   "status": "proved",
   "theorems": [
    "C76_any_positions",
    "C76_trees_move",
    "C76_trees_move_front",
    "C76_before_a_token"
   ],
   "note": "For every entry point of the parser; the side conditions on the place of the insertion are those of C75."
  },
  {
   "property": "C77",
   "status": "proved",
   "theorems": [
    "C77_literals_are_opaque",
    "C77_accepted",
    "C77_sizes_refuted",
    "C77_sorts_refuted"
   ],
   "note": "Literals are string literals, numbers, hexadecimal numbers and names of type variables; that texts with other sorts of literals or other sizes in type names differ is shown by witnesses."
  },
  {
   "property": "C78",
   "status": "proved",
   "theorems": [
    "C78_display_is_linear",
    "C78_debug_is_linear",
    "C78_linear",
    "C78_pretty_is_linear_refuted"
   ],
   "note": "The pretty text is not linear: refuted with nested options."
  },
  {
   "property": "C79",
   "status": "proved",
   "theorems": [
    "C79_shown_in_errors",
    "C79_expected_once",
    "C79_messages_are_linear"
   ],
   "note": "How lalrpop prints the list of expected terminals is an oracle; its length is a separate summand."
  },
  {
   "property": "C80",
   "status": "proved",
   "theorems": [
    "C80_right_up_to_the_error",
    "C80_can_be_continued",
    "C80_blamed_token",
    "C80_inside_a_word_refuted"
   ],
   "note": "Cutting inside a word that the lexer reads as a shorter name is refuted with a witness. The continuation has no quotes: a hexadecimal literal can stand wherever a string can, so start symbol StringLiteral is excluded from C80_can_be_continued."
  }
 ]
}