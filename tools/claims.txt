C01 | proved | C01_next_progress C01_lexer_terminates | Err items do not exist in the model because the code never constructs one (lexer.rs:250-724).
C02 | proved | C02_span_in_bounds C02_spans_ordered | 
C03 | proved | C03_token_text_is_slice | 
C04 | proved | C04_input_is_tokens_and_layout C04_only_layout_dropped C04_unconditional_refuted | The unconditional claim is refuted by a multi-byte string literal; what is lost is characterised exactly.
C05 | proved | C05_ascii_never_panics C05_panic_iff_bad_word C05_bad_word_is_multibyte C05_panic_freedom_refuted | 
C06 | proved | C06_keyword_iff_whole_word C06_words_not_split C06_bystr_exception | 
C07 | proved | C07_lexing_inverts_printing | 
C08 | proved | C08_comment_invisible C08_comment_invisible_anywhere C08_comments_do_not_nest C08_unterminated_comment | 
C09 | proved | C09_line_counts_layout_newlines C09_line_at_most_true_line C09_line_exact_without_multiline_pieces C09_true_line_refuted | 
C10 | proved | C10_column_span C10_column_exact C10_column_zero_at_line_start C10_column_after_space C10_true_column_refuted | 
C11 | proved | C11_accepted_is_derived C11_accepted_text_is_derived | 
C12 | proved | C12_derived_is_accepted C12_derived_text_is_accepted | 
C13 | proved | C13_unambiguous | 
C16 | proved | C16_error_at_first_offending_token C16_error_at_end_of_input C16_panic_is_the_lexers | 
C15 | proved | C15_positions_do_not_matter C15_from_str_depends_on_tokens C15_layout_does_not_matter | Error positions are compared by token and index.
C37 | proved | C37_ok C37_error C37_panic C37_total C37_no_unknown | 
C41 | proved | C41_ast_is_what_was_read C41_ast_of_text | 
C42 | proved | C42_written_ast_is_read_back C42_any_layout C42_reprinting | Writing chooses the shortest form at the three places where the grammar loses information.
C17 | proved | C17_contract_name | 
C18 | proved | C18_init_params | Types of annotations outside the reading relation says_type (Event, namespaces, address keys, special address fields) are the subject of C26-C29.
C19 | proved | C19_fields C19_field_names | 
C20 | proved | C20_transitions C20_transition_names | 
C21 | proved | C21_only_the_signature_matters | 
C22 | proved | C22_field_type C22_spelled_type | 
C23 | proved | C23_type_pushes_one C23_declaration_pushes_one C23_transition_restores_the_stack C23_field_restores_the_stack | 
C24 | proved | C24_supported_denotes C24_supported_programs_succeed | 
C25 | proved | C25_first_undenoted_type_panics C25_undenoted_type_never_accepted C25_unsupported_denotes_nothing C25_unsupported_types_panic | 
C36 | proved | C36_described_program C36_any_layout C36_spelled_contract C36_spelled_unsupported C36_spelled_with_spaces | 
C29 | proved | C29_errors_end_the_visit C29_address_types C29_builtin_argument C29_every_error_aborts_refuted C29_address_field_stolen | "every error aborts" is refuted; what holds instead is proved
C30 | proved | C30_skip C30_enter_error C30_enter_panic C30_depth_first C30_one_traversal C30_recorded | 
C31 | proved | C31_push_pop C31_visit C31_declarations_bracketed C31_declarations_balanced C31_balance_refuted | 
C32 | proved | C32_let_panics C32_libraries | 
C26 | proved | C26_namespaces_dropped C26_field_other C26_says_reads C26_transition_panics C26_map_value C26_any_transition_panics_refuted | from_str level; the unrestricted transition claim is refuted by a witness
C27 | proved | C27_address_key_never_accepted C27_address_key_error C27_address_key_panic C27_every_address_key_rejected_refuted | any position outside address fields; the unrestricted claim is refuted by a witness
C28 | proved | C28_event_field_is_the_contract C28_second_event_field C28_event_field_with_params C28_event_param C28_event_transition C28_event_is_other_event_refuted | the naive claim is refuted, the actual behaviour proved
C33 | proved | C33_bystr_sizes C33_leading_zeros | 
C34 | proved | C34_panics_iff_missing C34_last_arguments | 
C35 | proved | C35_every_type C35_display_round_trip C35_map_refuted C35_address_fields_refuted | every producible type: round trip or syntax error; Map and address types with fields are refuted, as the property says
C38 | proved | C38_names_in_order C38_name_shapes | 
C39 | proved | C39_parse_reads_the_file C39_io_error_iff C39_text_is_unique C39_only_this_file | 
C40 | proved | C40_accepted_starts_with_version C40_no_version_is_an_error C40_empty_is_an_error C40_readme_refuted | the README example is refuted, as the property says
C14 | proved | C14_spans C14_nested C14_import_list C14_imports_of_program C14_address_kind C14_import_span_refuted | 
C43 | proved | C43_lexer_is_segmentation C43_one_segmentation C43_always_segmented C43_character_classes |
C44 | proved | C44_listed_tokens_fit C44_listed_tokens_continue C44_complete_at_unknown C44_complete_at_eof_refuted C44_complete_at_token_refuted | Proved for the modelled LALR(1) tables; which further terminals lalrpop's lane-table construction lists after spurious reductions, and in which order, is not modelled.
C45 | proved | C45_errors_have_messages C45_token_message C45_eof_message C45_emit_message C45_message_identifies_error | IoError has the operating system's message and is not modelled.
C46 | proved | C46_type_name_display C46_meta_display C46_variable_display C46_display_is_read_back | Reading back is for tokens that can be written down (all tokens of ASCII texts that are whole words).
C47 | proved | C47_traversal_is_specified C47_one_outcome C47_same_children C47_pruning C47_pruned_exists | Emitters whose callbacks start visits themselves (like SrEmitter) are the subject of C29/C30 and C48.
C48 | proved | C48_passes_over C48_refuses C48_type_name C48_program_without_imports C48_program_with_imports | 
C49 | proved | C49_same_answer C49_ascii C49_unicode C49_lexer_and_parser C49_tables_matter | The Unicode tables and the Debug rendering of stack objects are parameters of the model.
C50 | proved | C50_range C50_only_producible C50_every_producible C50_excluded | Against the specification in Range.v.
C51 | proved | C51_derived C51_text_is_quoted C51_shows_everything C51_emit_message_decoded C51_parser_error | Against the specification of derive(Debug) in Derive.v.
C52 | proved | C52_texts C52_display_distinguishes C52_bystr20_twice C52_all_types_refuted | Producible types as specified in Range.v; for arbitrary values refuted, as the property says.
C53 | proved | C53_error_is_local C53_error_is_final C53_open_quote_refuted | With no open quote, as specified by quotes_closed in Local.v; refuted otherwise, as the property says.
C54 | proved | C54_unexpected_end_can_be_completed C54_error_cannot_be_repaired C54_only_kinds_count |
C55 | proved | C55_brackets C55_accepted_text_is_balanced C55_ends C55_nesting C55_phrases_nested |
C56 | proved | C56_parameters_taken C56_none_left C56_contract_parameter C56_transition_parameter | Against the relations of Takes.v; Event and namespaces inside the same annotations are C26-C28.
C57 | proved | C57_parser_steps C57_visits | Steps of the automaton and visits of nodes are counted, not the time of each; the budgeted emitter of Budget.v is proved to be the emitter (lifted_same, cost_contract).
C58 | proved | C58_nesting_is_linear C58_nesting_is_not_bounded |
C59 | proved | C59_spelled_from_tokens C59_names_in_text C59_size C59_each_token_once_refuted | The spelling relation is Origin.v; a ByStrX n may be spelled with any decimal notation of n.
C60 | proved | C60_same_lexer C60_quadratic C60_linear C60_written_words C60_linear_when_written C60_not_linear C60_linear_bound_refuted | Reads are the calls of next and peek on character iterators; the regular expressions are not counted. The counting lexer of LexCost.v is proved to give the items of the lexer.
C61 | proved | C61_parser C61_names_are_opaque C61_accepted C61_written C61_all_names_alike C61_any_renaming_refuted | Against the specification in RenameSpec.v; renamings need not be injective. The message of an emitter error is the one with the renamed object rendered.
C62 | proved | C62_compose C62_select C62_context_free C62_fields_refuted | Statements are about the words of texts (tokens_of); any text with those words will do. That fields compose in the same way is refuted.
C63 | proved | C63_total_order C63_extremes C63_fits C63_tokens C63_end_before_next_start_refuted C63_nodes | usize is that of a 64 bit machine in is_valid and invalid_position.
C64 | proved | C64_patterns_compile C64_one_answer C64_ways_are_matches C64_found_is_match C64_not_found C64_tokens | The patterns are parsed from their source text by regex_new; the semantics of finds (Regex.v) is the leftmost-first semantics documented for the regex crate.
C65 | proved | C65_machine C65_same_code C65_one_command | For texts that parse; what the parse is, is C11 and C41, and what happens otherwise is C37 and C39. The specification is Machine.v.
C66 | proved | C66_declared C66_nodes_equal C66_located_equal C66_nodes_ordered C66_located_ordered C66_options_lists C66_strings C66_results_equal C66_positions C66_layout_refuted C66_source_order_refuted | The variants, their order and their parts are in AstView.v and ResultView.v, checked against Declared.v (printed from nodes.rs by tools/declared.py); View.v says what the derive macros make of them.
C67 | proved | C67_node_debug C67_located C67_equal_iff_same_text C67_views_of_results | The texts themselves are defined by Derive.v (C51); only {:?}, not the alternate form {:#?}.
C68 | proved | C68_complaints C68_all_occur | For texts that parse; the texts of the things found are those of C51.
C69 | proved | C69_layout C69_same_text C69_shows_everything | Pretty.v models core::fmt's builders and PadAdapter with the alternate flag; which characters above ASCII are printed as they are is a parameter.
C70 | proved | C70_expected_value C70_elements_seen C70_never_default C70_clone |
C71 | proved | C71_no_panic C71_each_condition_needed | A sufficient condition; for supported types C24 says which value results, and C36/C62 say which unsupported ones panic.
C72 | proved | C72_fields C72_transitions C72_params_refuted | For texts that parse; programs are compared by their signatures (C21). The corresponding claim for contract parameters is refuted.
C73 | proved | C73_accepted_is_made_of C73_refused C73_plain C73_all_used | For every entry point of the parser.
C74 | proved | C74_ascii C74_unicode C74_line_endings C74_tabs C74_accepted C74_removing_refuted C74_multibyte_refuted C74_trailing_refuted | For ASCII texts in full; for texts with other characters when there is no double quote and the end is left alone, and refuted otherwise.
C75 | proved | C75_tokens C75_front C75_answers C75_answers_front C75_before_a_token C75_answers_before_a_token C75_inside_refuted C75_dropped_refuted C75_columns_refuted C75_inside_word_refuted C75_quote_refuted C75_unknown_refuted | Insertion after a white space character, at the front or before a token. Columns are claimed on later lines only; on the line of the insertion the claim is refuted.
C76 | proved | C76_any_positions C76_trees_move C76_trees_move_front C76_before_a_token | For every entry point of the parser; the side conditions on the place of the insertion are those of C75.
C77 | proved | C77_literals_are_opaque C77_accepted C77_sizes_refuted C77_sorts_refuted | Literals are string literals, numbers, hexadecimal numbers and names of type variables; that texts with other sorts of literals or other sizes in type names differ is shown by witnesses.
C78 | proved | C78_display_is_linear C78_debug_is_linear C78_linear C78_pretty_is_linear_refuted | The pretty text is not linear: refuted with nested options.
C79 | proved | C79_shown_in_errors C79_expected_once C79_messages_are_linear | How lalrpop prints the list of expected terminals is an oracle; its length is a separate summand.
C80 | proved | C80_right_up_to_the_error C80_can_be_continued C80_blamed_token C80_inside_a_word_refuted | Cutting inside a word that the lexer reads as a shorter name is refuted with a witness. The continuation has no quotes: a hexadecimal literal can stand wherever a string can, so start symbol StringLiteral is excluded from C80_can_be_continued.
