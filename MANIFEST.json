{"claims": [
 {"property": "C01", "status": "proved", "theorems": ["C01_mutation_is_local", "C01_replacement_unique"], "note": ""},
 {"property": "C02", "status": "proved", "theorems": ["C02_index_selects_counted_node"], "note": ""},
 {"property": "C03", "status": "proved", "theorems": ["C03_out_of_range_is_noop"], "note": ""},
 {"property": "C04", "status": "proved", "theorems": ["C04_function_restriction_sound"], "note": ""},
 {"property": "C05", "status": "partial", "theorems": ["C05_function_restriction_complete_refuted", "C05_function_restriction_complete_partial"], "note": "The code violates the full statement when nodes with allowed names nest; the partial theorem excludes that."},
 {"property": "C06", "status": "proved", "theorems": ["C06_unrestricted_count", "C06_count_independent_of_map_order"], "note": ""},
 {"property": "C07", "status": "proved", "theorems": ["C07_paths_are_ancestor_chains", "C07_chain_ends_with_the_node", "C07_every_identified_node_is_recorded"], "note": ""},
 {"property": "C08", "status": "partial", "theorems": ["C08_vyper_comment_goes_into_one_list", "C08_solidity_comment_goes_into_one_place_partial", "C08_solidity_comment_goes_into_one_place_refuted"], "note": "Vyper: full statement. Solidity: for ASTs whose blocks have their statements array and whose mutated node is not a block that is itself an if branch or catch block; in that excluded case the code violates the statement, and the refuted theorem gives such a program (the consequence for the code of the branch is C09)."},
 {"property": "C09", "status": "partial", "theorems": ["C09_vyper_comment_loses_nothing", "C09_solidity_comment_loses_nothing_partial", "C09_solidity_comment_loses_nothing_refuted"], "note": "Holds for Vyper. For Solidity the code violates it (insert_comment_into_node_with_key always stores under \"body\"): the refuted theorem runs the model end to end on a SwapLines mutant; the partial theorem covers every other case."},
 {"property": "C10", "status": "partial", "theorems": ["C10_text_comments_stay_comments_refuted", "C10_solidity_text_comments_stay_comments_partial", "C10_vyper_text_comments_stay_comments_partial"], "note": "The code violates the statement when the column right after the marker equals the page width (the blank wraps and the text lands on an unmarked line); proved for every line with room for the marker and a blank. See C61 for the geometry of the crate."},
 {"property": "C11", "status": "partial", "theorems": ["C11_deleted_statement_is_commented_refuted", "C11_deleted_statement_is_commented_partial"], "note": "The code violates the statement: a deleted call with named arguments leaves uncommented lines behind. Proved for statements printed as a single line that fits."},
 {"property": "C12", "status": "proved", "theorems": ["C12_solidity_binary_operator"], "note": ""},
 {"property": "C13", "status": "proved", "theorems": ["C13_solidity_unary_operator"], "note": ""},
 {"property": "C14", "status": "proved", "theorems": ["C14_vyper_operator"], "note": ""},
 {"property": "C15", "status": "proved", "theorems": ["C15_solidity_assignment_in_range", "C15_vyper_assignment"], "note": ""},
 {"property": "C16", "status": "partial", "theorems": ["C16_accepted_nodes_crash_refuted", "C16_solidity_no_crash_partial", "C16_vyper_no_crash_partial"], "note": "The code violates the full statement (int256 assignments, literals such as 1e18, Vyper functions returning other types). The partial theorems cover all operators and streams on nodes with compiler-emitted fields, restricted to supported ranges for those operators. The node holds no comments or irregular records (sol_plain, vy_clear); C85 proves that the crate's printers print such nodes."},
 {"property": "C17", "status": "partial", "theorems": ["C17_accepted_nodes_hang_refuted", "C17_solidity_finishes_partial", "C17_vyper_finishes_partial"], "note": "The code violates the full statement: some accepted nodes make the retry loop endless for every stream. The partial theorems cover fair streams and supported nodes. The node holds no comments or irregular records (sol_plain, vy_clear); C85 proves that the crate's printers print such nodes."},
 {"property": "C18", "status": "proved", "theorems": ["C18_solidity_delete_statement", "C18_vyper_delete_statement"], "note": ""},
 {"property": "C19", "status": "proved", "theorems": ["C19_solidity_call_becomes_argument", "C19_vyper_call_becomes_argument"], "note": ""},
 {"property": "C20", "status": "proved", "theorems": ["C20_solidity_swap_arguments", "C20_vyper_swap_arguments"], "note": ""},
 {"property": "C21", "status": "partial", "theorems": ["C21_same_seed_same_mutant_refuted", "C21_solidity_same_seed_same_mutant_partial", "C21_vyper_same_seed_same_mutant", "C21_operator_map_order", "C21_operator_lookup_order"], "note": "Violated by the Solidity SwapFunctionArguments operator when two argument types are shared; proved for everything else."},
 {"property": "C22", "status": "proved", "theorems": ["C22_solidity_if_condition", "C22_vyper_if_condition"], "note": ""},
 {"property": "C23", "status": "partial", "theorems": ["C23_integer_changes_refuted", "C23_solidity_integer_partial", "C23_vyper_integer_partial"], "note": "The random replacement may equal the old value, so the full statement is false of the code; the partial theorems say exactly when the value differs."},
 {"property": "C24", "status": "proved", "theorems": ["C24_solidity_swap_operands", "C24_vyper_swap_operands"], "note": ""},
 {"property": "C25", "status": "proved", "theorems": ["C25_solidity_swap_lines", "C25_vyper_swap_lines"], "note": ""},
 {"property": "C26", "status": "proved", "theorems": ["C26_require_condition"], "note": ""},
 {"property": "C27", "status": "proved", "theorems": ["C27_unchecked_block"], "note": ""},
 {"property": "C28", "status": "proved", "theorems": ["C28_delegate_call"], "note": ""},
 {"property": "C29", "status": "proved", "theorems": ["C29_solidity_mutants_are_canonical", "C29_vyper_mutants_are_canonical"], "note": "Operator and comment insertion together, for every selected operator set, permission set and random stream."},
 {"property": "C30", "status": "proved", "theorems": ["C30_reading", "C30_writing", "C30_taking", "C30_slash_key_is_lost"], "note": "Keys without '/' and '~', as the property says; the last theorem shows why keys with '/' are excluded."},
 {"property": "C31", "status": "proved", "theorems": ["C31_count_never_exceeds_request"], "note": ""},
 {"property": "C32", "status": "proved", "theorems": ["C32_no_duplicates"], "note": ""},
 {"property": "C33", "status": "proved", "theorems": ["C33_file_names"], "note": ""},
 {"property": "C34", "status": "proved", "theorems": ["C34_validated_mutants_compile"], "note": ""},
 {"property": "C35", "status": "proved", "theorems": ["C35_attempts_bounded", "C35_solidity_run_stops", "C35_vyper_run_stops", "C35_stops_on_every_stream_refuted"], "note": "Termination holds on fair streams; on an arbitrary stream it fails (refuted separately), as the statement says. Node shapes are those for which C17 proves each single mutation stops. The node holds no comments or irregular records (sol_plain, vy_clear); C85 proves that the crate's printers print such nodes."},
 {"property": "C36", "status": "partial", "theorems": ["C36_as_many_as_requested_refuted", "C36_missing_mutants_cost_fifty_tries_partial"], "note": "The code violates the property. Proved: each missing mutant cost 50 failed tries."},
 {"property": "C37", "status": "partial", "theorems": ["C37_saved_configuration_reproduces_partial", "C37_command_line_reproduced_partial", "C37_rerun_repeats_the_run_partial", "C37_saved_seed_refuted", "C37_negative_seed_refuted", "C37_names_refuted", "C37_slash_key_refuted"], "note": "The code violates the full statement in five cases, each with a witness: a seed set by an earlier configuration file is saved for a later file whose run did not use it; a negative seed in a configuration is saved as a number that is not read back; an output directory called stdout is read back as the option; a file named only by an extension saves a file that is not recognized; compiler details with a slash in a key. Proved for every run outside those cases, and, for command lines without configuration files, that running the saved file repeats every attempt, compilation and mutant."},
 {"property": "C38", "status": "partial", "theorems": ["C38_inputs_never_collide_refuted", "C38_different_base_names_never_collide_partial"], "note": "The code violates the property for inputs with the same base name. Proved for different base names."},
 {"property": "C39", "status": "partial", "theorems": ["C39_input_never_overwritten_refuted", "C39_mutants_never_overwrite_input_partial"], "note": "The code violates the property (printed original, temporary file). Proved for the mutant files."},
 {"property": "C40", "status": "proved", "theorems": ["C40_query_after_any_history", "C40_adding_never_revokes", "C40_removing_undoes_adding"], "note": "'Grants' is inclusion of the facts a permission stands for, defined in SpecPermissions.v without the code's matching functions."},
 {"property": "C41", "status": "partial", "theorems": ["C41_deny_blocks_refuted", "C41_deny_is_ignored", "C41_deny_blocks_partial"], "note": "The code violates the property: a stored deny never affects a request to be allowed something. Proved: sets holding only denies refuse."},
 {"property": "C42", "status": "proved", "theorems": ["C42_names_are_unambiguous", "C42_list_selects_the_types_named", "C42_all_types_listed_once"], "note": ""},
 {"property": "C43", "status": "proved", "theorems": ["C43_wrapping_keeps_tokens"], "note": ""},
 {"property": "C44", "status": "proved", "theorems": ["C44_lines_respect_page_width", "C44_lines_respect_page_width_from"], "note": ""},
 {"property": "C45", "status": "proved", "theorems": ["C45_solidity_indentation_restored", "C45_vyper_indentation_restored"], "note": ""},
 {"property": "C46", "status": "proved", "theorems": ["C46_flowed_text_keeps_words"], "note": ""},
 {"property": "C47", "status": "partial", "theorems": ["C47_flowing_stops_refuted", "C47_flowing_stops_partial"], "note": "The code violates the statement: a word that does not fit on a line recurses for ever. Proved when every word fits on a continuation line."},
 {"property": "C48", "status": "proved", "theorems": ["C48_solidity_ignores_bookkeeping", "C48_vyper_ignores_bookkeeping"], "note": ""},
 {"property": "C49", "status": "partial", "theorems": ["C49_vyper_printing_drops_code_refuted", "C65_vyper_program_text", "C49_solidity_expressions_refuted", "C49_solidity_statements_refuted", "C49_solidity_members_refuted", "C49_solidity_top_level_refuted", "C78_solidity_program_text"], "note": "The code violates the full statement in both languages. C65 and C78 show that nothing is dropped on large sublanguages."},
 {"property": "C50", "status": "partial", "theorems": ["C50_solidity_strings_survive_refuted", "C50_solidity_characters_exactly", "C50_solidity_strings_survive_partial", "C50_solidity_unicode_strings_survive_partial", "C50_vyper_strings_survive_refuted", "C50_vyper_characters_exactly", "C50_vyper_strings_survive_partial"], "note": "The code violates the statement: quotes and backslashes are not escaped and \\x, \\u are written with too few digits. Proved: exactly which single characters survive, and that all strings of surviving characters do."},
 {"property": "C51", "status": "partial", "theorems": ["C51_lookup_returns_last_update", "C51_lookup_of_absent_key", "C51_length_counts_keys", "C51_typed_lookup", "C51_other_keys_unaffected", "C51_json_round_trip_refuted", "C51_json_round_trip_partial", "C51_json_independent_of_order", "C51_from_json_and_back_refuted", "C51_from_json_and_back_partial"], "note": "Store laws proved for every history. The JSON round trip fails for keys with a slash or tilde and for numbers that are not finite, and from JSON for integers from 2^63 on; proved for everything else."},
 {"property": "C52", "status": "partial", "theorems": ["C52_prints_every_file_to_stdout_refuted", "C52_first_file_to_stdout_partial", "C52_prints_every_file_refuted", "C52_prints_every_file_partial", "C52_every_file_is_dealt_with_partial"], "note": "The code violates the statement: with --stdout it stops after the first file printed; two inputs with one base name overwrite each other; a path without a file name ends the command. Proved when writing to files with distinct destinations."},
 {"property": "C53", "status": "proved", "theorems": ["C53_unsupported_types_do_nothing", "C53_no_unsupported_mutant"], "note": ""},
 {"property": "C54", "status": "partial", "theorems": ["C54_concurrent_runs_refuted", "C54_separate_temporary_files_partial"], "note": "The code violates the property. Proved when the runs' files are disjoint."},
 {"property": "C55", "status": "proved", "theorems": ["C55_solidity_accepts", "C55_vyper_accepts"], "note": ""},
 {"property": "C56", "status": "partial", "theorems": ["C56_classification_crash_refuted", "C56_solidity_classification_partial", "C56_vyper_classification_partial"], "note": "Violated on Vyper operators missing from the operator table (shifts, floor division). The node holds no comments or irregular records (sol_plain, vy_clear); C85 proves that the crate's printers print such nodes."},
 {"property": "C57", "status": "proved", "theorems": ["C57_vyper_unary_operator_removed"], "note": ""},
 {"property": "C58", "status": "proved", "theorems": ["C58_solidity_label", "C58_vyper_label"], "note": ""},
 {"property": "C59", "status": "proved", "theorems": ["C59_mutants_are_single_mutations"], "note": ""},
 {"property": "C60", "status": "proved", "theorems": ["C60_independent_of_hash_order"], "note": ""},
 {"property": "C61", "status": "proved", "theorems": ["C61_solidity_comment_at_line_start", "C61_vyper_comment_at_line_start"], "note": ""},
 {"property": "C62", "status": "proved", "theorems": ["C62_vyper_deleted_statement_is_commented"], "note": ""},
 {"property": "C63", "status": "proved", "theorems": ["C63_vyper_byte_literals_survive"], "note": ""},
 {"property": "C64", "status": "partial", "theorems": ["C64_vyper_integers_survive_refuted", "C64_vyper_integers_survive_partial"], "note": "The code violates the statement from 2^63 on: such integers are printed through f64, 2^63 and 2^63+1 alike. Proved for all i64 values."},
 {"property": "C65", "status": "proved", "theorems": ["C65_vyper_program_text"], "note": "For programs without doc strings, comments and events of the older compilers; the sublanguage is easy_def of SpecVyText.v. Outside it the printer drops or misplaces code, see C49."},
 {"property": "C66", "status": "partial", "theorems": ["C66_kept_mutants_compile_refuted", "C66_kept_vyper_mutants_compile", "C66_kept_solidity_mutants_partial"], "note": "Holds for Vyper. For Solidity the code retries with --stop-after parsing, so mutants that only parse are kept: refuted by a run whose compiler rejects every program; proved that every mutant kept at least parses."},
 {"property": "C67", "status": "partial", "theorems": ["C67_options_reach_the_compiler_refuted", "C67_options_reach_the_compiler_partial", "C67_compiler_and_root_path"], "note": "With two or more allowed paths each path becomes a separate argument with a trailing comma, so solc sees the second as an input file. Proved for at most one allowed path."},
 {"property": "C68", "status": "proved", "theorems": ["C68_configuration_overrides_command_line"], "note": ""},
 {"property": "C69", "status": "partial", "theorems": ["C69_left_out_settings_refuted", "C69_left_out_settings_partial"], "note": "The number of mutants, validation and printing the original fall back to 5, false and false, not to the command line. Proved for seed, mutations, functions, output directory and compiler."},
 {"property": "C70", "status": "partial", "theorems": ["C70_files_are_independent_refuted", "C70_files_are_independent_partial"], "note": "A configuration file that sets the seed changes the seed of the files after it. Proved when no earlier file sets the seed."},
 {"property": "C71", "status": "partial", "theorems": ["C71_only_repetitions_dismissed_refuted", "C71_only_repetitions_dismissed_partial"], "note": "The code violates the full statement: the Integer operator hashes only which kind of replacement was chosen, so a different random integer is dismissed. Proved for all other types."},
 {"property": "C72", "status": "partial", "theorems": ["C72_no_mutant_written_twice_refuted", "C72_solidity_different_records_partial", "C72_vyper_different_records_partial"], "note": "The code violates the full statement: swapping lines (i,j) and (j,i) leaves different records and one program. The partial theorems: for the types with one way to each tree, two mutations of one node with different records differ. Missing: the other types. Different nodes and trees after comment insertion are the subject of C99 and C100."},
 {"property": "C73", "status": "partial", "theorems": ["C73_vyper_body_keeps_a_statement_refuted", "C73_vyper_body_keeps_a_statement_partial"], "note": "The code violates the full statement for functions returning arrays or structs-by-subscript: the body is left with the comment only. Proved for bodies without a return type or with a named one the operator knows."},
 {"property": "C74", "status": "proved", "theorems": ["C74_solidity_record_names_the_node", "C74_vyper_record_names_the_node"], "note": ""},
 {"property": "C75", "status": "proved", "theorems": ["C75_list_shows_every_algorithm", "C75_describe_shows_every_algorithm"], "note": "Short list word for word; long list character for character up to blanks."},
 {"property": "C76", "status": "partial", "theorems": ["C76_algorithms_ends_refuted", "C76_list_ends_partial", "C76_describe_ends_partial", "C76_list_ends_exactly_partial", "C76_describe_ends_exactly_partial"], "note": "The code violates the full statement: on narrow terminals the flow of text recurses for ever or the width underflows. The exact widths are proved."},
 {"property": "C77", "status": "partial", "theorems": ["C77_solidity_operators_shown", "C77_vyper_operators_shown_refuted", "C77_vyper_shifts_shown_refuted", "C77_vyper_operators_shown_partial"], "note": "Solidity complete. The code violates the statement for Vyper: unary minus and shifts."},
 {"property": "C78", "status": "proved", "theorems": ["C78_solidity_program_text"], "note": "For programs without inline assembly, documentation and comments; the sublanguage is easy_top_level of SpecSolText.v. Outside it the printer drops or misplaces code, see C49."},
 {"property": "C79", "status": "proved", "theorems": ["C79_solidity_one_place", "C79_vyper_one_place", "C79_solidity_mutant", "C79_vyper_mutant", "C79_solidity_text", "C79_vyper_text"], "note": "Under the conditions in the quantifier; a mutant that equals the original (no replacement happened) is allowed."},
 {"property": "C80", "status": "proved", "theorems": ["C80_solidity_operator_token", "C80_solidity_unary_token", "C80_solidity_delegatecall_token", "C80_solidity_number_token", "C80_vyper_operator_token", "C80_token_is_word"], "note": "The printed program may also be unchanged, when the mutated node is not printed at all (see C49) or nothing was replaced."},
 {"property": "C81", "status": "partial", "theorems": ["C81_printed_in_a_row", "C81_one_reading", "C81_mutant_grouped_refuted", "C81_mutant_grouped_partial", "C81_operator_grouped_partial", "C81_parenthesised_partial"], "note": "The code violates the full statement: mutated operations are printed without parentheses, so 'a - b * c' with '*' replaced by '+' is written 'a - b + c'. Refuted for six operators with witnesses; proved for the other eleven, for operators of equal precedence, and for programs with all their parentheses."},
 {"property": "C82", "status": "proved", "theorems": ["C82_solidity_results", "C82_vyper_results"], "note": "The catalogues are sol_outcome and vy_outcome in SpecReach.v. Draws are arbitrary: reachable means reachable for some sequence of draws, not that a particular 64 bit seed of Pcg64 produces it. The node holds no comments or irregular records (sol_plain, vy_clear); C85 proves that the crate's printers print such nodes."},
 {"property": "C83", "status": "partial", "theorems": ["C83_values_refuted", "C83_solidity_bool_partial", "C83_solidity_uint_partial", "C83_solidity_swapped_arguments_partial"], "note": "The code violates the full statement: a bool is always set to false, a uintK never to its largest value and at most to 128 bits, and only the first two arguments of a type are exchanged. What does come out is characterised exactly. The node holds no comments or irregular records (sol_plain, vy_clear); C85 proves that the crate's printers print such nodes."},
 {"property": "C84", "status": "proved", "theorems": ["C84_solidity_run_can_write", "C84_vyper_run_can_write"], "note": "The mutant may in addition carry the comment describing the mutation. Assumes at most 2^64 mutable nodes of the type. The node holds no comments or irregular records (sol_plain, vy_clear); C85 proves that the crate's printers print such nodes."},
 {"property": "C85", "status": "partial", "theorems": ["C85_printing_refuted", "C85_solidity_plain_partial", "C85_vyper_plain_partial", "C85_solidity_legible_partial", "C85_vyper_legible_partial", "C85_solidity_comment_printer", "C85_vyper_comment_printer"], "note": "The code violates the full statement, with witnesses. Proved for regular trees without remarks, and for remarks whose words fit."},
 {"property": "C86", "status": "partial", "theorems": ["C86_mutants_print_refuted", "C86_solidity_remarks", "C86_vyper_remarks", "C86_solidity_mutants_print_partial", "C86_vyper_mutants_print_partial"], "note": "The code violates the full statement, with a run that never ends. Proved: mutants stay regular and gain one comment only; they are printed when its words fit."},
 {"property": "C87", "status": "proved", "theorems": ["C87_options_reach_every_run"], "note": "Compiler settings are covered by C67, configuration files by C68-C70."},
 {"property": "C88", "status": "partial", "theorems": ["C88_recognized_as_what_it_is", "C88_refused_when_nothing", "C88_nameless_refuted", "C88_tree_files_load", "C88_source_files_load", "C88_runs_mutate_trees"], "note": "The code violates the statement for paths without a file name only, where it aborts; everything else is proved."},
 {"property": "C89", "status": "proved", "theorems": ["C89_vyper_text_reads_back", "C89_printed_vyper_reads_back", "C89_same_text_same_program", "C89_every_vyper_program_refuted"], "note": "On the sublanguage of C65. Outside it the printer drops operands and two programs share a text: the refuted theorem."},
 {"property": "C90", "status": "proved", "theorems": ["C90_commented_vyper_reads_back", "C90_programs_without_comments"], "note": "On the sublanguage of C65/C89. That printing returns is a hypothesis here: C85 says when it does, C86 that a comment with a very long word makes it diverge."},
 {"property": "C91", "status": "proved", "theorems": ["C91_vyper_mutants_are_one_edit", "C91_vyper_mutants_read_as_one_edit", "C91_vyper_operators_make_one_edit"], "note": "The edits are listed in SpecVyEdit.v (vy_edit), apart from the operators. Outside the quantifier: a program of one definition can lose it, then pass stands at the top level and the text is no program (C91_single_definition); integers of 2^63 and more are printed as decimals; interface blocks."},
 {"property": "C92", "status": "proved", "theorems": ["C92_solidity_text_reads_back", "C92_printed_solidity_reads_back", "C92_same_text_same_program", "C92_every_solidity_program_refuted"], "note": "On the sublanguage of C78. Outside it the printer writes an inline array as a tuple and two programs share a text: the refuted theorem."},
 {"property": "C93", "status": "proved", "theorems": ["C93_solidity_mutants_are_one_edit", "C93_solidity_operators_make_one_edit"], "note": "The edits are listed in SpecSolEdit.v (sol_edit), apart from the operators. Outside the quantifier: SwapLines on a block that is a branch of an if loses the branch (C93_branch_lost, the defect of C09)."},
 {"property": "C94", "status": "proved", "theorems": ["C94_commented_solidity_reads_back"], "note": "The reader is the one of C92. A comment that holds a block is outside fair_comment, and there the claim fails (C94_block_in_a_comment; see C11)."},
 {"property": "C95", "status": "proved", "theorems": ["C95_solidity_mutants_read_as_one_edit"], "note": "The proviso that the edited program has parentheses where the grammar needs them cannot be dropped: the operators change an operator symbol and add no parentheses, and C95_other_program shows a mutant of a - b * c whose tree is a - (b + c) and whose text is read as (a - b) + c."},
 {"property": "C96", "status": "partial", "theorems": ["C96_solidity_mutants_differ_refuted", "C96_solidity_mutants_differ_partial", "C96_solidity_idle_parts", "C96_vyper_mutants_differ_refuted", "C96_vyper_mutants_differ_partial", "C96_vyper_idle_parts"], "note": "Refuted: exchanging the operands of a - a gives a mutant whose text is read as the original, in both languages. Proved for every program without a part that the edit could turn into itself, and that these parts are exactly the ones listed."},
 {"property": "C97", "status": "partial", "theorems": ["C97_vyper_mutants_keep_grouping_refuted", "C97_vyper_mutants_keep_grouping_partial", "C97_vyper_loose_parts"], "note": "Refuted for ArithmeticBinaryOp, SwapOperatorArguments, Integer and FunctionCall by runs whose mutants are read as other programs, such as ~x ** y. Proved for every program without a loose part for the kind of the mutant, with the provisos on the original program; and the loose parts are exactly the ones an edit can go wrong at."},
 {"property": "C98", "status": "partial", "theorems": ["C98_solidity_mutants_keep_grouping_refuted", "C98_solidity_mutants_keep_grouping_partial", "C98_solidity_loose_parts"], "note": "Refuted for seven kinds of mutation by runs whose mutants are read as other programs, such as x - y + z for x - (y + z). Proved for every program without a loose part for the kind of the mutant, with the provisos on the original program (and C95's about branches and empty blocks); and the loose parts are exactly the ones an edit can go wrong at."},
 {"property": "C99", "status": "partial", "theorems": ["C99_solidity_programs_once_refuted", "C99_solidity_programs_once_partial", "C99_solidity_texts_once_partial"], "note": "Refuted: of g(g(a)) a run writes the text of g(a) twice, for the outer and for the inner call. Proved for the seven kinds of mutation that change one word (the operators and delegatecall): any two of them in a run are different programs with different texts. Missing: the other kinds."},
 {"property": "C100", "status": "partial", "theorems": ["C100_vyper_programs_once_refuted", "C100_vyper_programs_once_partial", "C100_vyper_texts_once_partial"], "note": "Refuted: of g(g(x)) a run writes the text of g(x) twice, for the outer and for the inner call. Proved for the five kinds of mutation that change a binary operator: any two of them in a run are different programs with different texts. Missing: the other kinds."},
 {"property": "C101", "status": "proved", "theorems": ["C101_mutants_stay", "C101_other_files_stay"], "note": "File contents are the printed texts; links between files are left out, as are files that the compilers write themselves."},
 {"property": "C102", "status": "partial", "theorems": ["C102_original_stays_refuted", "C102_original_stays_partial"], "note": "Refuted: when the output directory is the directory for temporary files, validating a mutant removes the printed original. Proved when the temporary file is another file."},
 {"property": "C103", "status": "partial", "theorems": ["C103_mutants_of_every_input_stay_refuted", "C103_mutants_of_every_input_stay_partial"], "note": "Refuted: with the inputs x.ast and x.ast_0.sol the printed original of the second takes the place of the first mutant of the first. Proved when no later input has the name of an earlier one, or that name with an underscore and something more."},
 {"property": "C104", "status": "partial", "theorems": ["C104_configurations_apart_refuted", "C104_configurations_apart_partial"], "note": "Refuted: x.sol and x.vy save their different configurations in one file, x.mgnx. Proved for inputs whose names differ before the extension and are not called like a configuration file."},
 {"property": "C105", "status": "proved", "theorems": ["C105_solidity_files_read_as_one_edit", "C105_solidity_files_differ", "C105_vyper_files_read_as_one_edit", "C105_vyper_files_differ"], "note": "The joint statement of C33, C91, C95, C99, C100 and C101, with their conditions on the program."},
 {"property": "C106", "status": "partial", "theorems": ["C106_container_compiles_refuted", "C106_container_compiles_partial", "C106_other_files_missed", "C106_tree_left_refuted", "C106_tree_left_partial"], "note": "The code violates the full statement: it mounts the directory of the file as /code but gives the compiler the host's name of the file and of the output. Proved for files in a host directory /code and files written ./name; proved that no other file can be compiled in the container, and that with a temporary directory outside /code the tree never reaches the host."},
 {"property": "C107", "status": "partial", "theorems": ["C107_program_on_the_output_refuted", "C107_pretty_print_output_partial", "C107_mutate_output_partial"], "note": "Refuted: main.rs prints the elapsed time to the standard output, and generate_mutations its remarks, so the output of either command for a Solidity program that reads well cannot be read as one. Partial: what the output is exactly (mutate: for a command with one file that saves no configuration)."},
 {"property": "C108", "status": "proved", "theorems": ["C108_written_mutants_announced", "C108_nothing_else_announced"], "note": "For commands that reach their end and write to files. The order of hash maps is any rearrangement."},
 {"property": "C109", "status": "partial", "theorems": ["C109_status_tells_refuted", "C109_pretty_print_status_partial", "C109_mutate_status_partial"], "note": "Refuted: with a file that is not there both commands end with status 0. Partial: commands that succeed end with status 0."},
 {"property": "C110", "status": "partial", "theorems": ["C110_assembly_text_refuted", "C110_assembly_text_partial"], "note": "Refuted by four constructs: a variable without a value is printed with ':=' and nothing after it, several results are put in parentheses (no Yul), a hexadecimal string whose bytes are no text vanishes, quotes in a string are not escaped. Proved for all assembly without these, of any shape, mixed with any statements of C78, on trees with at most 36 levels of indentation and lines of at most 150 characters."},
 {"property": "C111", "status": "partial", "theorems": ["C111_assembly_read_back_refuted", "C111_assembly_read_back_partial"], "note": "Refuted: 'let x' followed by 'f()' is printed as a text that is read as 'let x := f()', which compiles and means something else; the same with a hexadecimal value that is no text. Proved for all assembly without the four constructs of C110, with a reader written from the grammar of the language."},
 {"property": "C112", "status": "partial", "theorems": ["C112_documentation_is_comment_partial", "C112_documentation_is_comment_refuted"], "note": "Proved for every text without the two characters that end a comment, for every geometry and position. Refuted in general: documentation after /// may hold contracts/**/*.sol, and is printed between /** and */, so the comment ends too early."},
 {"property": "C113", "status": "partial", "theorems": ["C113_documented_declaration_partial", "C113_documented_declaration_refuted"], "note": "Proved when the documentation does not have the two characters that end a comment. Refuted otherwise: the tokens of the declaration then follow tokens from the documentation."},
 {"property": "C114", "status": "partial", "theorems": ["C114_documented_program_partial", "C114_documented_program_refuted"], "note": "Proved for documentation without the two characters that end a comment, and the programs of C92. Refuted otherwise: documentation with contracts/**/*.sol gives a text that is no program, another text gives a program with one more contract."},
 {"property": "C115", "status": "partial", "theorems": ["C115_function_doc_string_partial", "C115_module_doc_string_partial", "C115_program_doc_strings_partial", "C115_doc_string_refuted"], "note": "Holds for the texts that can stand between three quotes as they are (plain_doc); refuted with a quote and with a backslash at the end of the text."},
 {"property": "C116", "status": "proved", "theorems": ["C116_documented_assembly"], "note": "For the crate's geometry (4, 150).  A line ends at a line feed, for the printer and for the reader of SpecSolRead.v; the compiler gives documentation with line feeds only."},
 {"property": "C117", "status": "proved", "theorems": ["C117_documented_assembly_block"], "note": "For the assembly among the statements of the block itself, and the blocks C111 is proved for; for other blocks C111 is refuted even without documentation."}
]}
