{"claims": [
{"property": "C01", "status": "proved", "theorems": ["C01_parse_terminates", "C01_depth_bounded_by_length"], "note": "parse is total in the model with recursion depth length+1; any larger depth gives the same answer. Stack size and running time are not modelled."},
{"property": "C02", "status": "proved", "theorems": ["C02_nothing_left_over", "C02_rules_consume_prefixes", "C02_leftover_branch_dead"], "note": ""},
{"property": "C03", "status": "proved", "theorems": ["C03_leading_white_space", "C03_leading_pipe"], "note": ""},
{"property": "C04", "status": "partial", "theorems": ["C04_integer_argument", "C04_decimal_read_exactly", "C04_operand_read_exactly", "C04_operand_overflow_becomes_field", "C04_overflow_rejected_refuted"], "note": "Exactness proved; rejection of overflowing digits proved for integer arguments and refuted for operands of expressions, which become field names."},
{"property": "C05", "status": "proved", "theorems": ["C05_no_reserved_names"], "note": ""},
{"property": "C06", "status": "proved", "theorems": ["C06_keyword_case", "C06_search_keyword_case"], "note": ""},
{"property": "C07", "status": "proved", "theorems": ["C07_eval_reads_what_is_written", "C07_search_reads_what_is_written", "C07_every_tree_can_be_written"], "note": "Names are words joined by dots, of letters, digits and _ - / % { }, the first character a letter or _; strings are well quoted as written (double quotes only after backslashes), contain no * and @ and do not start with white space; numbers are integers and decimal fractions of up to 15 digits in shortest form; quoted snap times such as -1d@d+5h are read as times."},
{"property": "C08", "status": "partial", "theorems": ["C08_chains_group_from_the_right", "C08_subtraction_groups_to_the_left_refuted"], "note": "False of the code: every chain groups from the right (proved for all lengths), 10 - 3 - 2 is read as 10 - (3 - 2)."},
{"property": "C09", "status": "partial", "theorems": ["C09_where_and_binds_tighter", "C09_eval_and_binds_tighter_refuted", "C09_every_condition_can_be_written", "C09_eval_or_first_refuted"], "note": "Proved for where, in any layout and letter case, with AND also left out, terms being comparisons with numbers, strings, unquoted words or calls, IN lists, calls, NOT and parentheses; false of the code for eval: whatever is joined, a OR b AND c is read as (a OR b) AND c."},
{"property": "C10", "status": "partial", "theorems": ["C10_last_occurrence_wins", "C10_default_when_absent", "C10_order_irrelevant", "C10_wrong_type_is_error_refuted"], "note": "Reading of options proved; that parse() reports a wrong type is refuted (the text falls back to an implicit search)."},
{"property": "C11", "status": "proved", "theorems": ["C11_quoted_search_unescaped"], "note": ""},
{"property": "C12", "status": "proved", "theorems": ["C12_pieces_and_calls_spell_the_text", "C12_detection_is_total", "C12_written_calls_are_detected"], "note": "Soundness for every text, totality, and completeness for texts written from plain calls."},
{"property": "C13", "status": "proved", "theorems": ["C13_macro_free_text_is_only_trimmed", "C13_results_are_left_alone"], "note": "Every library and every regular-expression oracle."},
{"property": "C14", "status": "partial", "theorems": ["C14_bad_calls_are_errors", "C14_values_replace_parameters_partial", "C14_calls_are_unfolded_partial", "C14_each_parameter_gets_its_value_refuted", "C14_missing_arguments_refuted", "C14_unknown_names_refuted", "C14_bare_calls_keep_the_parameters_refuted", "C14_other_names_keep_the_parameters_refuted"], "note": "False of the code in general: values that look like later parameters are substituted again; a call without arguments, or with names that are no parameters, leaves the parameters in the text. Wrong numbers of given arguments are proved to be errors. Substitution, positional and by name and also inside what calls stand for, to any depth, is proved for values without dollar signs and backslashes and for parameters kept apart by a character that cannot stand in a name."},
{"property": "C15", "status": "partial", "theorems": ["C15_substitution_terminates_refuted", "C15_ranked_calls_partial", "C15_substitution_terminates_partial"], "note": "False of the code: a macro that calls itself and adds text is expanded forever. Proved for every set of calls, with arguments, that can be ranked; and (C14_calls_are_unfolded_partial) for every text that has a finite unfolding, with the unfolding as result."},
{"property": "C16", "status": "proved", "theorems": ["C16_runtime_accepts_more"], "note": "Every pipeline, any two hash orders."},
{"property": "C17", "status": "partial", "theorems": ["C17_no_runtime_code_partial", "C17_pieces_spell_the_text", "C17_no_runtime_code_refuted", "C75_dotted_functions_are_copied_refuted"], "note": "Proved for every pipeline whose own function names have no dot; false otherwise: 'stats functions.eval.len as c' is rendered as a call of functions.eval.len."},
{"property": "C18", "status": "proved", "theorems": ["C18_names_unique_and_defined_before_use"], "note": "Every pipeline, mode and nesting."},
{"property": "C19", "status": "partial", "theorems": ["C19_statements_without_runtime", "C19_statements_then_expression_partial", "C19_statements_then_expression_refuted", "C19_frames_between_calls_refuted"], "note": "False of the code: a non-runtime command between two runtime commands puts an assignment inside call arguments. Proved without the runtime, and with it when runtime commands stand together."},
{"property": "C20", "status": "partial", "theorems": ["C20_earlier_result_is_used_partial", "C20_commands_add_their_text_partial", "C20_earlier_result_is_used_refuted", "C20_earlier_commands_discarded_refuted"], "note": "Proved when no later command starts over; false for makeresults, multisearch and a search naming an index: without the runtime the code of everything before such a command is dropped, for every pipeline."},
{"property": "C21", "status": "proved", "theorems": ["C21_untranslatable_commands_raise"], "note": "The ten commands that are parsed but never translated, at any depth."},
{"property": "C22", "status": "partial", "theorems": ["C22_no_alias_inside_an_operand_partial", "C22_runtime_conditions_refuted"], "note": "Proved for every operand, receiver, condition and assigned column; false for the positional arguments of a runtime search call."},
{"property": "C23", "status": "partial", "theorems": ["C23_columns_read_as_built_partial", "C23_programs_read_as_built_partial", "C23_method_on_negation_refuted", "C23_concatenation_refuted", "C23_negation_and_cast_refuted"], "note": "False of the code: a method called on a negation (tostring(NOT a)) and the concatenation operator are read differently by Python (refuted; for every e, tostring(NOT e) becomes the code of NOT tostring(e)). Proved, for columns and whole programs of any depth, that Python's reading is exactly the built tree when no method is called on a negation, operators exist in Python, names need no escaping and texts are literals Python reads to their closing quote (with one-character escapes); missing: exactly those excluded forms."},
{"property": "C24", "status": "partial", "theorems": ["C24_string_values_survive_partial", "C24_escaped_values_survive_partial", "C24_string_values_survive_refuted", "C24_backslash_refuted"], "note": "False of the code: strings with a single quote are not escaped (refuted, including injection of code), and a backslash that is not doubled can change the value. Proved from query text to Python reading, for all strings without single quotes, line breaks, * and @ that do not start with white space: written with a backslash before double quotes and backslashes, the value is the string; written plainly, the value is the string if its backslashes stand before characters without meaning after one."},
{"property": "C25", "status": "partial", "theorems": ["C25_boolean_literals_are_python_refuted", "C25_booleans_in_lower_case_refuted", "C25_booleans_in_where_refuted"], "note": "False of the code: in every use boolean constants are written true/false, which Python reads as undefined names (refuted)."},
{"property": "C26", "status": "partial", "theorems": ["C26_operator_keywords_any_case_refuted", "C26_where_keywords_any_case_partial"], "note": "False of the code: lower case and/or are copied into the code by search and eval, lower case not is refused (refuted). Proved for where conditions of comparisons, IN lists, AND, OR, NOT and parentheses. Upper case operators are covered by C07, C09 and C23."},
{"property": "C27", "status": "partial", "theorems": ["C27_where_keeps_the_true_rows_partial", "C27_where_text_keeps_the_true_rows", "C27_search_keeps_the_rows_that_hold_partial", "C27_search_text_partial", "C27_search_refuted", "C27_search_word_refuted", "C27_search_not_refuted", "C27_search_words_are_columns_refuted"], "note": "False of the code: for every field x and number, search NOT x=1 drops all rows without x, and for all words x and y search x=y compares two columns. Proved for where (unknown is not true), from text and after any covered pipeline, and for search on rows that have the fields looked at below NOT. Missing: functions SpecRows does not cover."},
{"property": "C28", "status": "partial", "theorems": ["C28_one_index_partial", "C28_index_below_or_is_refused", "C28_two_indexes_refuted", "C28_index_later_refuted", "C28_both_tables_refuted"], "note": "False of the code: two indexes joined by AND return all rows of both, for all names and tables, and an index constraint later in a pipeline drops the rows so far (C20). Proved for one index in a conjunction; an index below another operator is refused."},
{"property": "C29", "status": "partial", "theorems": ["C29_conditions_exactly_once", "C29_only_searches", "C29_keywords_of_the_conditions", "C29_no_keyword_twice_refuted", "C48_clashing_names_refuted"], "note": "False of the code: a field tested twice for equality gives its keyword twice, which is not a valid call. Proved: the search call carries every condition of the search exactly once and nothing else, and its keywords are those of the equality tests."},
{"property": "C30", "status": "partial", "theorems": ["C30_rendering_is_deterministic_partial", "C30_rendering_is_deterministic_refuted", "C30_order_of_indexes_refuted"], "note": "False of the code: two index terms are united in hash order, so that for any two names the text depends on it. Proved when each search names at most one index."},
{"property": "C31", "status": "partial", "theorems": ["C31_in_is_membership_partial", "C31_empty_list_refuted", "C31_where_in_nothing_refuted", "C31_search_in_nothing_refuted"], "note": "False of the code for an empty list: where then keeps every row, and search looks for the word True. Proved for lists of literals and wildcards on any row."},
{"property": "C32", "status": "partial", "theorems": ["C32_wildcards_partial", "C32_wildcard_rows_partial", "C32_special_characters_refuted", "C32_every_sign_refuted"], "note": "False of the code: % and _ and backslash in a wildcard pattern are not escaped; every pattern with % or _ matches a text it should not. Proved for patterns without them."},
{"property": "C33", "status": "partial", "theorems": ["C33_itemwise_partial", "C33_untranslatable_is_an_error_partial", "C33_same_text_shown_partial", "C33_strftime_partial", "C33_percent_refuted", "C33_unknown_directive_refuted", "C33_letters_refuted", "C33_neighbours_refuted", "C33_wrong_equivalents_refuted", "C33_unknown_directives_are_kept_refuted"], "note": "False of the code: %%H, unknown directives, letters, neighbours of the same unit, and eight directives whose pattern shows something else. Proved: known formats are converted item by item, untranslatable directives are errors, and formats of agreeing directives show the same text of every time, also through strftime on rows."},
{"property": "C34", "status": "partial", "theorems": ["C34_head_keeps_the_first_rows_partial", "C34_head_while_partial", "C34_negative_head_refuted", "C34_negative_counts_refuted"], "note": "False of the code: every negative count becomes 2^64 less (proved for all). Proved for counts from 0 below 2^63 and conditions count < n and count <= n with keeplast, after any covered pipeline."},
{"property": "C35", "status": "partial", "theorems": ["C35_sort_orders_by_the_keys_partial", "C50_negative_limits_refuted"], "note": "Proved for any keys, desc and counts from 0, after any covered pipeline, provided Spark's orderBy sorts. Keys with a function such as num(x) are refused (C68). False of the code: a negative count becomes huge (C50)."},
{"property": "C36", "status": "partial", "theorems": ["C36_eval_assigns_left_to_right_partial", "C36_eval_text_partial", "C36_with_library_partial", "C36_set_cell", "C48_clashing_names_refuted", "C48_clashing_names_fail_refuted"], "note": "Proved from text and after any covered pipeline without the runtime, and with it, for the assignments lib_pipeline admits, by a model of the Python library. Missing: with the runtime, names assigned twice and names that are no Python identifiers become keywords of one call that Python refuses (C05, C48)."},
{"property": "C37", "status": "proved", "theorems": ["C37_rename", "C37_rename_touches_only_its_column", "C37_rename_moves_its_column", "C37_table", "C55_allowing_the_runtime_changes_nothing"], "note": "rename and table have no runtime version: with the runtime allowed the code is the same."},
{"property": "C38", "status": "partial", "theorems": ["C38_fields_keeps_the_listed_fields_partial", "C38_fields_minus_refuted", "C38_minus_is_ignored_refuted"], "note": "False of the code: fields - x keeps x and drops the rest; the sign is ignored everywhere (proved for all pipelines). Proved for fields a, b."},
{"property": "C39", "status": "partial", "theorems": ["C39_join_partial", "C39_match_is_agreement", "C39_unsupported_options_are_refused", "C39_join_max_refuted", "C39_join_overwrite_refuted"], "note": "Proved: rows are paired exactly when they agree on every field and respect the time order; other types and max are refused. False of the code: max=1 keeps all partners and overwrite is ignored rather than refused."},
{"property": "C40", "status": "partial", "theorems": ["C40_stats_partial", "C40_with_library_partial", "C40_untranslatable_aggregation_is_refused", "C40_percentile_column_refuted", "C40_range_refuted", "C40_unknown_function_refuted", "C40_earliest_time_refuted", "C40_span_refuted", "C40_range_fails_refuted", "C40_unknown_aggregations_fail_refuted", "C40_earliest_time_ignores_its_field_refuted"], "note": "Proved, without the runtime and with a model of its library for the aggregations lib_pipeline admits (16 of them, those that depend on the order of time included), for the aggregations of SpecCommands.stat_of (all that exist but range, with AS for percentiles), any number of them, grouped by any fields; and that one untranslatable aggregation makes the command fail. False of the code: percentiles without AS lose their number, range and unknown functions give a program that cannot be run, earliest_time and latest_time count rows without a value, and a field with a span in BY is replaced by a column named window. That first and last see the rows of a group in the order of the frame is an assumption of SpecSpark. For range and unknown names this is shown for all fields, names and rows, and for whatever goes on after them."},
{"property": "C41", "status": "partial", "theorems": ["C41_top_fails_refuted", "C41_top_by_refuted", "C41_top_limit_refuted", "C41_top_and_rare_fail_refuted", "C41_nothing_after_top_refuted", "C41_top_by_ignores_fields_refuted"], "note": "False of the code: the program of every top and rare after any covered pipeline with a row raises (F.count without argument), BY replaces the listed fields, limit= is rejected and a count after an option is taken for a field. Neither can anything that goes on after them."},
{"property": "C42", "status": "partial", "theorems": ["C42_fillnull_all_partial", "C42_fillnull_fields_refuted", "C42_fields_are_ignored_refuted", "C42_with_library_partial"], "note": "False of the code: without the runtime the fields of fillnull are ignored and all columns are filled (proved for all pipelines). Proved for fillnull without fields. With the library the nulls of exactly the named columns are filled with the value cast to their types (C42_with_library_partial)."},
{"property": "C43", "status": "partial", "theorems": ["C43_lookup_refuted", "C43_lookup_adds_nothing_refuted"], "note": "False of the code: every lookup, after any covered pipeline, leaves the rows as they are (it only names the frame), and OUTPUTNEW is an error."},
{"property": "C44", "status": "partial", "theorems": ["C44_bin_refuted", "C44_bin_reads_n_refuted"], "note": "False of the code: the column n is discretised whatever field is named (proved for all fields and spans)."},
{"property": "C45", "status": "proved", "theorems": ["C45_addtotals", "C55_allowing_the_runtime_changes_nothing"], "note": "For any listed fields after any covered pipeline; addtotals has no runtime version."},
{"property": "C46", "status": "partial", "theorems": ["C46_first_branch_partial", "C46_odd_arguments_are_refused_partial", "C46_odd_arguments_refuted", "C46_any_number_refuted"], "note": "Proved without the runtime. False of the code with it: any number of arguments is accepted, after any pipeline."},
{"property": "C47", "status": "proved", "theorems": ["C47_formatting_never_loses_code", "C47_formatting_of_texts"], "note": "The formatter (black) is an oracle that may fail to import, raise or return any text. A returned text is stripped of the white space around it; ASCII white space only is modelled; log lines are not modelled."},
{"property": "C48", "status": "partial", "theorems": ["C48_calls_that_bind_partial", "C48_calls_bind_partial", "C48_datamodel_refuted", "C48_repeated_names_refuted", "C48_clashing_names_refuted", "C48_unbound_calls_fail", "C48_clashing_names_fail_refuted"], "note": "False of the code: the call generated for datamodel gives data_model_name twice, and repeated names (or a field named df, or named like a parameter) give a keyword twice. Proved: exactly which generated calls bind to the signature of the runtime function, and that they all do when names are distinct and not taken. The types of arguments checked when a bound call runs are not part of binding. Commands with such names are shown to give calls that do not bind wherever they stand. A program with a call that does not bind is shown to be impossible to run with the library."},
{"property": "C49", "status": "partial", "theorems": ["C49_library_and_standalone_agree_partial", "C49_same_result_refuted", "C49_first_search_refuted", "C49_fillnull_refuted", "C49_bit_and_refuted", "C49_library_fails_refuted", "C49_datamodel_refuted", "C49_datamodel_never_runs_refuted", "C42_with_library_partial", "C49_first_commands_fail_refuted", "C49_sums_never_run_refuted", "C49_tstats_never_runs_refuted", "C49_lacking_functions_never_run_refuted", "C49_functions_by_name", "C49_conditions_on_functions_never_run_refuted"], "note": "False of the code: the library drops or renames tests of metadata fields, fills nulls differently, returns null from bit_and, and raises for searches without an index, for eval/stats/fillnull in first place, for sum/count(x)/list, for function results used in conditions or operators, for case, tonumber and for every datamodel call. Proved for all tables and all hash orders: for the covered pipelines lib_pipeline describes (search, eval, stats, tstats calls and where/rename/table/fields/head/sort around them) the standalone program and the program run with a model of the Python library both compute exactly the specified rows. Proved for every pipeline that goes on without starting over: a datamodel command, a first eval/stats/fillnull, a sum/list/count(x) in stats or tstats, an eval that assigns a call of one of the 36 functions of SpecLacks.v, a where on the result of one of the functions listed there, and a tstats after another command or without a data model make the program fail with the library."},
{"property": "C50", "status": "partial", "theorems": ["C34_head_keeps_the_first_rows_partial", "C35_sort_orders_by_the_keys_partial", "C50_tail_keeps_the_last_rows_partial", "C50_negative_limits_refuted", "C50_after_tail_refuted", "C41_top_limit_refuted", "C50_negative_counts_of_sort_refuted", "C50_nothing_after_tail_refuted", "C50_negative_counts_of_tail_refuted"], "note": "False of the code: negative limits become huge unsigned numbers. Proved for head, sort and tail with limits from 0. Nothing that goes on after tail can be run."},
{"property": "C51", "status": "partial", "theorems": ["C51_string_literals_end_at_their_quote_refuted", "C51_between_empty_strings_refuted"], "note": "False of the code: an empty string followed by another empty string is read as one string, whatever is between them."},
{"property": "C52", "status": "partial", "theorems": ["C52_malformed_command_is_error_refuted"], "note": "False of the code: the text is reread as an implicit search."},
{"property": "C53", "status": "partial", "theorems": ["C53_quoted_string_is_exact_partial", "C53_quoted_string_is_exact_refuted", "C53_escapes_are_kept_refuted", "C53_leading_white_space_is_dropped_refuted"], "note": "Proved for strings that do not start with white space (and contain no * or @), as written. False of the code: leading white space is dropped, and a backslash before a quote stays in the value parse() yields (Python removes it again, see C24)."},
{"property": "C54", "status": "partial", "theorems": ["C54_keyword_prefix_is_part_of_name_refuted", "C54_not_splits_names_refuted", "C07_eval_reads_what_is_written"], "note": "False of the code in where (every name with the prefix NOT) and search (AND prefix); proved for eval by C07."},
{"property": "C55", "status": "partial", "theorems": ["C55_pipelines_compute_their_commands", "C55_allowing_the_runtime_changes_nothing", "C55_pipelines_with_the_runtime_allowed"], "note": "Proved for all pipelines of the commands and expressions of SpecCommands and SpecRows. Missing: the runtime's own functions, bin, lookup, top and rare, and the forms of convert and rex that SpecCommands does not list."},
{"property": "C56", "status": "partial", "theorems": ["C56_makeresults_partial", "C56_makeresults_count", "C56_server_group_refuted", "C56_extra_column_refuted", "C56_group_is_code_refuted", "C56_rows_have_id_refuted"], "note": "False of the code: every server group is emitted unquoted and a column id stays. Proved without server group."},
{"property": "C57", "status": "proved", "theorems": ["C57_spath", "C36_set_cell", "C55_allowing_the_runtime_changes_nothing"], "note": "For any path and names that need no escaping, after any covered pipeline; spath has no runtime version."},
{"property": "C58", "status": "proved", "theorems": ["C58_text_gives_code_or_error", "C58_render_does_not_panic"], "note": "Both calls, all texts. The capture-group reader is assumed not to panic itself. Debug builds, where integer overflow panics, are out of the model. A hand-built join without fields does panic (C58_not_of_every_tree)."},
{"property": "C59", "status": "partial", "theorems": ["C59_calls_partial", "C59_field_argument_refuted", "C59_log_refuted", "C59_mvindex_from_the_end_refuted", "C59_sum_refuted", "C59_names_for_contents_refuted", "C59_sum_fails_refuted"], "note": "False of the code: a field where a constant is expected is used by its name, log swaps its arguments, negative list positions are passed to functions that count from the start, sum is an aggregate. Proved without the runtime for the functions and arguments of SpecRows, on any row after any covered pipeline."},
{"property": "C60", "status": "partial", "theorems": ["C60_untranslated_functions_raise_partial", "C60_untranslated_aggregations_raise_partial", "C60_aggregated_calls_raise_partial", "C60_unknown_functions_refuted", "C60_unknown_names_are_copied_refuted"], "note": "False of the code for unknown names (all of them are copied into the program) and with the runtime. Proved without the runtime for the 29 documented functions that are never translated, at any depth of eval, where and the arguments of aggregations, and for the 7 aggregations of stats and tstats that are never translated, also inside sub-searches."},
{"property": "C61", "status": "partial", "theorems": ["C61_wrong_counts_are_refused_partial", "C61_wrong_counts_of_aggregations_are_refused_partial", "C61_counts_refuted", "C61_more_arguments_of_mvindex_refuted", "C61_more_arguments_of_relative_time_refuted"], "note": "False of the code: further arguments of mvindex and relative_time are ignored, optional arguments are refused, the runtime's calls are not checked. Proved: without the runtime a wrong number of arguments is refused at any depth; and for 24 aggregations of stats and tstats."},
{"property": "C62", "status": "partial", "theorems": ["C62_documented_functions_can_be_called_partial", "C62_like_and_in_refuted"], "note": "False of the code: like, in and lookup are reserved words, so the call does not parse. Proved for every other documented function and all arguments."},
{"property": "C63", "status": "partial", "theorems": ["C63_where_takes_expressions_refuted", "C63_where_compares_fields_refuted", "C63_names_on_the_right_are_texts_refuted", "C63_calls_on_the_left_refuted", "C63_sums_on_the_right_refuted"], "note": "False of the code: where takes only calls and comparisons of a field with a constant or a call (proved right for those in C09 and C27); a field on the right is a text, for all fields and tables. Every comparison with a call on its left, and every comparison with a sum on its right, is refused after where although eval reads it."},
{"property": "C64", "status": "partial", "theorems": ["C64_column_names_refuted", "C64_names_of_functions_refuted"], "note": "False of the code: columns are named after the function alone, for all calls, so avg(a) and avg(b) give two columns of one name."},
{"property": "C65", "status": "proved", "theorems": ["C65_groups_are_the_captures", "C65_groups_in_order"], "note": "The parser of regex_syntax is an oracle."},
{"property": "C66", "status": "partial", "theorems": ["C66_rex_extracts_partial", "C66_group_named_as_field_refuted", "C66_no_match_refuted", "C66_regex_rows_partial", "C66_regex_keeps_matches_refuted"], "note": "False of the code: regex passes its pattern to regexp_like as the name of a column; rex overwrites the columns of rows without a match with empty texts and reads later groups from a field a group has replaced. Proved without the runtime: rex extracts every group from the field if the names differ; which rows regex keeps."},
{"property": "C67", "status": "partial", "theorems": ["C67_convert_partial", "C67_memk", "C67_rmunit", "C67_no_unit_refuted", "C67_ctime_partial", "C67_other_conversions_refuted"], "note": "False of the code: memk without unit and rmunit with a space before the unit give the number of an empty text; other conversions become calls of Spark functions. Proved without the runtime for memk, rmunit, rmcomma and ctime."},
{"property": "C68", "status": "partial", "theorems": ["C68_unsupported_options_raise_partial", "C68_options_without_effect_refuted", "C68_rename_wildcard_refuted"], "note": "False of the code for the options listed in SpecOptions.differs_in_option, which have no effect, and for wildcards in rename. Proved: the uses listed in SpecOptions.asks_too_much are refused at any depth in all modes."},
{"property": "C69", "status": "partial", "theorems": ["C69_written_pipelines_are_read_partial", "C69_one_reading_partial", "C69_layout_does_not_matter_partial", "C69_written_pipelines_compute_their_commands_partial"], "note": "Missing: the forms of commands that SpecSpell.body does not list (names in quotes or with stars, colons, at signs or backslashes, tstats with a function and a field separated by a blank, PREFIX). Covered: names with dots, hyphens, slashes, percent signs and braces, all 36 commands with their options, keywords, flags, spans and lists, search also implicit and with several terms, tstats with FROM, WHERE and BY, spath with path=, map with an escaped pipeline in quotes, a bare command name at the end of the text, sub-searches of any number and nesting."},
{"property": "C70", "status": "partial", "theorems": ["C70_addresses_in_networks", "C70_networks_with_masks", "C70_single_addresses", "C70_numbers_are_addresses", "C70_numbers_in_networks", "C70_only_addresses_match", "C70_library_swaps_arguments_refuted", "C70_library_reads_a_column_refuted", "C70_search_compares_texts_refuted", "C70_lengths_of_any_spelling", "C70_longer_lengths_match_nothing"], "note": "False of the code: the function cidr_match is right for all version 4 addresses and networks (proved), but the library's cidrmatch hands it the arguments in the wrong order and takes a network written as a text for a column name, and a search with the runtime compares the network as a text. Version 6 texts are an oracle."},
{"property": "C71", "status": "partial", "theorems": ["C71_first_bits_are_kept_partial", "C71_masks_are_applied_refuted", "C71_null_mask_refuted"], "note": "False of the code: masks written as four bytes all give null and a null mask raises. Proved for all addresses and all masks given as a number of bits."},
{"property": "C72", "status": "partial", "theorems": ["C72_numerals_are_read", "C72_exactly_the_numbers", "C72_other_characters_give_null", "C72_numbers_stay_refuted"], "note": "False of the code: a value that is a number gives null. Proved: all numerals of all bases 2 to 36, with signs, are read, and exactly which texts give a number (white space, sign, prefix, digits with single underscores); all others give null. Texts are Latin-1; digits of other scripts are not modelled."},
{"property": "C73", "status": "partial", "theorems": ["C73_numerals_partial", "C73_round_trip_partial", "C73_commas", "C73_durations_partial", "C73_negative_numbers_refuted", "C73_negative_durations_refuted", "C73_null_and_texts_refuted"], "note": "False of the code: negative numbers lose their sign and keep a letter of the prefix, negative durations are wrong, null and texts raise. Proved: binary, hexadecimal and duration texts of all numbers that are not negative, commas of all integers, and the round trip through tonumber."},
{"property": "C74", "status": "partial", "theorems": ["C74_quiet_screens", "C74_code_comes_from_typed_texts", "C74_copies", "C74_never_dies", "C74_comes_to_rest", "C74_stale_code_refuted"], "note": "False of the code: after a text that cannot be parsed, the pane keeps the code of an earlier text without a mark, and copies it. Everything else is proved for all histories and schedules."},
{"property": "C75", "status": "partial", "theorems": ["C75_names_are_provided_partial", "C75_dotted_functions_refuted", "C75_dotted_functions_are_copied_refuted"], "note": "False of the code for dotted function names, which are copied: stats os.getcwd as c looks up os, stats spark.stop as c stops the session. Proved for every query without dots in function names and every program Python reads as built (plain_df). Missing: names and texts Python does not read to their closing quote, numeric escapes, the lambda of mvzip."},
{"property": "C76", "status": "partial", "theorems": ["C76_quoted_text_runs_refuted", "C76_index_runs_refuted", "C76_index_copied_refuted"], "note": "False of the code: quotes in texts are not escaped, so every piece of Python without star and at sign, double quotes only after backslashes, can be put into the generated program by quoting it in a query. The texts that survive are those of the theorems of C24."},
{"property": "C77", "status": "proved", "theorems": ["C77_registry_gives_the_latest"], "note": ""},
{"property": "C78", "status": "partial", "theorems": ["C78_first_answer", "C78_any_loader_refuted"], "note": "The order of answers is proved in full. False of the code in one reading: a macro one of the loaders has is not found if an earlier folder loader finds two files of that name."},
{"property": "C79", "status": "partial", "theorems": ["C79_answers_come_from_files", "C79_first_definition_is_kept", "C79_changes_are_seen_refuted", "C79_other_names_refuted"], "note": "False of the code: a definition is kept after the first lookup, so changed files are not seen; a star in a macro name finds files of other names. Proved: where answers come from, for names without wildcards and slashes, and that the first definition is kept for ever. Links, and patterns with slashes, are an oracle."},
{"property": "C80", "status": "proved", "theorems": ["C80_lookups_disturb_nothing", "C80_substitution_through_loaders"], "note": ""},
{"property": "C81", "status": "proved", "theorems": ["C81_only_its_variable", "C81_in_every_notebook"], "note": "argparse's reading of the cell's first line is not modelled."},
{"property": "C82", "status": "partial", "theorems": ["C82_cells_depend_on_four_names_partial", "C82_dotted_functions_refuted", "C75_dotted_functions_are_copied_refuted"], "note": "False of the code for function names with dots: stats os.getcwd as c uses the notebook's os. Proved for the queries and programs of C75 and formatted code Python reads as it reads the code. Missing: names and texts Python does not read to their closing quote, numeric escapes; the lambda of mvzip, whose F is looked up in the notebook's variables (not modelled)."},
{"property": "C83", "status": "partial", "theorems": ["C83_unknown_options_are_ignored", "C83_unknown_options_are_reported_refuted"], "note": "False of the code for every command with options: an option with any unknown name and any value in front of any text changes nothing (proved), e.g. join tpye=left is an inner join. Missing: nothing of the false claim; that options elsewhere than in front are ignored too is not stated."},
{"property": "C84", "status": "partial", "theorems": ["C84_blanks_do_not_matter_partial", "C84_operators_in_names_refuted"], "note": "False of the code: - and / (and * and .) belong to names and numbers, so a-b, bytes/1024 and 10-3 are read as one column, for all names; and the dot that joins texts needs white space after it. Proved: white space is free around every other operator after a closing parenthesis or quote, around comparisons and +, and after -, *, /, AND and OR."},
{"property": "C85", "status": "partial", "theorems": ["C85_relative_time_partial", "C85_sunday_refuted", "C85_specifiers_refuted"], "note": "False of the code: @w0 is cut down to Monday like @w, and specifiers without the at sign, days of the week, quarters, years and repeated offsets are refused. Proved without the runtime for every time expression of SpecRows and every specifier made of spans in seconds to months."}
]}
