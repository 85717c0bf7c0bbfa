# Formal model of rearc/spl_transpiler in Rocq (Coq 8.16.1)

## 1. What is modelled, where

Model files contain definitions only, each with the file and lines it models.
Specification files are independent of the model's own helpers.
Fact files hold lemmas. `Props*.v` hold the property theorems and nothing else:
each is closed by `exact lemma`, followed by `Print Assumptions` and by an
`Example` that meets its hypotheses.

| model file (rocq/theories) | models |
|---|---|
| `Str.v` | the Rust `str`/`String` operations used, results, `i64`/`u64` |
| `SplAst.v` | `src/spl/ast.rs`, `src/spl/ast_impls.rs`, the command structs |
| `Nom.v`, `Lexer.v`, `Parser.v`, `CmdParser.v` | nom 7 combinators, `src/spl/parser.rs`, `src/spl/operators.rs`, `src/commands/spl.rs`, `src/commands/*/spl.rs`, `src/lib.rs: parse` |
| `Macros.v` | `src/spl/macros.rs`, `python/spl_transpiler/macros.py` |
| `PyAst.v`, `Render.v` | `src/pyspark/ast.rs`, `alias.rs`, `base.rs` |
| `Functions.v` | `src/functions/*.rs`, `src/pyspark/transpiler/utils.rs` |
| `Transpile.v` | `src/pyspark/transpiler/expr.rs` |
| `Commands.v` | `src/commands/cmd_*/pyspark.rs`, `stats_utils.rs`, `src/pyspark/transpiler/mod.rs`, `src/lib.rs: render_pyspark` |
| `Regex.v` | `src/commands/regex_utils.rs` |
| `Api.v` | parse followed by render_pyspark |
| `Format.v` | `src/format_python.rs`, `format_code` |
| `Runtime.v` | `python/spl_transpiler/runtime/{base,config}.py`, `commands/*.py`, `functions/{eval,stats}.py` |
| `Udfs.v` | `python/spl_transpiler/runtime/udfs/__init__.py` and the parts of Python's `ipaddress` and `int` it uses |
| `Live.v` | `python/spl_transpiler/live_translator.py`: the terminal interface as a machine over events |
| `Loaders.v` | `python/spl_transpiler/macros.py`: the loader objects, their cache, and the files they read |
| `Notebook.v` | `python/spl_transpiler/runtime/magic.py`, `runtime/utils.py`: the notebook cell command |
| `TestsE2E.v` | the repository's own end-to-end tests, run on the model (tests of fidelity, not proofs) |
| `TestsParse.v` | 190 assertions of the repository's parser tests, translated by a script and run on the model; left out are the test of an unused function (`filename`), and three comparisons of two parsers with each other |
| `TestsUnits.v` | the repository's tests of macros, functions and translation, run on the model. Two Python tests under tests/runtime (`test_transpiled_eval`, `test_transpiled_search`) expect code that the Rust tests and the model do not give; they are older than the code |

| specification file | says |
|---|---|
| `SpecText.v`, `SpecExpr.v`, `SpecMacro.v`, `SpecFormat.v` | texts, written expressions, macro calls, formatters |
| `SpecPipe.v` | commands of a pipeline, names, parts of data frames |
| `SpecPy.v` | how Python reads a text: lexer, expression reader, assignments |
| `SpecCol.v`, `SpecFrame.v` | the Python tree a column or data frame stands for |
| `SpecSpark.v` | what PySpark computes from a Python tree on tables |
| `SpecRows.v`, `SpecCommands.v` | what SPL expressions, conditions and commands do to rows and tables |
| `SpecResult.v`, `SpecEffect.v` | `covered`, `gives`, `text_gives`, effects of single commands |
| `SpecAfter.v` | commands after which a pipeline cannot be run |
| `SpecTime.v` | what SPL formats and Spark patterns show of a time |
| `SpecRegex.v` | capture groups, their numbers, matching of anchored patterns, numbers with units |
| `SpecOptions.v` | uses of commands that must be refused; options without effect |
| `SpecUdf.v` | addresses, numerals, digit groups, clock texts |
| `SpecLive.v` | histories of a session of the terminal interface |
| `SpecLoaders.v` | sessions with macro loaders and changing files |
| `SpecPyRun.v`, `SpecNotebook.v` | how Python runs assignments and expressions; what a cell may see |
| `SpecNames.v` | names a Python program looks up, and those provided |
| `SpecCall.v`, `SpecRuntime.v` | Python's binding of calls; pipelines the library computes correctly |

Chain of a row theorem: query text -> `parse` -> `render_pyspark` -> Python text ->
(`SpecPy` reader) tree -> (`SpecSpark`, or `Runtime` and `SpecSpark`) table. The
other side is `SpecCommands.run` on the same tables.

Conventions of the model.

* Characters are Coq `ascii` (256 values). Rust `char`s above U+007F are all
  treated alike by the code except in `tag_no_case` (Unicode lower casing of
  e.g. the Kelvin sign) and in Unicode white space; that difference is not modelled.
* `Result` is data (`Ok`/`Err`); panics are a separate value `Panic`.
* `i64` is `Z` with explicit range checks and wraps where the code can leave the range.
* The shared counter `Rc<AtomicUsize>` is threaded as a state that survives errors,
  exactly because a failed runtime attempt has already advanced it.
* `HashSet` iteration order is an explicit argument (an oracle), never fixed.
* The regex crate, Python's `re` and black are oracles: theorems hold for every answer.
* The recursive parser takes fuel; running out is an explicit result, and C01 shows it
  does not occur.
* Doubles are carried as the text Rust's `Display` prints for them.

## 2. What is not modelled

* `src/spl/python.rs`, `src/spl/to_spl.rs`, `src/pyspark/mod.rs`: Python class
  wrappers of the syntax tree and (empty) SPL printing.
* The reading of the notebook cell's command line (argparse). Of `live_translator.py` the layout, the labels of the tree and
  the wording of the log; textual delivers the messages of one widget in order, and a handler runs
  without interruption.
* `runtime/udfs/__init__.py`: `printf`; version 6 addresses, `int(text, 0)` and digits of other
  scripts (oracles); Spark's conversion of results to 32 bits. In the row semantics a call of a
  user defined function is an uninterpreted function of its arguments; `C70` links one of them.
* In the row semantics: floating point arithmetic, Spark's comparison, sorting and scalar
  functions are oracles (record `Spark`), the same ones on both sides. Theorems that need
  more, such as `orderBy` sorting, say so in a hypothesis. Rows are untyped; schemas
  exist only as the oracle `column_type`. Spark's `fillna` with a text is modelled as filling
  every null; real Spark leaves columns of other types alone.
* Warnings, log lines, stack depth, memory and running time.


## 3. Per property: how it is modelled and proved, and the result

* **C01** parse() always terminates with a pipeline or a ValueError.
  Plan: Parser as fuel-indexed combinators with an explicit out-of-fuel and panic result; prove by induction that fuel = length+1 never runs out and panic is unreachable.
  Result: proved. parse is total in the model with recursion depth length+1; any larger depth gives the same answer. Stack size and running time are not modelled.
  Theorems: `C01_parse_terminates`, `C01_depth_bounded_by_length`.
* **C02** A successful parse accounts for the whole text.
  Plan: Suffix invariant for every combinator and every grammar rule, by the same induction; all_consuming forces the empty rest.
  Result: proved.
  Theorems: `C02_nothing_left_over`, `C02_rules_consume_prefixes`, `C02_leftover_branch_dead`.
* **C03** Leading white space and one leading pipe are insignificant.
  Plan: Equational reasoning on pipeline/multispace0.
  Result: proved.
  Theorems: `C03_leading_white_space`, `C03_leading_pipe`.
* **C04** Integer literals are read exactly or rejected.
  Plan: Round trip decimal printer / int parser, by induction on digits.
  Result: partial. Exactness proved; rejection of overflowing digits proved for integer arguments and refuted for operands of expressions, which become field names.
  Theorems: `C04_integer_argument`, `C04_decimal_read_exactly`, `C04_operand_read_exactly`, `C04_operand_overflow_becomes_field`, `C04_overflow_rejected_refuted`.
* **C05** Reserved words are never taken as bare names.
  Plan: Invert verify in token; independent list of reserved words in the statement.
  Result: proved.
  Theorems: `C05_no_reserved_names`.
* **C06** Command keywords are case-insensitive.
  Plan: tag_no_case lemma quantified over case-variants.
  Result: proved.
  Theorems: `C06_keyword_case`, `C06_search_keyword_case`.
* **C07** Parenthesised eval expressions mean what they show.
  Plan: Independent printer of trees; round trip by induction on the tree.
  Result: proved. Names are words joined by dots, of letters, digits and _ - / % { }, the first character a letter or _; strings are well quoted as written (double quotes only after backslashes), contain no * and @ and do not start with white space; numbers are integers and decimal fractions of up to 15 digits in shortest form; quoted snap times such as -1d@d+5h are read as times.
  Theorems: `C07_eval_reads_what_is_written`, `C07_search_reads_what_is_written`, `C07_every_tree_can_be_written`.
* **C08** Unparenthesised subtraction and division chains group to the left.
  Plan: Chain printer; prove what the parser builds (right nesting), refute the left reading with a witness on integers.
  Result: partial. False of the code: every chain groups from the right (proved for all lengths), 10 - 3 - 2 is read as 10 - (3 - 2).
  Theorems: `C08_chains_group_from_the_right`, `C08_subtraction_groups_to_the_left_refuted`.
* **C09** AND binds tighter than OR in where and in eval.
  Plan: AND binds tighter than OR everywhere. Chains in both grammars; prove for search/where, refute for eval.
  Result: partial. Proved for where, in any layout and letter case, with AND also left out, terms being comparisons with numbers, strings, unquoted words or calls, IN lists, calls, NOT and parentheses; false of the code for eval: whatever is joined, a OR b AND c is read as (a OR b) AND c.
  Theorems: `C09_where_and_binds_tighter`, `C09_eval_and_binds_tighter_refuted`, `C09_every_condition_can_be_written`, `C09_eval_or_first_refuted`.
* **C10** Command options: last one wins, defaults apply, wrong types are errors.
  Plan: Model ParsedCommandOptions; specification by last occurrence; induction over the list.
  Result: partial. Reading of options proved; that parse() reports a wrong type is refuted (the text falls back to an implicit search).
  Theorems: `C10_last_occurrence_wins`, `C10_default_when_absent`, `C10_order_irrelevant`, `C10_wrong_type_is_error_refuted`.
* **C11** A quoted sub-search is unescaped exactly.
  Plan: Escape function in the spec; prove unescape (escape s) = s by induction.
  Result: proved.
  Theorems: `C11_quoted_search_unescaped`.
* **C12** detect_macros partitions the text.
  Plan: Model spl_macros; induction over the chunk list.
  Result: proved. Soundness for every text, totality, and completeness for texts written from plain calls.
  Theorems: `C12_pieces_and_calls_spell_the_text`, `C12_detection_is_total`, `C12_written_calls_are_detected`.
* **C13** substitute_macros is the identity up to outer trimming on macro-free text and idempotent.
  Plan: Model substitute_macros with fuel, fixed-point argument.
  Result: proved. Every library and every regular-expression oracle.
  Theorems: `C13_macro_free_text_is_only_trimmed`, `C13_results_are_left_alone`.
* **C14** Macro arity is enforced and every argument is substituted.
  Plan: Case analysis on the call; substitution lemma.
  Result: partial. False of the code in general: values that look like later parameters are substituted again; a call without arguments, or with names that are no parameters, leaves the parameters in the text. Wrong numbers of given arguments are proved to be errors. Substitution, positional and by name and also inside what calls stand for, to any depth, is proved for values without dollar signs and backslashes and for parameters kept apart by a character that cannot stand in a name.
  Theorems: `C14_bad_calls_are_errors`, `C14_values_replace_parameters_partial`, `C14_calls_are_unfolded_partial`, `C14_each_parameter_gets_its_value_refuted`, `C14_missing_arguments_refuted`, `C14_unknown_names_refuted`, `C14_bare_calls_keep_the_parameters_refuted`, `C14_other_names_keep_the_parameters_refuted`.
* **C15** substitute_macros terminates.
  Plan: Divergence witness proved for every fuel (refuted) and termination for ranked libraries (partial).
  Result: partial. False of the code: a macro that calls itself and adds text is expanded forever. Proved for every set of calls, with arguments, that can be ranked; and (C14_calls_are_unfolded_partial) for every text that has a finite unfolding, with the unfolding as result.
  Theorems: `C15_substitution_terminates_refuted`, `C15_ranked_calls_partial`, `C15_substitution_terminates_partial`.
* **C16** allow_runtime=True never rejects what allow_runtime=False accepts.
  Plan: Induction over pipelines and expressions comparing the two modes.
  Result: proved. Every pipeline, any two hash orders.
  Theorems: `C16_runtime_accepts_more`.
* **C17** allow_runtime=False emits no runtime code.
  Plan: Induction over pipelines/expressions: absence of runtime nodes, hence empty preface.
  Result: partial. Proved for every pipeline whose own function names have no dot; false otherwise: 'stats functions.eval.len as c' is rendered as a call of functions.eval.len.
  Theorems: `C17_no_runtime_code_partial`, `C17_pieces_spell_the_text`, `C17_no_runtime_code_refuted`, `C75_dotted_functions_are_copied_refuted`.
* **C18** Intermediate data frame names are unique and defined before use.
  Plan: Invariant: names created are exactly the counter interval; induction over pipelines with sub-searches.
  Result: proved. Every pipeline, mode and nesting.
  Theorems: `C18_names_unique_and_defined_before_use`.
* **C19** Generated runtime code is a sequence of assignments followed by one expression.
  Plan: Well-formedness of rendered programs for chains of runtime commands; refuted with a witness for mixed chains.
  Result: partial. False of the code: a non-runtime command between two runtime commands puts an assignment inside call arguments. Proved without the runtime, and with it when runtime commands stand together.
  Theorems: `C19_statements_without_runtime`, `C19_statements_then_expression_partial`, `C19_statements_then_expression_refuted`, `C19_frames_between_calls_refuted`.
* **C20** Pipelines compose.
  Plan: fold_left composition law plus rendering.
  Result: partial. Proved when no later command starts over; false for makeresults, multisearch and a search naming an index: without the runtime the code of everything before such a command is dropped, for every pipeline.
  Theorems: `C20_earlier_result_is_used_partial`, `C20_commands_add_their_text_partial`, `C20_earlier_result_is_used_refuted`, `C20_earlier_commands_discarded_refuted`.
* **C21** Unsupported constructs raise instead of vanishing.
  Plan: Case analysis per command, lifted to pipelines by induction.
  Result: proved. The ten commands that are parsed but never translated, at any depth.
  Theorems: `C21_untranslatable_commands_raise`.
* **C22** No alias inside an operand.
  Plan: Alias-free predicate preserved by all constructors; induction over expressions.
  Result: partial. Proved for every operand, receiver, condition and assigned column; false for the positional arguments of a runtime search call.
  Theorems: `C22_no_alias_inside_an_operand_partial`, `C22_runtime_conditions_refuted`.
* **C23** Python reads generated column expressions with the intended grouping.
  Plan: Independent reader for Python expressions (tokens, precedence) and read (render e) = e, by induction; refuted witness for NOT receivers.
  Result: partial. False of the code: a method called on a negation (tostring(NOT a)) and the concatenation operator are read differently by Python (refuted; for every e, tostring(NOT e) becomes the code of NOT tostring(e)). Proved, for columns and whole programs of any depth, that Python's reading is exactly the built tree when no method is called on a negation, operators exist in Python, names need no escaping and texts are literals Python reads to their closing quote (with one-character escapes); missing: exactly those excluded forms.
  Theorems: `C23_columns_read_as_built_partial`, `C23_programs_read_as_built_partial`, `C23_method_on_negation_refuted`, `C23_concatenation_refuted`, `C23_negation_and_cast_refuted`.
* **C24** String values survive the trip into Python literals.
  Plan: Independent reader of Python string literals; partial theorem for strings without quote/backslash/newline, refuted in general.
  Result: partial. False of the code: strings with a single quote are not escaped (refuted, including injection of code), and a backslash that is not doubled can change the value. Proved from query text to Python reading, for all strings without single quotes, line breaks, * and @ that do not start with white space: written with a backslash before double quotes and backslashes, the value is the string; written plainly, the value is the string if its backslashes stand before characters without meaning after one.
  Theorems: `C24_string_values_survive_partial`, `C24_escaped_values_survive_partial`, `C24_string_values_survive_refuted`, `C24_backslash_refuted`.
* **C25** Boolean literals are valid Python.
  Plan: Refuted by a witness; characterisation of what is emitted.
  Result: partial. False of the code: in every use boolean constants are written true/false, which Python reads as undefined names (refuted).
  Theorems: `C25_boolean_literals_are_python_refuted`, `C25_booleans_in_lower_case_refuted`, `C25_booleans_in_where_refuted`.
* **C26** Operator keywords work in any case.
  Plan: Refuted by a witness; proved for upper case.
  Result: partial. False of the code: lower case and/or are copied into the code by search and eval, lower case not is refused (refuted). Proved for where conditions of comparisons, IN lists, AND, OR, NOT and parentheses. Upper case operators are covered by C07, C09 and C23.
  Theorems: `C26_operator_keywords_any_case_refuted`, `C26_where_keywords_any_case_partial`.
* **C27** Translated conditions have the meaning of the query's condition.
  Plan: Denotation of generated columns over rows vs. denotation of SPL conditions.
  Result: partial. False of the code: for every field x and number, search NOT x=1 drops all rows without x, and for all words x and y search x=y compares two columns. Proved for where (unknown is not true), from text and after any covered pipeline, and for search on rows that have the fields looked at below NOT. Missing: functions SpecRows does not cover.
  Theorems: `C27_where_keeps_the_true_rows_partial`, `C27_where_text_keeps_the_true_rows`, `C27_search_keeps_the_rows_that_hold_partial`, `C27_search_text_partial`, `C27_search_refuted`, `C27_search_word_refuted`, `C27_search_not_refuted`, `C27_search_words_are_columns_refuted`.
* **C28** Splitting a search into indexes and filters is sound.
  Plan: Denotation-based soundness of split_conditions by induction on the tree.
  Result: partial. False of the code: two indexes joined by AND return all rows of both, for all names and tables, and an index constraint later in a pipeline drops the rows so far (C20). Proved for one index in a conjunction; an index below another operator is refused.
  Theorems: `C28_one_index_partial`, `C28_index_below_or_is_refused`, `C28_two_indexes_refuted`, `C28_index_later_refuted`, `C28_both_tables_refuted`.
* **C29** The runtime search call carries every conjunct exactly once.
  Plan: Denotation of the argument lists; duplicates refuted.
  Result: partial. False of the code: a field tested twice for equality gives its keyword twice, which is not a valid call. Proved: the search call carries every condition of the search exactly once and nothing else, and its keywords are those of the equality tests.
  Theorems: `C29_conditions_exactly_once`, `C29_only_searches`, `C29_keywords_of_the_conditions`, `C29_no_keyword_twice_refuted`, `C48_clashing_names_refuted`.
* **C30** Rendering is deterministic.
  Plan: Iteration order as an oracle: table set independent of order (partial), text dependent (refuted).
  Result: partial. False of the code: two index terms are united in hash order, so that for any two names the text depends on it. Proved when each search names at most one index.
  Theorems: `C30_rendering_is_deterministic_partial`, `C30_rendering_is_deterministic_refuted`, `C30_order_of_indexes_refuted`.
* **C31** x IN (list) is membership.
  Plan: Denotation of the disjunction, induction over the list.
  Result: partial. False of the code for an empty list: where then keeps every row, and search looks for the word True. Proved for lists of literals and wildcards on any row.
  Theorems: `C31_in_is_membership_partial`, `C31_empty_list_refuted`, `C31_where_in_nothing_refuted`, `C31_search_in_nothing_refuted`.
* **C32** Wildcards match the same strings.
  Plan: Matching relations for wildcard and LIKE, induction; refuted for % and _.
  Result: partial. False of the code: % and _ and backslash in a wildcard pattern are not escaped; every pattern with % or _ matches a text it should not. Proved for patterns without them.
  Theorems: `C32_wildcards_partial`, `C32_wildcard_rows_partial`, `C32_special_characters_refuted`, `C32_every_sign_refuted`.
* **C33** Time formats are converted directive by directive.
  Plan: Induction over token lists and over the conversion passes; %% refuted.
  Result: partial. False of the code: %%H, unknown directives, letters, neighbours of the same unit, and eight directives whose pattern shows something else. Proved: known formats are converted item by item, untranslatable directives are errors, and formats of agreeing directives show the same text of every time, also through strftime on rows.
  Theorems: `C33_itemwise_partial`, `C33_untranslatable_is_an_error_partial`, `C33_same_text_shown_partial`, `C33_strftime_partial`, `C33_percent_refuted`, `C33_unknown_directive_refuted`, `C33_letters_refuted`, `C33_neighbours_refuted`, `C33_wrong_equivalents_refuted`, `C33_unknown_directives_are_kept_refuted`.
* **C34** head keeps the rows the query asks for.
  Plan: Arithmetic over Z with the u64 wrap explicit; refuted for negatives.
  Result: partial. False of the code: every negative count becomes 2^64 less (proved for all). Proved for counts from 0 below 2^63 and conditions count < n and count <= n with keeplast, after any covered pipeline.
  Theorems: `C34_head_keeps_the_first_rows_partial`, `C34_head_while_partial`, `C34_negative_head_refuted`, `C34_negative_counts_refuted`.
* **C35** sort orders by every key in the asked direction.
  Plan: Induction over keys.
  Result: partial. Proved for any keys, desc and counts from 0, after any covered pipeline, provided Spark's orderBy sorts. Keys with a function such as num(x) are refused (C68). False of the code: a negative count becomes huge (C50).
  Theorems: `C35_sort_orders_by_the_keys_partial`, `C50_negative_limits_refuted`.
* **C36** eval assigns left to right.
  Plan: Row semantics of withColumn; fold; runtime eval model.
  Result: partial. Proved from text and after any covered pipeline without the runtime, and with it, for the assignments lib_pipeline admits, by a model of the Python library. Missing: with the runtime, names assigned twice and names that are no Python identifiers become keywords of one call that Python refuses (C05, C48).
  Theorems: `C36_eval_assigns_left_to_right_partial`, `C36_eval_text_partial`, `C36_with_library_partial`, `C36_set_cell`, `C48_clashing_names_refuted`, `C48_clashing_names_fail_refuted`.
* **C37** rename and table.
  Plan: Row semantics of rename and select.
  Result: proved. rename and table have no runtime version: with the runtime allowed the code is the same.
  Theorems: `C37_rename`, `C37_rename_touches_only_its_column`, `C37_rename_moves_its_column`, `C37_table`, `C55_allowing_the_runtime_changes_nothing`.
* **C38** fields keeps or removes the listed fields.
  Plan: Row semantics; keep proved, remove refuted.
  Result: partial. False of the code: fields - x keeps x and drops the rest; the sign is ignored everywhere (proved for all pipelines). Proved for fields a, b.
  Theorems: `C38_fields_keeps_the_listed_fields_partial`, `C38_fields_minus_refuted`, `C38_minus_is_ignored_refuted`.
* **C39** join matches on every listed field.
  Plan: Denotation of the join condition over row pairs.
  Result: partial. Proved: rows are paired exactly when they agree on every field and respect the time order; other types and max are refused. False of the code: max=1 keeps all partners and overwrite is ignored rather than refused.
  Theorems: `C39_join_partial`, `C39_match_is_agreement`, `C39_unsupported_options_are_refused`, `C39_join_max_refuted`, `C39_join_overwrite_refuted`.
* **C40** stats yields one column per aggregation, grouped by the listed fields.
  Plan: Shape theorem by induction over the lists.
  Result: partial. Proved, without the runtime and with a model of its library for the aggregations lib_pipeline admits (16 of them, those that depend on the order of time included), for the aggregations of SpecCommands.stat_of (all that exist but range, with AS for percentiles), any number of them, grouped by any fields; and that one untranslatable aggregation makes the command fail. False of the code: percentiles without AS lose their number, range and unknown functions give a program that cannot be run, earliest_time and latest_time count rows without a value, and a field with a span in BY is replaced by a column named window. That first and last see the rows of a group in the order of the frame is an assumption of SpecSpark. For range and unknown names this is shown for all fields, names and rows, and for whatever goes on after them.
  Theorems: `C40_stats_partial`, `C40_with_library_partial`, `C40_untranslatable_aggregation_is_refused`, `C40_percentile_column_refuted`, `C40_range_refuted`, `C40_unknown_function_refuted`, `C40_earliest_time_refuted`, `C40_span_refuted`, `C40_range_fails_refuted`, `C40_unknown_aggregations_fail_refuted`, `C40_earliest_time_ignores_its_field_refuted`.
* **C41** top and rare count per listed field values.
  Plan: Shape theorem; refuted parts by witnesses.
  Result: partial. False of the code: the program of every top and rare after any covered pipeline with a row raises (F.count without argument), BY replaces the listed fields, limit= is rejected and a count after an option is taken for a field. Neither can anything that goes on after them.
  Theorems: `C41_top_fails_refuted`, `C41_top_by_refuted`, `C41_top_limit_refuted`, `C41_top_and_rare_fail_refuted`, `C41_nothing_after_top_refuted`, `C41_top_by_ignores_fields_refuted`.
* **C42** fillnull restricts itself to the listed fields.
  Plan: Row semantics in both modes; refuted standalone.
  Result: partial. False of the code: without the runtime the fields of fillnull are ignored and all columns are filled (proved for all pipelines). Proved for fillnull without fields. With the library the nulls of exactly the named columns are filled with the value cast to their types (C42_with_library_partial).
  Theorems: `C42_fillnull_all_partial`, `C42_fillnull_fields_refuted`, `C42_fields_are_ignored_refuted`, `C42_with_library_partial`.
* **C43** lookup adds the looked-up fields.
  Plan: Refuted: the result equals the input aliased, for every lookup.
  Result: partial. False of the code: every lookup, after any covered pipeline, leaves the rows as they are (it only names the frame), and OUTPUTNEW is an error.
  Theorems: `C43_lookup_refuted`, `C43_lookup_adds_nothing_refuted`.
* **C44** bin discretises the named field.
  Plan: Refuted: the generated column never mentions the field.
  Result: partial. False of the code: the column n is discretised whatever field is named (proved for all fields and spans).
  Theorems: `C44_bin_refuted`, `C44_bin_reads_n_refuted`.
* **C45** addtotals sums the listed numeric fields.
  Plan: Denotation of the generated sum.
  Result: proved. For any listed fields after any covered pipeline; addtotals has no runtime version.
  Theorems: `C45_addtotals`, `C55_allowing_the_runtime_changes_nothing`.
* **C46** case() and validate() pick the first matching branch.
  Plan: Denotation of when-chains, induction over pairs.
  Result: partial. Proved without the runtime. False of the code with it: any number of arguments is accepted, after any pipeline.
  Theorems: `C46_first_branch_partial`, `C46_odd_arguments_are_refused_partial`, `C46_odd_arguments_refuted`, `C46_any_number_refuted`.
* **C47** Formatting never loses code.
  Plan: Formatter as an oracle.
  Result: proved. The formatter (black) is an oracle that may fail to import, raise or return any text. A returned text is stripped of the white space around it; ASCII white space only is modelled; log lines are not modelled.
  Theorems: `C47_formatting_never_loses_code`, `C47_formatting_of_texts`.
* **C48** The runtime commands accept the calls the transpiler generates.
  Plan: Parameter lists of the runtime functions and Python's binding rules; refuted for data_model.
  Result: partial. False of the code: the call generated for datamodel gives data_model_name twice, and repeated names (or a field named df, or named like a parameter) give a keyword twice. Proved: exactly which generated calls bind to the signature of the runtime function, and that they all do when names are distinct and not taken. The types of arguments checked when a bound call runs are not part of binding. Commands with such names are shown to give calls that do not bind wherever they stand. A program with a call that does not bind is shown to be impossible to run with the library.
  Theorems: `C48_calls_that_bind_partial`, `C48_calls_bind_partial`, `C48_datamodel_refuted`, `C48_repeated_names_refuted`, `C48_clashing_names_refuted`, `C48_unbound_calls_fail`, `C48_clashing_names_fail_refuted`.
* **C49** Runtime and standalone code compute the same result.
  Plan: Row semantics of runtime commands vs. standalone.
  Result: partial. False of the code: the library drops or renames tests of metadata fields, fills nulls differently, returns null from bit_and, and raises for searches without an index, for eval/stats/fillnull in first place, for sum/count(x)/list, for function results used in conditions or operators, for case, tonumber and for every datamodel call. Proved for all tables and all hash orders: for the covered pipelines lib_pipeline describes (search, eval, stats, tstats calls and where/rename/table/fields/head/sort around them) the standalone program and the program run with a model of the Python library both compute exactly the specified rows. Proved for every pipeline that goes on without starting over: a datamodel command, a first eval/stats/fillnull, a sum/list/count(x) in stats or tstats, an eval that assigns a call of one of the 36 functions of SpecLacks.v, a where on the result of one of the functions listed there, and a tstats after another command or without a data model make the program fail with the library.
  Theorems: `C49_library_and_standalone_agree_partial`, `C49_same_result_refuted`, `C49_first_search_refuted`, `C49_fillnull_refuted`, `C49_bit_and_refuted`, `C49_library_fails_refuted`, `C49_datamodel_refuted`, `C49_datamodel_never_runs_refuted`, `C42_with_library_partial`, `C49_first_commands_fail_refuted`, `C49_sums_never_run_refuted`, `C49_tstats_never_runs_refuted`, `C49_lacking_functions_never_run_refuted`, `C49_functions_by_name`, `C49_conditions_on_functions_never_run_refuted`.
* **C50** Row limits are never reinterpreted.
  Plan: u64 cast; proved for non negative, refuted for negative.
  Result: partial. False of the code: negative limits become huge unsigned numbers. Proved for head, sort and tail with limits from 0. Nothing that goes on after tail can be run.
  Theorems: `C34_head_keeps_the_first_rows_partial`, `C35_sort_orders_by_the_keys_partial`, `C50_tail_keeps_the_last_rows_partial`, `C50_negative_limits_refuted`, `C50_after_tail_refuted`, `C41_top_limit_refuted`, `C50_negative_counts_of_sort_refuted`, `C50_nothing_after_tail_refuted`, `C50_negative_counts_of_tail_refuted`.
* **C51** A string literal ends at its closing quote.
  Plan: Lexer model; witness by computation.
  Result: partial. False of the code: an empty string followed by another empty string is read as one string, whatever is between them.
  Theorems: `C51_string_literals_end_at_their_quote_refuted`, `C51_between_empty_strings_refuted`.
* **C52** A command with arguments it does not accept is reported.
  Plan: Parser model; witness by computation.
  Result: partial. False of the code: the text is reread as an implicit search.
  Theorems: `C52_malformed_command_is_error_refuted`.
* **C53** A quoted string denotes exactly its characters.
  Plan: Round trip of quoted strings, by induction on the text; witness for leading white space.
  Result: partial. Proved for strings that do not start with white space (and contain no * or @), as written. False of the code: leading white space is dropped, and a backslash before a quote stays in the value parse() yields (Python removes it again, see C24).
  Theorems: `C53_quoted_string_is_exact_partial`, `C53_quoted_string_is_exact_refuted`, `C53_escapes_are_kept_refuted`, `C53_leading_white_space_is_dropped_refuted`.
* **C54** A name that merely starts with a keyword is a name.
  Plan: Written expressions for eval (C07); witnesses for where and search.
  Result: partial. False of the code in where (every name with the prefix NOT) and search (AND prefix); proved for eval by C07.
  Theorems: `C54_keyword_prefix_is_part_of_name_refuted`, `C54_not_splits_names_refuted`, `C07_eval_reads_what_is_written`.
* **C55** A pipeline computes what its commands do, one after the other.
  Plan: SpecCommands gives every covered command as a function on tables; the generated program is read by the Python reader and run by a small PySpark semantics; induction over pipelines and sub-searches.
  Result: partial. Proved for all pipelines of the commands and expressions of SpecCommands and SpecRows. Missing: the runtime's own functions, bin, lookup, top and rare, and the forms of convert and rex that SpecCommands does not list.
  Theorems: `C55_pipelines_compute_their_commands`, `C55_allowing_the_runtime_changes_nothing`, `C55_pipelines_with_the_runtime_allowed`.
* **C56** makeresults yields count rows.
  Plan: Row semantics of the generated program; witnesses for the refuted parts.
  Result: partial. False of the code: every server group is emitted unquoted and a column id stays. Proved without server group.
  Theorems: `C56_makeresults_partial`, `C56_makeresults_count`, `C56_server_group_refuted`, `C56_extra_column_refuted`, `C56_group_is_code_refuted`, `C56_rows_have_id_refuted`.
* **C57** spath extracts the value at its path.
  Plan: Row semantics of the generated program.
  Result: proved. For any path and names that need no escaping, after any covered pipeline; spath has no runtime version.
  Theorems: `C57_spath`, `C36_set_cell`, `C55_allowing_the_runtime_changes_nothing`.
* **C58** Every query text ends in code or an error.
  Plan: Post-conditions of every command parser by induction on the recursion depth; absence of panics of every transform by structural induction.
  Result: proved. Both calls, all texts. The capture-group reader is assumed not to panic itself. Debug builds, where integer overflow panics, are out of the model. A hand-built join without fields does panic (C58_not_of_every_tree).
  Theorems: `C58_text_gives_code_or_error`, `C58_render_does_not_panic`.
* **C59** The value of a call is the function of its arguments' values.
  Plan: apply_fn of SpecRows states each function on values; the translated column is shown to compute it for every row (ValueFacts.call_ok, further_ok). False for fields where constants are expected, log, negative list positions and sum: refuted for every Spark.
  Result: partial. False of the code: a field where a constant is expected is used by its name, log swaps its arguments, negative list positions are passed to functions that count from the start, sum is an aggregate. Proved without the runtime for the functions and arguments of SpecRows, on any row after any covered pipeline.
  Theorems: `C59_calls_partial`, `C59_field_argument_refuted`, `C59_log_refuted`, `C59_mvindex_from_the_end_refuted`, `C59_sum_refuted`, `C59_names_for_contents_refuted`, `C59_sum_fails_refuted`.
* **C60** A function that cannot be translated is an error.
  Plan: Induction on the position of the call in the expression: a translated expression has all its computed parts translated (EvalCalls.part_computes), lifted over sub-searches. False for unknown names and with the runtime.
  Result: partial. False of the code for unknown names (all of them are copied into the program) and with the runtime. Proved without the runtime for the 29 documented functions that are never translated, at any depth of eval, where and the arguments of aggregations, and for the 7 aggregations of stats and tstats that are never translated, also inside sub-searches.
  Theorems: `C60_untranslated_functions_raise_partial`, `C60_untranslated_aggregations_raise_partial`, `C60_aggregated_calls_raise_partial`, `C60_unknown_functions_refuted`, `C60_unknown_names_are_copied_refuted`.
* **C61** A wrong number of arguments is an error, a documented one is not.
  Plan: Same induction as C60, with the documented numbers as a table. False for mvindex and relative_time (extra arguments ignored), for optional arguments and with the runtime.
  Result: partial. False of the code: further arguments of mvindex and relative_time are ignored, optional arguments are refused, the runtime's calls are not checked. Proved: without the runtime a wrong number of arguments is refused at any depth; and for 24 aggregations of stats and tstats.
  Theorems: `C61_wrong_counts_are_refused_partial`, `C61_wrong_counts_of_aggregations_are_refused_partial`, `C61_counts_refuted`, `C61_more_arguments_of_mvindex_refuted`, `C61_more_arguments_of_relative_time_refuted`.
* **C62** Every documented function can be called from a query.
  Plan: From C07 for every documented name that is no reserved word; false for like, in and lookup, which are.
  Result: partial. False of the code: like, in and lookup are reserved words, so the call does not parse. Proved for every other documented function and all arguments.
  Theorems: `C62_documented_functions_can_be_called_partial`, `C62_like_and_in_refuted`.
* **C63** where takes any predicate.
  Plan: False of the code: witnesses.
  Result: partial. False of the code: where takes only calls and comparisons of a field with a constant or a call (proved right for those in C09 and C27); a field on the right is a text, for all fields and tables. Every comparison with a call on its left, and every comparison with a sum on its right, is refused after where although eval reads it.
  Theorems: `C63_where_takes_expressions_refuted`, `C63_where_compares_fields_refuted`, `C63_names_on_the_right_are_texts_refuted`, `C63_calls_on_the_left_refuted`, `C63_sums_on_the_right_refuted`.
* **C64** Columns of stats without AS are named after the call.
  Plan: Run the generated program in the semantics of SpecSpark; refute by two aggregations with the same function.
  Result: partial. False of the code: columns are named after the function alone, for all calls, so avg(a) and avg(b) give two columns of one name.
  Theorems: `C64_column_names_refuted`, `C64_names_of_functions_refuted`.
* **C65** The groups of a pattern are found exactly and in order.
  Plan: Regex.v models the visitor; the parser of regex_syntax is an oracle that yields the tree. Structural induction over trees: membership is `has_group`; positions are the numbers 1..n.
  Result: proved. The parser of regex_syntax is an oracle.
  Theorems: `C65_groups_are_the_captures`, `C65_groups_in_order`.
* **C66** rex and regex select by their pattern.
  Plan: Induction over the groups on top of C65 and the row semantics; witnesses for rows without a match, a group named like the field, and regex.
  Result: partial. False of the code: regex passes its pattern to regexp_like as the name of a column; rex overwrites the columns of rows without a match with empty texts and reads later groups from a field a group has replaced. Proved without the runtime: rex extracts every group from the field if the names differ; which rows regex keeps.
  Theorems: `C66_rex_extracts_partial`, `C66_group_named_as_field_refuted`, `C66_no_match_refuted`, `C66_regex_rows_partial`, `C66_regex_keeps_matches_refuted`.
* **C67** convert stores the converted values.
  Plan: SpecRegex.v specifies backtracking matching of anchored patterns; induction over the digits shows that the first group takes exactly the number. Rows: as for eval (C36); ctime as C33.
  Result: partial. False of the code: memk without unit and rmunit with a space before the unit give the number of an empty text; other conversions become calls of Spark functions. Proved without the runtime for memk, rmunit, rmcomma and ctime.
  Theorems: `C67_convert_partial`, `C67_memk`, `C67_rmunit`, `C67_no_unit_refuted`, `C67_ctime_partial`, `C67_other_conversions_refuted`.
* **C68** An option that cannot be honoured is refused.
  Plan: Every refusing command makes the pipeline fail (induction over pipelines and sub-searches). Ignored options: two commands that differ in them have the same translation.
  Result: partial. False of the code for the options listed in SpecOptions.differs_in_option, which have no effect, and for wildcards in rename. Proved: the uses listed in SpecOptions.asks_too_much are refused at any depth in all modes.
  Theorems: `C68_unsupported_options_raise_partial`, `C68_options_without_effect_refuted`, `C68_rename_wildcard_refuted`.
* **C69** A written pipeline is the pipeline that is read.
  Plan: A grammar of written commands (SpecSpell) as mutual inductive predicates; the model parser is shown to read each written command before any possible continuation (SpellFacts), by mutual induction over the derivation; with C55 the rows follow from the text.
  Result: partial. Missing: the forms of commands that SpecSpell.body does not list (names in quotes or with stars, colons, at signs or backslashes, tstats with a function and a field separated by a blank, PREFIX). Covered: names with dots, hyphens, slashes, percent signs and braces, all 36 commands with their options, keywords, flags, spans and lists, search also implicit and with several terms, tstats with FROM, WHERE and BY, spath with path=, map with an escaped pipeline in quotes, a bare command name at the end of the text, sub-searches of any number and nesting.
  Theorems: `C69_written_pipelines_are_read_partial`, `C69_one_reading_partial`, `C69_layout_does_not_matter_partial`, `C69_written_pipelines_compute_their_commands_partial`.
* **C70** An address is matched against a network by its first bits.
  Plan: Udfs.v models cidr_match and the parts of Python's ipaddress it uses (version 6 texts are an oracle); SpecUdf.v says what an address and its first bits are. Proved by arithmetic on the four bytes. The library's call of the function and the search term are refuted by runs of the generated code.
  Result: partial. False of the code: the function cidr_match is right for all version 4 addresses and networks (proved), but the library's cidrmatch hands it the arguments in the wrong order and takes a network written as a text for a column name, and a search with the runtime compares the network as a text. Version 6 texts are an oracle.
  Theorems: `C70_addresses_in_networks`, `C70_networks_with_masks`, `C70_single_addresses`, `C70_numbers_are_addresses`, `C70_numbers_in_networks`, `C70_only_addresses_match`, `C70_library_swaps_arguments_refuted`, `C70_library_reads_a_column_refuted`, `C70_search_compares_texts_refuted`, `C70_lengths_of_any_spelling`, `C70_longer_lengths_match_nothing`.
* **C71** ipmask clears the bits outside the mask.
  Plan: Same model as C70. True of numbers of bits, false of dotted masks and of null.
  Result: partial. False of the code: masks written as four bytes all give null and a null mask raises. Proved for all addresses and all masks given as a number of bits.
  Theorems: `C71_first_bits_are_kept_partial`, `C71_masks_are_applied_refuted`, `C71_null_mask_refuted`.
* **C72** tonumber reads numerals of its base.
  Plan: Udfs.v models Python's int(text, base) (base 0 and Unicode digits excluded); SpecUdf.numeral is an inductive definition of numerals.
  Result: partial. False of the code: a value that is a number gives null. Proved: all numerals of all bases 2 to 36, with signs, are read, and exactly which texts give a number (white space, sign, prefix, digits with single underscores); all others give null. Texts are Latin-1; digits of other scripts are not modelled.
  Theorems: `C72_numerals_are_read`, `C72_exactly_the_numbers`, `C72_other_characters_give_null`, `C72_numbers_stay_refuted`.
* **C73** tostring shows numbers in the chosen format.
  Plan: Udfs.v models bin, hex, the comma format and divmod; the results are characterised by SpecUdf.numeral, grouped and clock. Negative numbers, null and texts are refuted.
  Result: partial. False of the code: negative numbers lose their sign and keep a letter of the prefix, negative durations are wrong, null and texts raise. Proved: binary, hexadecimal and duration texts of all numbers that are not negative, commas of all integers, and the round trip through tonumber.
  Theorems: `C73_numerals_partial`, `C73_round_trip_partial`, `C73_commas`, `C73_durations_partial`, `C73_negative_numbers_refuted`, `C73_negative_durations_refuted`, `C73_null_and_texts_refuted`.
* **C74** The live translator shows the code of the query on the screen.
  Plan: Live.v is a state machine with one event per user action and per handled message (two queues); invariants by induction over the history. After a text that cannot be parsed the pane keeps the old code unmarked: refuted.
  Result: partial. False of the code: after a text that cannot be parsed, the pane keeps the code of an earlier text without a mark, and copies it. Everything else is proved for all histories and schedules.
  Theorems: `C74_quiet_screens`, `C74_code_comes_from_typed_texts`, `C74_copies`, `C74_never_dies`, `C74_comes_to_rest`, `C74_stale_code_refuted`.
* **C75** Generated code looks up only names its surroundings provide.
  Plan: SpecNames.v collects the names of the Python tree the reader of SpecPy finds in the text; proof by induction over the trees of SpecCol and SpecFrame with the call lemmas of TreeFacts.v
  Result: partial. False of the code for dotted function names, which are copied: stats os.getcwd as c looks up os, stats spark.stop as c stops the session. Proved for every query without dots in function names and every program Python reads as built (plain_df). Missing: names and texts Python does not read to their closing quote, numeric escapes, the lambda of mvzip.
  Theorems: `C75_names_are_provided_partial`, `C75_dotted_functions_refuted`, `C75_dotted_functions_are_copied_refuted`.
* **C76** What a query puts between quotes stays a text.
  Plan: Refuted for every piece of code without double quote, backslash, star and at sign: the theorem gives the query and the text of the program; the texts that survive are those of C24
  Result: partial. False of the code: quotes in texts are not escaped, so every piece of Python without star and at sign, double quotes only after backslashes, can be put into the generated program by quoting it in a query. The texts that survive are those of the theorems of C24.
  Theorems: `C76_quoted_text_runs_refuted`, `C76_index_runs_refuted`, `C76_index_copied_refuted`.
* **C77** A registry of macros gives the latest definition.
  Plan: Loaders.v: objects in a world with files, events; SpecLoaders.v: possible sessions, given; induction over the session
  Result: proved.
  Theorems: `C77_registry_gives_the_latest`.
* **C78** A combined loader gives the first answer.
  Plan: Loaders.v; a lookup of the combined loader against separate lookups made at the same moment; objects ask earlier objects only, so the recursion ends
  Result: partial. The order of answers is proved in full. False of the code in one reading: a macro one of the loaders has is not found if an earlier folder loader finds two files of that name.
  Theorems: `C78_first_answer`, `C78_any_loader_refuted`.
* **C79** A folder loader answers from the files.
  Plan: Loaders.v with the cache of the method and pathlib.rglob for one component; invariant: every note in the cache was read at an earlier moment
  Result: partial. False of the code: a definition is kept after the first lookup, so changed files are not seen; a star in a macro name finds files of other names. Proved: where answers come from, for names without wildcards and slashes, and that the first definition is kept for ever. Links, and patterns with slashes, are an oracle.
  Theorems: `C79_answers_come_from_files`, `C79_first_definition_is_kept`, `C79_changes_are_seen_refuted`, `C79_other_names_refuted`.
* **C80** Looking up macros changes no answers.
  Plan: Simulation between the world with its cache and the pure view of it
  Result: proved.
  Theorems: `C80_lookups_disturb_nothing`, `C80_substitution_through_loaders`.
* **C81** A notebook cell changes only the variable it names.
  Plan: Notebook.v over the Python machine of SpecPyRun.v, in which values, calls and the session are oracles
  Result: proved. argparse's reading of the cell's first line is not modelled.
  Theorems: `C81_only_its_variable`, `C81_in_every_notebook`.
* **C82** A notebook cell does not depend on the notebook's variables.
  Plan: C75 gives the names of the program; an expression depends only on the names it mentions (induction over Py); locals come before globals
  Result: partial. False of the code for function names with dots: stats os.getcwd as c uses the notebook's os. Proved for the queries and programs of C75 and formatted code Python reads as it reads the code. Missing: names and texts Python does not read to their closing quote, numeric escapes; the lambda of mvzip, whose F is looked up in the notebook's variables (not modelled).
  Theorems: `C82_cells_depend_on_four_names_partial`, `C82_dotted_functions_refuted`, `C75_dotted_functions_are_copied_refuted`.
* **C83** An option a command does not have is reported.
  Plan: Model: CmdParser.v (match_options, the bodies of the commands), Lexer.v (command_options). Proof: reading a list of options with one more in front; no command asks for a name outside its list; the rest of the pipeline is read from the same text.
  Result: partial. False of the code for every command with options: an option with any unknown name and any value in front of any text changes nothing (proved), e.g. join tpye=left is an inner join. Missing: nothing of the false claim; that options elsewhere than in front are ignored too is not stated.
  Theorems: `C83_unknown_options_are_ignored`, `C83_unknown_options_are_reported_refuted`.
* **C84** White space around an operator does not matter.
  Plan: Model: Lexer.v (token characters), Parser.v (levels of operators). Proof: the written expressions of SpecExpr with less white space, read by induction on the text; names with operator characters are field names.
  Result: partial. False of the code: - and / (and * and .) belong to names and numbers, so a-b, bytes/1024 and 10-3 are read as one column, for all names; and the dot that joins texts needs white space after it. Proved: white space is free around every other operator after a closing parenthesis or quote, around comparisons and +, and after -, *, /, AND and OR.
  Theorems: `C84_blanks_do_not_matter_partial`, `C84_operators_in_names_refuted`.
* **C85** relative_time moves a time as its specifier says.
  Plan: SpecExpr gives the texts of specifiers, SpecRows the value (relative); the reading of every specifier by induction on its parts, the value through the Spark semantics of the generated call chain. Sundays, years, quarters and bare offsets are refuted.
  Result: partial. False of the code: @w0 is cut down to Monday like @w, and specifiers without the at sign, days of the week, quarters, years and repeated offsets are refused. Proved without the runtime for every time expression of SpecRows and every specifier made of spans in seconds to months.
  Theorems: `C85_relative_time_partial`, `C85_sunday_refuted`, `C85_specifiers_refuted`.

## 4. Findings: where the code does not do what a user expects

Every item with a property number has a `_refuted` theorem with a concrete witness.
The others were met while modelling.

Parsing
* `a - b - c` is read as `a - (b - c)`; the same for `/` (C08).
* In eval OR binds tighter than AND (C09).
* `where notable=1` is read as `NOT able=1` (C54). `row=T` as an option is rejected.
* A malformed command is reread as an implicit search (C52, C10).
* An overflowing integer operand becomes a field name (C04).
* `"" ""` is read as one string (C51); leading white space in strings is dropped, and a backslash before a quote stays in the value (C53).
* Lower case `and`/`or` are copied into the code, lower case `not` is refused (C26).
* `x*2` without blanks is a wildcard name; `top showperc=false -5 x` takes -5 for a field.
* A macro that calls itself is expanded forever (C15); argument values that look like
  later parameters are substituted again; a call without arguments, or with names that are no
  parameters, leaves `$name$` in the text (C14).

Expressions
* Single quotes and backslashes in strings are copied unescaped: injection of code (C24, C76). Double quotes and backslashes written with a backslash before them arrive as meant.
* Booleans are written `true`/`false` (C25); `NOT` loses its grouping before a method,
  and `.` concatenation is no Python operator (C23).
* `log(x,b)` passes its arguments in the wrong order; `mvindex` with negative indices counts
  from the wrong end; fields where constants are expected are used by name (C59).
* Unknown functions become `F.name` (C60); `round(x)`, `trim(x)`, `substr(x,2)` and other
  calls without their optional argument are refused (C61).
* `like(...)`, `in(...)` and `lookup(...)` do not parse: they are reserved words (C62).
* `where abs(x) > 2` and `where x > y + 1` do not parse; `where x = y` compares x with the
  text y (C63).
* `case` with an odd number of arguments is accepted with the runtime (C46).
* `%`, `_` and backslashes in wildcard patterns are not escaped (C32).
* `x IN ()` is an error (C31).

Commands
* `search NOT x=1` drops rows without x; `search x=y` compares columns (C27).
* Two index terms give all rows of both; a later index drops the rows so far (C28, C20),
  and the order of several tables depends on hash order (C30).
* Negative limits become huge (C34, C35, C50). `fields - x` keeps x (C38).
* join ignores max=1 and overwrite (C39); `top` raises (C41); `bin` uses column n (C44);
  lookup adds nothing (C43); fillnull with fields fills every column standalone (C42).
* makeresults leaves its server group unquoted and an extra column id (C56).
* stats `range` nests aggregates; unknown stats functions, `perc95` included, become `F.name`; percentiles without AS are all named `percentile` (C17, C40).
* stats `by _time span=1h` gives a column `window` and no `_time` (C40).
* stats `earliest_time` and `latest_time` ignore their argument (C40).
* stats columns without AS are named after the function alone: two averages give two columns `avg` (C64).
* addtotals without fields gives 0.0; `addtotals fieldname=t` becomes a search.
* tstats ignores fillnull_value standalone; a datamodel node without a dot gives table `dm.`.
* Time formats: see C33.
* `regex` passes its pattern as a column name; `rex` overwrites columns of rows without a match
  and numbers unnamed groups as columns (C66).
* memk needs a unit, rmunit no space before it; unknown conversions become `F.name` (C67).
* Options without effect: `head null`, `stats allnum`, `bin start/end/bins`, `rex offset_field`,
  `addtotals col/labelfield`, `join overwrite`, `top showcount`; `rename x* AS y*` renames nothing (C68).
  `lookup ... OUTPUTNEW` does not parse.

* Options a command does not have are ignored without a message (C83).
* `eval x=a-b`, `bytes/1024` and `10-3` are read as one column name; `a- b` is an error, and `"a"."b"` too: the dot needs white space after it (C84).
* relative_time: `@w0` is cut down to Monday; `-1d`, `@w1`, `@y` and `@q` are refused (C85).
* Function names with dots are copied: `stats spark.stop as c` stops the Spark session (C75).
* Quotes in texts are not escaped: any Python expression in a quoted text can be made code (C24, C76).

Macro loaders
* A folder loader keeps the first definition of a name for ever; a star in a macro name finds other files; two files of a name hide later loaders (C78, C79).

Notebook
* Function names with dots take their meaning from the notebook's variables (C82). The lambda generated for mvzip looks up F there too (read off the code, not modelled).

Terminal interface
* After a text that cannot be parsed the code pane keeps the code of an earlier text, unmarked (C74).

Runtime library
* See C19, C22, C29, C48 and C49: calls inside call arguments, duplicate keywords, calls
  that never bind, functions that raise for every argument, dropped conditions.
* cidrmatch hands its arguments over in the wrong order, takes a network in quotes for a column, and a
  search for a network compares texts (C70); ipmask refuses dotted masks and raises for null (C71);
  tonumber gives null for numbers, and the library's call of it always raises (C72, C49); tostring of
  negative numbers is wrong, of null and texts raises (C73).
* `search class=1` with the runtime is no valid Python: `class` becomes a keyword argument.

## 5. Testing the theorems

`seeded/LOG.jsonl` records the wrong programs that were tried: the definition edited, the
edit, the claim it breaks, the theorems that stopped proving, and those tightened.

## 6. Trusted base

* Coq's kernel (8.16.1), run again by coqchk.
* `Print Assumptions` prints `Closed under the global context` for every property theorem:
  no axioms at all. The axioms vcheck lists (`Coq.ssr.ssrunder.*`) are module parameters of a
  library file that is loaded; no theorem uses them.
* The reading of the Rust and Python sources: every definition cites file and lines.
* nom 7 combinator semantics (the dependency is not in the sandbox).
* `SpecPy.v` as a reading of the Python language reference, `SpecSpark.v` as a reading of
  the PySpark documentation, `SpecTime.v` of the Splunk and Spark format tables.
