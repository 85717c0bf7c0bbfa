{"id": "C01", "title": "parse() always terminates with a pipeline or a ValueError", "statement": "For every text given to parse(), the parser finishes and returns either a pipeline or a parse error; it never panics, never loops on a list parser that consumes nothing, and its recursion depth is bounded by a linear function of the length of the text.", "quantifier": "every string, of any length and nesting depth", "why_tests_cant": "Tests only sample strings; divergence or a panic may hide behind any nesting of brackets, quotes or separators.", "anchors": ["src/lib.rs:parse", "src/spl/parser.rs:pipeline, command, expr, logical_expression, sub_search, quoted_search"]}
{"id": "C02", "title": "A successful parse accounts for the whole text", "statement": "parse() succeeds only when the grammar consumed the text to its last character: every sub-parser hands on a suffix of its own input, and the branch of parse() that reports 'Failed to fully parse input' can never be taken because the pipeline grammar itself refuses leftovers.", "quantifier": "every string and every sub-parser reachable from parse()", "why_tests_cant": "Silent truncation can be triggered by any leftover text after any construct.", "anchors": ["src/lib.rs:parse", "src/spl/parser.rs:pipeline"]}
{"id": "C03", "title": "Leading white space and one leading pipe are insignificant", "statement": "Putting any amount of white space in front of a query does not change the outcome of parse(); neither does writing one '|' in front of a query that does not itself start with '|'.", "quantifier": "every query text, every run of white space", "why_tests_cant": "Holds or fails per input; a test shows it for one query.", "anchors": ["src/spl/parser.rs:pipeline, ws"]}
{"id": "C04", "title": "Integer literals are read exactly or rejected", "statement": "The decimal text of every 64 bit integer above the minimum, with optional sign, is read as exactly that integer; digits that do not fit 64 bits are rejected rather than wrapped.", "quantifier": "all digit strings, all 64 bit integers", "why_tests_cant": "2^64 values and unboundedly many overflowing texts.", "anchors": ["src/spl/parser.rs:int"]}
{"id": "C05", "title": "Reserved words are never taken as bare names", "statement": "No reserved word, in any letter case, is ever returned as an unquoted field name, option key, function name or bare token, whatever follows it in the text.", "quantifier": "every input text, every reserved word, every letter case", "why_tests_cant": "Case variants times contexts are unbounded.", "anchors": ["src/spl/parser.rs:token, token_with_extras, _is_not_reserved_word, field, call"]}
{"id": "C06", "title": "Command keywords are case-insensitive", "statement": "Changing the letter case of a command keyword never changes which command is recognised nor the text left for its arguments.", "quantifier": "every command, every casing of its keyword, every continuation", "why_tests_cant": "2^n casings per keyword and unboundedly many continuations.", "anchors": ["src/commands/spl.rs:SplCommand::match_name", "src/commands/mod.rs"]}
{"id": "C07", "title": "Parenthesised eval expressions mean what they show", "statement": "An eval (or search) expression over fields, integers, strings, function calls, NOT and the binary operators, of any depth, parses to exactly the tree it displays: parentheses group, tighter operators bind first, blanks and redundant parentheses do not matter.", "quantifier": "all expression trees of any depth and all ways to write them (any number of assignments in one eval command)", "why_tests_cant": "Trees are unbounded; a single backtracking mistake corrupts only particular shapes.", "anchors": ["src/spl/parser.rs:expr_base .. expr9_no_whitespace"]}
{"id": "C08", "title": "Unparenthesised subtraction and division chains group to the left", "statement": "In an eval expression a - b - c means (a - b) - c and a / b / c means (a / b) / c, for chains of any length.", "quantifier": "all chains of operands of any length", "why_tests_cant": "A property of all chain lengths; the unit tests have no chain of three.", "anchors": ["src/spl/parser.rs:expr3, expr4"]}
{"id": "C09", "title": "AND binds tighter than OR in where and in eval", "statement": "An unparenthesised mix of AND and OR groups the ANDs first, in where conditions and in eval expressions (the search command is documented to group ORs first).", "quantifier": "all and/or chains of any length in each of the two grammars", "why_tests_cant": "All chain shapes; the grammars are separate code.", "anchors": ["src/spl/parser.rs:logical_expression, expr8, expr9_no_whitespace"]}
{"id": "C10", "title": "Command options: last one wins, defaults apply, wrong types are errors", "statement": "Reading an option returns the value of its last occurrence, the documented default when it does not occur, and an error (never the default) when it occurs with a value of the wrong type; the order of options with different names is irrelevant.", "quantifier": "all option lists, all names, all constants", "why_tests_cant": "Option lists are unbounded and permutations explode.", "anchors": ["src/spl/ast.rs:ParsedCommandOptions", "src/spl/parser.rs:command_options"]}
{"id": "C11", "title": "A quoted sub-search is unescaped exactly", "statement": "The text between the quotes of map search=\"...\" is turned back into the original query text when quotes and backslashes were escaped with a backslash.", "quantifier": "all query texts", "why_tests_cant": "The interaction of two sequential replacements depends on arbitrary runs of backslashes and quotes.", "anchors": ["src/spl/parser.rs:quoted_search, double_quoted_alt"]}
{"id": "C12", "title": "detect_macros partitions the text", "statement": "detect_macros returns pieces that, with the macro call texts put back between backticks, spell the input exactly; no returned literal piece contains a backtick.", "quantifier": "every input text and any number of macro calls", "why_tests_cant": "Any text; loss or duplication of a character can occur anywhere.", "anchors": ["src/spl/macros.rs:spl_macros", "src/lib.rs:detect_macros"]}
{"id": "C13", "title": "substitute_macros is the identity up to outer trimming on macro-free text and idempotent", "statement": "A text without backticks is returned with only trailing white space / pipes and outer white space removed; whatever substitute_macros returns is returned unchanged when substituted again.", "quantifier": "every text, every macro library", "why_tests_cant": "All texts and libraries.", "anchors": ["python/spl_transpiler/macros.py:substitute_macros"]}
{"id": "C14", "title": "Macro arity is enforced and every argument is substituted", "statement": "A macro call with arguments is accepted only if their number equals the number of declared arguments and they are all positional or all named; mixing or miscounting raises an error; after a positional call each $arg$ of the definition is replaced by the corresponding value.", "quantifier": "all macro definitions and argument lists", "why_tests_cant": "Unbounded lists and texts.", "anchors": ["python/spl_transpiler/macros.py:substitute_macros"]}
{"id": "C15", "title": "substitute_macros terminates", "statement": "Macro substitution terminates for every macro library, including recursive ones.", "quantifier": "every text and macro library", "why_tests_cant": "Non-termination is not observable by a finite test.", "anchors": ["python/spl_transpiler/macros.py:substitute_macros"]}
{"id": "C16", "title": "allow_runtime=True never rejects what allow_runtime=False accepts", "statement": "If a pipeline renders without the runtime then it also renders with the runtime allowed.", "quantifier": "every pipeline, every nesting of sub-searches and function calls", "why_tests_cant": "Each command and function has two code paths; failure of the fallback depends on the combination.", "anchors": ["src/pyspark/transpiler/mod.rs:PipelineTransformer::transform", "src/functions/eval_fns.rs:eval_fn", "src/functions/stat_fns.rs:stats_fn"]}
{"id": "C17", "title": "allow_runtime=False emits no runtime code", "statement": "With the runtime disallowed the generated code is one expression: it has no preliminary assignments and calls neither commands.* nor functions.*.", "quantifier": "every pipeline produced by parse()", "why_tests_cant": "Every command and function must honour the switch.", "anchors": ["src/pyspark/transpiler/mod.rs", "src/functions/eval_fns.rs:eval_fn", "src/functions/stat_fns.rs:stats_fn"]}
{"id": "C18", "title": "Intermediate data frame names are unique and defined before use", "statement": "In generated runtime code every df_N is assigned exactly once, and is only referred to after its assignment, also across sub-searches.", "quantifier": "every pipeline and every nesting of sub-searches", "why_tests_cant": "The counter is shared mutable state threaded through failing attempts and sub-searches.", "anchors": ["src/pyspark/ast.rs:DataFrame::runtime, generate_unique_name", "src/pyspark/base.rs:PysparkTranspileContext"]}
{"id": "C19", "title": "Generated runtime code is a sequence of assignments followed by one expression", "statement": "Rendering with the runtime allowed yields one assignment per line followed by the result expression, never an assignment inside an expression.", "quantifier": "every pipeline mixing runtime and non-runtime commands in any order", "why_tests_cant": "Depends on the order of commands in pipelines of any length.", "anchors": ["src/pyspark/ast.rs:DataFrame::to_spark_query", "src/pyspark/base.rs:PythonCode"]}
{"id": "C20", "title": "Pipelines compose", "statement": "Rendering 'p | q' applies q's commands, in order, to the result of p; every command is translated exactly once.", "quantifier": "all pipelines p and q of any length", "why_tests_cant": "All splits of all pipelines.", "anchors": ["src/pyspark/transpiler/mod.rs:TransformedPipeline::transform"]}
{"id": "C21", "title": "Unsupported constructs raise instead of vanishing", "statement": "If any command of a pipeline is one the transpiler cannot translate, rendering the whole pipeline raises an error, wherever the command stands.", "quantifier": "all pipelines, all positions, both runtime modes", "why_tests_cant": "All positions in all pipelines.", "anchors": ["src/pyspark/transpiler/mod.rs", "src/commands/cmd_dedup/pyspark.rs", "src/commands/cmd_map/pyspark.rs"]}
{"id": "C22", "title": "No alias inside an operand", "statement": "Generated conditions, assigned columns, operator operands and method receivers never contain a column alias at their top, and re-aliasing keeps exactly one alias, the last.", "quantifier": "all column expressions built by the transpiler", "why_tests_cant": "Alias removal is recursive over arbitrary nests.", "anchors": ["src/pyspark/alias.rs", "src/pyspark/ast.rs:ColumnLike constructors, where_, with_column"]}
{"id": "C23", "title": "Python reads generated column expressions with the intended grouping", "statement": "Reading the generated text of a column expression with Python's operator precedence gives back the very expression tree the transpiler built.", "quantifier": "all column expressions of any depth", "why_tests_cant": "Grouping errors depend on combinations of operators, NOT, methods and aliases at any depth.", "anchors": ["src/pyspark/ast.rs:ColumnLike::to_spark_query, Expr::to_spark_query"]}
{"id": "C24", "title": "String values survive the trip into Python literals", "statement": "A string value in the query is rendered as a Python literal that denotes the same string.", "quantifier": "all strings", "why_tests_cant": "All strings, in particular quotes, backslashes and newlines.", "anchors": ["src/pyspark/ast.rs:PyLiteral", "src/pyspark/transpiler/expr.rs"]}
{"id": "C25", "title": "Boolean literals are valid Python", "statement": "A boolean constant in an expression is rendered as Python's True or False.", "quantifier": "both booleans in every position an expression can stand", "why_tests_cant": "Positions are unbounded.", "anchors": ["src/pyspark/transpiler/expr.rs"]}
{"id": "C26", "title": "Operator keywords work in any case", "statement": "AND, OR and NOT are translated to &, | and ~ whatever their letter case in the query.", "quantifier": "all casings in all expressions", "why_tests_cant": "All casings in all contexts.", "anchors": ["src/pyspark/transpiler/expr.rs:SIMPLE_OP_MAP", "src/spl/operators.rs"]}
{"id": "C27", "title": "Translated conditions have the meaning of the query's condition", "statement": "For every row, the generated boolean column is true exactly when the search/where condition holds of the row, for conditions built from comparisons, IN lists, wildcards, AND, OR and NOT.", "quantifier": "all conditions of any depth and all rows", "why_tests_cant": "Both are unbounded.", "anchors": ["src/pyspark/transpiler/expr.rs"]}
{"id": "C28", "title": "Splitting a search into indexes and filters is sound", "statement": "When search separates index constraints from the remaining condition, a row of one of the selected tables satisfies the remaining filter exactly when it satisfies the original condition; an index constraint under an OR next to other filters is refused.", "quantifier": "all search conditions and all rows", "why_tests_cant": "All condition trees.", "anchors": ["src/commands/cmd_search/pyspark.rs:split_conditions"]}
{"id": "C29", "title": "The runtime search call carries every conjunct exactly once", "statement": "The positional and keyword arguments of commands.search together are equivalent to the whole search condition, and no keyword is given twice.", "quantifier": "all search conditions", "why_tests_cant": "All condition trees.", "anchors": ["src/commands/cmd_search/pyspark.rs:break_down_ands"]}
{"id": "C30", "title": "Rendering is deterministic", "statement": "Rendering the same pipeline twice gives the same code, whatever the hash seeds of the process.", "quantifier": "all pipelines and all hash-set iteration orders", "why_tests_cant": "Iteration order is random per process.", "anchors": ["src/commands/cmd_search/pyspark.rs"]}
{"id": "C31", "title": "x IN (list) is membership", "statement": "The column generated for 'field IN (v1, ..., vn)' is true of a row exactly when the field equals (or, for wildcards, matches) one of the listed values; nothing is dropped.", "quantifier": "all lists of any length, all rows", "why_tests_cant": "Lists are unbounded.", "anchors": ["src/pyspark/transpiler/expr.rs", "src/pyspark/transpiler/utils.rs:join_as_binaries"]}
{"id": "C32", "title": "Wildcards match the same strings", "statement": "The LIKE pattern generated from a wildcard pattern matches a string exactly when the wildcard pattern does, where '*' stands for any run of characters and every other character for itself.", "quantifier": "all patterns and all strings", "why_tests_cant": "All pattern/string pairs.", "anchors": ["src/pyspark/transpiler/expr.rs"]}
{"id": "C33", "title": "Time formats are converted directive by directive", "statement": "convert_time_format maps every supported directive to its Spark equivalent and keeps literal text, independent of neighbouring text; an unsupported directive is an error; '%%' is a literal percent.", "quantifier": "all formats (sequences of directives and literal text)", "why_tests_cant": "The sequential replacement passes interact; formats are unbounded.", "anchors": ["src/pyspark/transpiler/utils.rs:convert_time_format, CONVERSIONS"]}
{"id": "C34", "title": "head keeps the rows the query asks for", "statement": "head N keeps the first N rows; head with a condition on count keeps the rows SPL keeps, plus one with keeplast; negative counts never become huge ones.", "quantifier": "all 64 bit integers, all comparison operators, both keeplast values", "why_tests_cant": "Boundary arithmetic over 2^64 values.", "anchors": ["src/commands/cmd_head/pyspark.rs"]}
{"id": "C35", "title": "sort orders by every key in the asked direction", "statement": "Each sort key is ascending unless marked '-', 'desc' flips every key, keys keep their order, and a count limits the result (0 means no limit).", "quantifier": "all key lists and counts", "why_tests_cant": "Lists and counts are unbounded.", "anchors": ["src/commands/cmd_sort/pyspark.rs", "src/commands/cmd_sort/spl.rs"]}
{"id": "C36", "title": "eval assigns left to right", "statement": "eval a=e1, b=e2, ... gives each row the columns a, b, ... computed one after the other, later ones seeing earlier ones, in both runtime modes.", "quantifier": "all assignment lists and all rows", "why_tests_cant": "Unbounded lists, shadowing.", "anchors": ["src/commands/cmd_eval/pyspark.rs", "python/spl_transpiler/runtime/commands/eval.py"]}
{"id": "C37", "title": "rename and table", "statement": "rename applies the renamings in order and touches no other column; table keeps exactly the listed columns in order.", "quantifier": "all lists, all rows", "why_tests_cant": "Unbounded lists.", "anchors": ["src/commands/cmd_rename/pyspark.rs", "src/commands/cmd_table/pyspark.rs"]}
{"id": "C38", "title": "fields keeps or removes the listed fields", "statement": "fields a, b keeps exactly the listed fields; fields - a, b removes exactly them.", "quantifier": "all field lists, all rows", "why_tests_cant": "Unbounded lists.", "anchors": ["src/commands/cmd_fields/pyspark.rs", "src/commands/cmd_fields/spl.rs"]}
{"id": "C39", "title": "join matches on every listed field", "statement": "The generated join condition holds of a pair of rows exactly when they agree on every listed field (and respect the time order if asked); unsupported options are refused.", "quantifier": "all field lists, all row pairs, all options", "why_tests_cant": "Unbounded lists.", "anchors": ["src/commands/cmd_join/pyspark.rs"]}
{"id": "C40", "title": "stats yields one column per aggregation, grouped by the listed fields", "statement": "The generated aggregation lists the requested aggregations in order, each under its alias (or the function's name), grouped by exactly the BY fields; if one aggregation cannot be translated, the command fails.", "quantifier": "all aggregation lists and BY lists", "why_tests_cant": "Unbounded lists.", "anchors": ["src/commands/cmd_stats/pyspark.rs", "src/functions/stat_fns.rs"]}
{"id": "C41", "title": "top and rare count per listed field values", "statement": "top/rare group by the listed fields (and BY fields), sort by frequency in the right direction and honour limit, countfield, percentfield, showperc.", "quantifier": "all field lists and options", "why_tests_cant": "Options combine.", "anchors": ["src/commands/cmd_top/pyspark.rs", "src/commands/cmd_rare/pyspark.rs"]}
{"id": "C42", "title": "fillnull restricts itself to the listed fields", "statement": "fillnull value=v f1 f2 replaces nulls only in the listed fields, in both runtime modes.", "quantifier": "all field lists, all rows", "why_tests_cant": "Unbounded lists.", "anchors": ["src/commands/cmd_fill_null/pyspark.rs", "python/spl_transpiler/runtime/commands/fill_null.py"]}
{"id": "C43", "title": "lookup adds the looked-up fields", "statement": "lookup t k OUTPUT v adds to every row the value(s) found in table t; OUTPUT and OUTPUTNEW are both accepted.", "quantifier": "all lookup commands", "why_tests_cant": "All field lists.", "anchors": ["src/commands/cmd_lookup/pyspark.rs", "src/commands/cmd_lookup/spl.rs"]}
{"id": "C44", "title": "bin discretises the named field", "statement": "bin span=s f buckets the values of field f.", "quantifier": "all fields and spans", "why_tests_cant": "All field names.", "anchors": ["src/commands/cmd_bin/pyspark.rs"]}
{"id": "C45", "title": "addtotals sums the listed numeric fields", "statement": "addtotals f1 ... fn stores, for every row, the sum of the numeric values among the listed fields, skipping non numeric ones.", "quantifier": "all field lists, all rows", "why_tests_cant": "Unbounded lists.", "anchors": ["src/commands/cmd_add_totals/pyspark.rs"]}
{"id": "C46", "title": "case() and validate() pick the first matching branch", "statement": "case(c1,v1,...) evaluates to the value of the first true condition and null otherwise; validate(...) dually with the first false condition; an odd number of arguments is refused.", "quantifier": "all argument lists of any length, all rows", "why_tests_cant": "Unbounded lists.", "anchors": ["src/functions/eval_fns.rs:eval_fn_bare"]}
{"id": "C47", "title": "Formatting never loses code", "statement": "With format_code=True the result is either the formatter's output or, if the formatter fails, exactly the unformatted code; rendering never fails because of formatting.", "quantifier": "all codes, all behaviours of the external formatter", "why_tests_cant": "The formatter is external.", "anchors": ["src/format_python.rs:safe_format_python_code", "src/lib.rs:render_pyspark"]}
{"id": "C48", "title": "The runtime commands accept the calls the transpiler generates", "statement": "Every commands.* call generated with allow_runtime=True binds to the parameters of the corresponding function of the runtime library.", "quantifier": "all generated runtime calls", "why_tests_cant": "All pipelines.", "anchors": ["python/spl_transpiler/runtime/commands", "src/commands/cmd_data_model/pyspark.rs"]}
{"id": "C49", "title": "Runtime and standalone code compute the same result", "statement": "For commands available in both modes, executing the generated runtime call on a data frame gives the same rows as executing the standalone code.", "quantifier": "all such commands, all tables", "why_tests_cant": "All tables.", "anchors": ["python/spl_transpiler/runtime/commands/*.py", "src/commands/cmd_search/pyspark.rs", "src/commands/cmd_eval/pyspark.rs", "src/commands/cmd_fill_null/pyspark.rs"]}
{"id": "C50", "title": "Row limits are never reinterpreted", "statement": "A limit given to head, tail, sort, top or rare reaches the generated code with the same numeric value.", "quantifier": "all 64 bit integers", "why_tests_cant": "2^64 values.", "anchors": ["src/commands/cmd_tail/pyspark.rs", "src/commands/cmd_sort/pyspark.rs", "src/commands/cmd_top/pyspark.rs"]}
{"id": "C51", "title": "A string literal ends at its closing quote", "statement": "Two string literals in one query are read as two literals, whatever their contents (in particular when they are empty).", "quantifier": "all queries with two or more quoted strings", "why_tests_cant": "All combinations of string contents; the tests contain no two empty strings.", "anchors": ["src/spl/parser.rs:double_quoted"]}
{"id": "C52", "title": "A command with arguments it does not accept is reported", "statement": "If a text starts with a command keyword but its arguments do not fit the command, parse() raises an error rather than silently reading it as a search.", "quantifier": "all queries that start with a command keyword", "why_tests_cant": "All malformed argument lists.", "anchors": ["src/spl/parser.rs:command", "src/commands/cmd_search/spl.rs"]}
{"id": "C53", "title": "A quoted string denotes exactly its characters", "statement": "The value of a double-quoted string without escapes is the text between the quotes.", "quantifier": "all strings without quotes and backslashes", "why_tests_cant": "All strings; white space at the edges is rarely tested.", "anchors": ["src/spl/parser.rs:double_quoted, ws"]}
{"id": "C54", "title": "A name that merely starts with a keyword is a name", "statement": "A field whose name starts with NOT, AND, OR or IN (notable, android, order_id, index) is read as that field.", "quantifier": "all names and positions in conditions", "why_tests_cant": "All names; only unlucky prefixes fail.", "anchors": ["src/spl/parser.rs:logical_expression_term, expr9_no_whitespace", "src/spl/operators.rs"]}
{"id": "C55", "title": "A pipeline computes what its commands do, one after the other", "statement": "Executing the code rendered for a pipeline of supported commands yields exactly the rows obtained by applying each command's effect to the rows of the previous one, including sub-searches of join and multisearch; allowing the runtime does not change this for commands without a runtime version.", "quantifier": "all pipelines of supported commands of any length and nesting, all tables, all interpretations of Spark's functions", "why_tests_cant": "Pipelines, nestings and tables are unbounded; tests compare code text for a few queries.", "anchors": ["src/lib.rs: render_pyspark", "src/pyspark/transpiler/mod.rs: TransformedPipeline::transform", "src/commands/*/pyspark.rs"]}
{"id": "C56", "title": "makeresults yields count rows", "statement": "makeresults count=n yields n rows with the present time and, annotated, the metadata columns including the given server and server group, and no other columns.", "quantifier": "all counts, server names and groups", "why_tests_cant": "Counts and names are unbounded.", "anchors": ["src/commands/cmd_make_results/pyspark.rs"]}
{"id": "C57", "title": "spath extracts the value at its path", "statement": "spath stores in every row the value at the given path of the input field's JSON text under the output name (the path by default) and touches no other column.", "quantifier": "all paths, names, tables, preceding pipelines", "why_tests_cant": "Tables and preceding pipelines are unbounded.", "anchors": ["src/commands/cmd_s_path/pyspark.rs"]}
{"id": "C58", "title": "Every query text ends in code or an error", "statement": "For every text, parse followed by render_pyspark (format_code off) returns code or raises an error; neither call ever panics, whatever the runtime choice and whatever order hash sets are walked in.", "quantifier": "all texts, runtime choices, hash orders, capture-group readers that do not panic", "why_tests_cant": "A panic needs one particular combination of nesting, options and arguments; the unwraps and indexing in the transforms are safe only because of what every parser guarantees.", "anchors": ["src/lib.rs: parse, render_pyspark", "src/commands/cmd_join/pyspark.rs", "src/commands/cmd_search/pyspark.rs", "src/functions/eval_fns.rs"]}
{"id": "C59", "title": "The value of a call is the function of its arguments' values", "statement": "In eval, x=f(a, b, ...) stores in every row the value of the function f at the values of its arguments in that row: a field argument is the field's value, list positions count from the start or, if negative, from the end, and arguments stand for what the documentation says.", "quantifier": "all rows, functions, argument expressions, preceding pipelines", "why_tests_cant": "Rows, nesting of arguments and preceding pipelines are unbounded.", "anchors": ["src/functions/eval_fns.rs: eval_fn_bare", "src/functions/mod.rs: function_transform, map_arg"]}
{"id": "C60", "title": "A function that cannot be translated is an error", "statement": "A query that calls a function the transpiler cannot translate, however deep in an expression or sub-search, is refused; it never yields a program that calls a function that does not exist.", "quantifier": "all pipelines, expressions of any depth, function names", "why_tests_cant": "The nesting depth of the call is unbounded.", "anchors": ["src/functions/eval_fns.rs: eval_fn_bare, eval_fn_runtime"]}
{"id": "C61", "title": "A wrong number of arguments is an error, a documented one is not", "statement": "A call with a number of arguments its function does not have is refused, wherever it stands; a call with a documented number of arguments is accepted.", "quantifier": "all pipelines, expressions of any depth, functions, numbers of arguments", "why_tests_cant": "The nesting depth and argument lists are unbounded.", "anchors": ["src/functions/mod.rs: function_transform", "src/functions/eval_fns.rs: eval_fn_bare"]}
{"id": "C62", "title": "Every documented function can be called from a query", "statement": "A call of a documented function with any arguments in an eval assignment is read as that call.", "quantifier": "all documented functions, all argument lists, all expressions as arguments", "why_tests_cant": "Argument expressions are unbounded.", "anchors": ["src/spl/parser.rs: call, token, _is_not_reserved_word", "src/functions/eval_fns.rs"]}
{"id": "C63", "title": "where takes any predicate", "statement": "where accepts any predicate expression that eval accepts, and a name on either side of a comparison is a field.", "quantifier": "all predicates", "why_tests_cant": "Predicates are unbounded.", "anchors": ["src/spl/parser.rs: logical_expression, comparison_expression", "src/commands/cmd_where/spl.rs"]}
{"id": "C64", "title": "Columns of stats without AS are named after the call", "statement": "A result of stats without AS is in a column of its own, named after the function and its argument, as avg(x).", "quantifier": "all aggregation lists without AS", "why_tests_cant": "The names must be distinct for every list of aggregations.", "anchors": ["src/functions/stat_fns.rs", "src/functions/shared.rs"]}
{"id": "C65", "title": "The groups of a pattern are found exactly and in order", "statement": "The capture groups the transpiler finds in a regular expression are exactly the named and numbered groups of the expression at any depth, non-capturing groups excluded, in the order of their numbers.", "quantifier": "all regular expressions of any depth", "why_tests_cant": "Groups nest arbitrarily in repetitions, alternations and other groups.", "anchors": ["src/commands/regex_utils.rs: visit_ast, get_groups"]}
{"id": "C66", "title": "rex and regex select by their pattern", "statement": "rex stores in the column of each capture group the text the group matches in the field and leaves the other columns alone; rows the pattern does not match are left as they are. regex keeps exactly the rows whose field matches (or, with !=, does not match).", "quantifier": "all tables, patterns with any number of groups, field names", "why_tests_cant": "Every table and every pattern.", "anchors": ["src/commands/cmd_rex/pyspark.rs", "src/commands/cmd_regex/pyspark.rs", "src/commands/regex_utils.rs"]}
{"id": "C67", "title": "convert stores the converted values", "statement": "convert stores each converted value under the alias or the field itself: memk yields kilobytes for numbers with an optional unit k, m or g; rmunit drops trailing text; rmcomma drops commas; ctime shows a time in the given format; other conversions are refused.", "quantifier": "all tables, conversions, numbers with any number of digits", "why_tests_cant": "Numbers and units are unbounded texts; conversions are applied one after the other.", "anchors": ["src/commands/cmd_convert/pyspark.rs", "src/functions/convert_fns.rs: convert_fn", "src/functions/shared.rs: memk, rmunit, rmcomma, ctime"]}
{"id": "C68", "title": "An option that cannot be honoured is refused", "statement": "If a command is used with an option, field form or comparison the transpiler has no translation for, rendering raises an error wherever the command stands; no option is silently dropped.", "quantifier": "all pipelines, positions, nesting depths and option values", "why_tests_cant": "All positions and all values of the options.", "anchors": ["src/commands/cmd_*/pyspark.rs: ensure!, bail!"]}
{"id": "C69", "title": "A written pipeline is the pipeline that is read", "statement": "Any sequence of commands, each written in the syntax documented for it, with sub-searches nested to any depth, any white space, any letter case of command names, an optional leading vertical bar and the word search left out, parses to exactly that sequence of commands; no text has two readings, and layout has no influence on the generated code or its result.", "quantifier": "all pipelines and all ways to write them", "why_tests_cant": "Pipelines can be arbitrarily long and deeply nested and each has infinitely many layouts.", "anchors": ["src/spl/parser.rs: pipeline, command, sub_search, separated lists", "src/commands/cmd_*/spl.rs: parse_body", "src/commands/spl.rs: match_name"]}
{"id": "C70", "title": "An address is matched against a network by its first bits", "statement": "With the runtime library, cidrmatch(network, address) and a search field=network are true exactly of the addresses whose first n bits are those of the network, n being the length written after the slash or given by the mask.", "quantifier": "all addresses, networks, lengths and masks", "why_tests_cant": "2^32 addresses times 2^32 networks times 33 lengths, in two notations.", "anchors": ["python/spl_transpiler/runtime/udfs/__init__.py: cidr_match", "python/spl_transpiler/runtime/functions/eval.py: cidrmatch", "python/spl_transpiler/runtime/commands/search.py: _lv"]}
{"id": "C71", "title": "ipmask clears the bits outside the mask", "statement": "ipmask(mask, address) is the address with every bit outside the mask cleared, for masks written as numbers of bits or as four bytes; no value ends the job.", "quantifier": "all masks and addresses", "why_tests_cant": "All addresses and masks.", "anchors": ["python/spl_transpiler/runtime/udfs/__init__.py: ipmask"]}
{"id": "C72", "title": "tonumber reads numerals of its base", "statement": "tonumber(text, base) gives the number a text denotes in the base, in either letter case and with or without a sign; other texts give null; numbers stay what they are.", "quantifier": "all bases from 2 to 36, texts and values", "why_tests_cant": "Texts of unbounded length in 35 bases.", "anchors": ["python/spl_transpiler/runtime/udfs/__init__.py: tonumber"]}
{"id": "C73", "title": "tostring shows numbers in the chosen format", "statement": "tostring(number, format) gives the binary or hexadecimal numeral, the digits in groups of three, or hours, minutes and seconds of the number; tonumber reads the numerals back; null and texts do not end the job.", "quantifier": "all integers and formats", "why_tests_cant": "All integers.", "anchors": ["python/spl_transpiler/runtime/udfs/__init__.py: tostring"]}
{"id": "C74", "title": "The live translator shows the code of the query on the screen", "statement": "Whatever a user of the terminal interface types, toggles and copies and whenever the resulting messages are handled: once the interface is at rest, the code pane shows a translation of the text in the editor under the switches as they stand, with the import lines if they are wanted, or the failure is reported and the pane is marked; the code shown always comes from a text that was typed; copying copies what is shown; and the app never ends by an exception.", "quantifier": "all histories of user actions and all schedules of message handling", "why_tests_cant": "Unboundedly many histories and interleavings.", "anchors": ["python/spl_transpiler/live_translator.py: SPLApp.update_pyspark_code, SplCode.on_update, action_copy_pyspark"]}
{"id": "C75", "title": "Generated code looks up only names its surroundings provide", "statement": "Every name the generated Python program looks up is F, spark, a Python constant, commands or functions when the runtime is in use, or a data frame assigned on an earlier line; and no line assigns one of the provided names.", "quantifier": "every query, setting and tree of commands", "why_tests_cant": "a name can come from any function name, field or sub-search of any query; an unresolved name is an error only when the code is run", "anchors": ["src/pyspark/ast.rs: Expr, ColumnLike, DataFrame, RuntimeExpr", "src/pyspark/base.rs: PythonCode", "src/functions/eval_fns.rs", "src/functions/stat_fns.rs", "python/spl_transpiler/runtime/magic.py", "python/spl_transpiler/live_translator.py: on_input_changed"]}
{"id": "C76", "title": "What a query puts between quotes stays a text", "statement": "A text between double quotes in a query never becomes Python code of the generated program, whatever it contains.", "quantifier": "every query with a quoted text", "why_tests_cant": "a test shows that one text survives; an attacker picks the one that does not", "anchors": ["src/pyspark/ast.rs: PyLiteral, ColumnLike, DataFrame::source", "src/spl/parser.rs: double_quoted, string", "src/commands/cmd_eval/pyspark.rs", "src/commands/cmd_search/pyspark.rs"]}
{"id": "C77", "title": "A registry of macros gives the latest definition", "statement": "A registry macro loader gives, for every name, the definition it was told last, when it was made or registered later, and a missing key if it was told none.", "quantifier": "every session: any order of making loaders, registering, looking up and changing files", "why_tests_cant": "the answer depends on the whole history of the object", "anchors": ["python/spl_transpiler/macros.py: RegistryMacroLoader"]}
{"id": "C78", "title": "A combined loader gives the first answer", "statement": "A combined macro loader gives the answer of the first of its loaders that does not raise a missing key, in their order, and the fallback's if all do.", "quantifier": "every session, every nesting of loaders", "why_tests_cant": "loaders have state, are shared and nested; the order matters in every combination", "anchors": ["python/spl_transpiler/macros.py: RegistryMacroLoader", "python/spl_transpiler/macros.py: FolderMacroLoader", "python/spl_transpiler/macros.py: CombinedMacroLoader"]}
{"id": "C79", "title": "A folder loader answers from the files", "statement": "A folder macro loader gives what the only file of the name below its folder says; no such file, or a directory, is a missing key, several are an error. Changes of the files are seen at the next lookup, and a name finds files of that name only.", "quantifier": "every session with changing files", "why_tests_cant": "depends on all histories of file changes and lookups", "anchors": ["python/spl_transpiler/macros.py: FolderMacroLoader"]}
{"id": "C80", "title": "Looking up macros changes no answers", "statement": "Asking a loader changes no later answer of any loader, so expanding a query through loaders is expanding it with the definitions they show at that moment, and doing so twice gives the same.", "quantifier": "every session, loader, query and number of rounds", "why_tests_cant": "the cache makes lookups change state; no test covers all interleavings", "anchors": ["python/spl_transpiler/macros.py: RegistryMacroLoader", "python/spl_transpiler/macros.py: FolderMacroLoader", "python/spl_transpiler/macros.py: CombinedMacroLoader", "python/spl_transpiler/macros.py: substitute_macros"]}
{"id": "C81", "title": "A notebook cell changes only the variable it names", "statement": "Running an SPL cell in a notebook changes no variable of the notebook but the one given by --var-name, and none if it is a dry run or raises; the intermediate data frames of the program leave no variables behind.", "quantifier": "every cell, every state of the notebook, every sequence of cells and every behaviour of Spark", "why_tests_cant": "a variable that is overwritten shows only in notebooks that happen to use its name", "anchors": ["python/spl_transpiler/runtime/magic.py: spl", "python/spl_transpiler/runtime/utils.py: exec_with_return", "python/spl_transpiler/utils.py: convert_spl_to_pyspark"]}
{"id": "C82", "title": "A notebook cell does not depend on the notebook's variables", "statement": "The result of an SPL cell is the value of the program generated for its query with the Spark session, F, commands and functions; variables of the notebook with the same names as those, or as the data frames of the program, have no influence.", "quantifier": "every query, every state of the notebook, every behaviour of Spark", "why_tests_cant": "depends on every combination of names in the notebook and in the query", "anchors": ["python/spl_transpiler/runtime/magic.py: spl", "python/spl_transpiler/runtime/utils.py: exec_with_return", "python/spl_transpiler/utils.py: convert_spl_to_pyspark", "src/lib.rs: render_pyspark"]}
{"id": "C84", "title": "White space around an operator does not matter", "statement": "An expression means the same whether or not white space is written around its operators: eval x=a-b and eval x=a - b assign the same value, and so for every operator.", "quantifier": "all operators, all operands of any depth, all white space", "why_tests_cant": "Operands, names and layouts are unbounded; the repository's tests write most operators with blanks.", "anchors": ["src/spl/parser.rs: token, literal, expr_2..expr_6", "src/spl/operators.rs"]}
{"id": "C83", "title": "An option a command does not have is reported", "statement": "A query that gives a command an option the command does not have (a misspelt name, say) is refused with an error instead of being translated as if the option were not there.", "quantifier": "all commands that begin with options, all names of options, all values, all texts that follow", "why_tests_cant": "Names, values and the rest of the query are unbounded.", "anchors": ["src/commands/spl.rs: SplCommandOptions::match_options", "src/commands/*/spl.rs: TryFrom<ParsedCommandOptions>"]}
{"id": "C85", "title": "relative_time moves a time as its specifier says", "statement": "eval x=relative_time(t, specifier) sets x to the time t moved by the specifier's first span, cut down to the start of the unit after the at sign, and moved by the span after it.", "quantifier": "every time expression, every specifier (any spans, units and spellings of units), every field name and every table", "why_tests_cant": "specifiers combine two signed numbers of any size with six units in twenty-four spellings and an optional offset, on any expression and any row", "anchors": ["src/spl/parser.rs: relative_time_fmt, time_span, time_unit", "src/functions/eval_fns.rs: relative_time", "src/functions/shared.rs: offset_time, round_time"]}
