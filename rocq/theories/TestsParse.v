(** The parser tests of /repo (assert_eq! and assert! on a parser of src/spl/parser.rs or of
    a command in src/commands/cmd_*/spl.rs), run on the model.  These are tests of the model's
    fidelity, not proofs of properties.  The statements were translated from the Rust tests at
    the cited lines by a script; the text and the syntax tree are those of the Rust test. *)
From Verif Require Import Str SplAst Nom Lexer Parser CmdParser.
Import ListNotations.
Open Scope string_scope.
Open Scope list_scope.

(** result.unwrap().0 *)
Definition rest_of {A} (r : PR A) : option string := match r with POk rest _ => Some rest | _ => None end.

(** src/spl/parser.rs:1492 test_time_span *)
Example parse_001 :
  time_span "5minutes" = POk "" (mkTimeSpan 5%Z "minutes").
Proof. vm_compute. reflexivity. Qed.

(** src/spl/parser.rs:1508 test_token *)
Example parse_002 :
  token "token123" = POk "" "token123".
Proof. vm_compute. reflexivity. Qed.

(** src/spl/parser.rs:1513 test_double_quoted *)
Example parse_003 :
  double_quoted """double quoted string"" and then some" = POk " and then some" "double quoted string".
Proof. vm_compute. reflexivity. Qed.

(** src/spl/parser.rs:1517 test_double_quoted *)
Example parse_004 :
  double_quoted "double quoted ""string""" = PErr.
Proof. vm_compute. reflexivity. Qed.

(** src/spl/parser.rs:1542 test_bool *)
Example parse_005 :
  p_bool "false" = POk "" false.
Proof. vm_compute. reflexivity. Qed.

(** src/spl/parser.rs:1543 test_bool *)
Example parse_006 :
  p_bool "f" = POk "" false.
Proof. vm_compute. reflexivity. Qed.

(** src/spl/parser.rs:1544 test_bool *)
Example parse_007 :
  p_bool "true" = POk "" true.
Proof. vm_compute. reflexivity. Qed.

(** src/spl/parser.rs:1545 test_bool *)
Example parse_008 :
  p_bool "t" = POk "" true.
Proof. vm_compute. reflexivity. Qed.

(** src/spl/parser.rs:1549 test_wildcard *)
Example parse_009 :
  wildcard "*" = POk "" "*".
Proof. vm_compute. reflexivity. Qed.

(** src/spl/parser.rs:1550 test_wildcard *)
Example parse_010 :
  wildcard "g*" = POk "" "g*".
Proof. vm_compute. reflexivity. Qed.

(** src/spl/parser.rs:1551 test_wildcard *)
Example parse_011 :
  wildcard "foo*" = POk "" "foo*".
Proof. vm_compute. reflexivity. Qed.

(** src/spl/parser.rs:1552 test_wildcard *)
Example parse_012 :
  wildcard "foo*bar" = POk "" "foo*bar".
Proof. vm_compute. reflexivity. Qed.

(** src/spl/parser.rs:1556 test_wildcard *)
Example parse_013 :
  wildcard "*foo*" = POk "" "*foo*".
Proof. vm_compute. reflexivity. Qed.

(** src/spl/parser.rs:1557 test_wildcard *)
Example parse_014 :
  wildcard """str*""" = POk "" "str*".
Proof. vm_compute. reflexivity. Qed.

(** src/spl/parser.rs:1558 test_wildcard *)
Example parse_015 :
  wildcard "str" = PErr.
Proof. vm_compute. reflexivity. Qed.

(** src/spl/parser.rs:1559 test_wildcard *)
Example parse_016 :
  wildcard "foo bar" = PErr.
Proof. vm_compute. reflexivity. Qed.

(** src/spl/parser.rs:1560 test_wildcard *)
Example parse_017 :
  wildcard """str""" = PErr.
Proof. vm_compute. reflexivity. Qed.

(** src/spl/parser.rs:1572 test_field *)
Example parse_018 :
  let text := "junk" in let R := level (S (String.length text)) in (expr R) text = POk "" (econst (KField "junk")).
Proof. vm_compute. reflexivity. Qed.

(** src/spl/parser.rs:1588 test_field_and_value *)
Example parse_019 :
  field_and_value "foo   = bar" = POk "" ("foo", "bar").
Proof. vm_compute. reflexivity. Qed.

(** src/spl/parser.rs:1602 test_field_and_constant *)
Example parse_020 :
  field_and_constant "f=g*" = POk "" ("f", (KWildcard "g*")).
Proof. vm_compute. reflexivity. Qed.

(** src/spl/parser.rs:1622 test_command_options *)
Example parse_021 :
  command_options "foo=bar bar=baz" = POk "" [("foo", (KField "bar")); ("bar", (KField "baz"))].
Proof. vm_compute. reflexivity. Qed.

(** src/spl/parser.rs:1652 test_field_list *)
Example parse_022 :
  field_list0 "a ,   b,c, d" = POk "" ["a"; "b"; "c"; "d"].
Proof. vm_compute. reflexivity. Qed.

(** src/spl/parser.rs:1682 test_int *)
Example parse_023 :
  p_int "-100500" = POk "" (-100500)%Z.
Proof. vm_compute. reflexivity. Qed.

(** src/spl/parser.rs:1690 test_time_span_1sec *)
Example parse_024 :
  time_span "1sec" = POk "" (mkTimeSpan 1%Z "seconds").
Proof. vm_compute. reflexivity. Qed.

(** src/spl/parser.rs:1707 test_time_span_5s *)
Example parse_025 :
  time_span "5s" = POk "" (mkTimeSpan 5%Z "seconds").
Proof. vm_compute. reflexivity. Qed.

(** src/spl/parser.rs:1724 test_time_span_5second *)
Example parse_026 :
  time_span "5second" = POk "" (mkTimeSpan 5%Z "seconds").
Proof. vm_compute. reflexivity. Qed.

(** src/spl/parser.rs:1741 test_time_span_5sec *)
Example parse_027 :
  time_span "5sec" = POk "" (mkTimeSpan 5%Z "seconds").
Proof. vm_compute. reflexivity. Qed.

(** src/spl/parser.rs:1758 test_time_span_5m *)
Example parse_028 :
  time_span "5m" = POk "" (mkTimeSpan 5%Z "minutes").
Proof. vm_compute. reflexivity. Qed.

(** src/spl/parser.rs:1775 test_time_span_5mins *)
Example parse_029 :
  time_span "5mins" = POk "" (mkTimeSpan 5%Z "minutes").
Proof. vm_compute. reflexivity. Qed.

(** src/spl/parser.rs:1792 test_time_span_minus5mon *)
Example parse_030 :
  time_span "-5mon" = POk "" (mkTimeSpan (-5)%Z "months").
Proof. vm_compute. reflexivity. Qed.

(** src/spl/parser.rs:1812 test_constant_snap_time_1 *)
Example parse_031 :
  constant "-5d@w-2h" = POk "" (KSnapTime (mkSnapTime (Some (mkTimeSpan (-5)%Z "days")) "weeks" (Some (mkTimeSpan (-2)%Z "hours")))).
Proof. vm_compute. reflexivity. Qed.

(** src/spl/parser.rs:1839 test_constant_snap_time_2 *)
Example parse_032 :
  constant "-5d@w0-2h" = POk "" (KSnapTime (mkSnapTime (Some (mkTimeSpan (-5)%Z "days")) "weeks" (Some (mkTimeSpan (-2)%Z "hours")))).
Proof. vm_compute. reflexivity. Qed.

(** src/spl/parser.rs:1866 test_constant_snap_time_3 *)
Example parse_033 :
  constant "-5d@w" = POk "" (KSnapTime (mkSnapTime (Some (mkTimeSpan (-5)%Z "days")) "weeks" None)).
Proof. vm_compute. reflexivity. Qed.

(** src/spl/parser.rs:1887 test_constant_snap_time_4 *)
Example parse_034 :
  constant "@w" = POk "" (KSnapTime (mkSnapTime None "weeks" None)).
Proof. vm_compute. reflexivity. Qed.

(** src/spl/parser.rs:1905 test_constant_snap_time_5 *)
Example parse_035 :
  constant "@w-1d" = POk "" (KSnapTime (mkSnapTime None "weeks" (Some (mkTimeSpan (-1)%Z "days")))).
Proof. vm_compute. reflexivity. Qed.

(** src/spl/parser.rs:1926 test_constant_snap_time_6 *)
Example parse_036 :
  constant "-1h@h" = POk "" (KSnapTime (mkSnapTime (Some (mkTimeSpan (-1)%Z "hours")) "hours" None)).
Proof. vm_compute. reflexivity. Qed.

(** src/spl/parser.rs:1947 test_constant_snap_time_7 *)
Example parse_037 :
  constant "-h@h" = POk "" (KSnapTime (mkSnapTime (Some (mkTimeSpan (-1)%Z "hours")) "hours" None)).
Proof. vm_compute. reflexivity. Qed.

(** src/spl/parser.rs:1968 test_constant_snap_time_8 *)
Example parse_038 :
  constant "h@h" = POk "" (KSnapTime (mkSnapTime (Some (mkTimeSpan 1%Z "hours")) "hours" None)).
Proof. vm_compute. reflexivity. Qed.

(** src/spl/parser.rs:1997 test_command_options_1 *)
Example parse_039 :
  command_options "a=b c=1 d=""e"" f=g* h=-15m i=10.0.0.0/8 k=f" = POk "" [("a", (KField "b")); ("c", (KInt 1%Z)); ("d", (KStr "e")); ("f", (KWildcard "g*")); ("h", (KTimeSpan (mkTimeSpan (-15)%Z "minutes"))); ("i", (KIPv4CIDR "10.0.0.0/8")); ("k", (KBool false))].
Proof. vm_compute. reflexivity. Qed.

(** src/spl/parser.rs:2049 test_expr_or_1 *)
Example parse_040 :
  let text := "a OR b" in let R := level (S (String.length text)) in (expr R) text = POk "" (EBinary (econst (KField "a")) "OR" (econst (KField "b"))).
Proof. vm_compute. reflexivity. Qed.

(** src/spl/parser.rs:2068 test_expr_wildcard_1 *)
Example parse_041 :
  let text := "productID=""S*G01""" in let R := level (S (String.length text)) in (expr R) text = POk "" (EBinary (econst (KField "productID")) "=" (econst (KWildcard "S*G01"))).
Proof. vm_compute. reflexivity. Qed.

(** src/spl/parser.rs:2102 test_expr_nested_or_1 *)
Example parse_042 :
  let text := "(event_id=12 OR event_id=13 OR event_id=14)" in let R := level (S (String.length text)) in (expr R) text = POk "" (EBinary (EBinary (econst (KField "event_id")) "=" (econst (KInt 12%Z))) "OR" (EBinary (EBinary (econst (KField "event_id")) "=" (econst (KInt 13%Z))) "OR" (EBinary (econst (KField "event_id")) "=" (econst (KInt 14%Z))))).
Proof. vm_compute. reflexivity. Qed.

(** src/spl/parser.rs:2119 test_not *)
Example parse_043 :
  let text := "NOT x" in let R := level (S (String.length text)) in (expr R) text = POk "" (EUnary "NOT" (econst (KField "x"))).
Proof. vm_compute. reflexivity. Qed.

(** src/spl/parser.rs:2137 test_fields_1 *)
Example parse_044 :
  (cmd "fields" p_fields) "fields column_a, column_b, column_c" = POk "" (CFields false ["column_a"; "column_b"; "column_c"]).
Proof. vm_compute. reflexivity. Qed.

(** src/spl/parser.rs:2167 test_fields_2 *)
Example parse_045 :
  (cmd "fields" p_fields) "fields + column_a, column_b" = POk "" (CFields false ["column_a"; "column_b"]).
Proof. vm_compute. reflexivity. Qed.

(** src/spl/parser.rs:2196 test_fields_3 *)
Example parse_046 :
  (cmd "fields" p_fields) "fields - column_a, column_b" = POk "" (CFields true ["column_a"; "column_b"]).
Proof. vm_compute. reflexivity. Qed.

(** src/spl/parser.rs:2225 test_sort_1 *)
Example parse_047 :
  let text := "sort A, -B, +num(C)" in let R := level (S (String.length text)) in (cmd "sort" (p_sort R)) text = POk "" (CSort [(None, (econst (KField "A"))); ((Some "-"), (econst (KField "B"))); ((Some "+"), (ECall "num" [(econst (KField "C"))]))] 10000%Z false).
Proof. vm_compute. reflexivity. Qed.

(** src/spl/parser.rs:2251 test_pipeline_term_call_1 *)
Example parse_048 :
  let text := "TERM(XXXXX*\\XXXXX*)" in let R := level (S (String.length text)) in (pipeline R) text = POk "" [(CSearch (ECall "TERM" [(econst (KField "XXXXX*\\XXXXX*"))]))].
Proof. vm_compute. reflexivity. Qed.

(** src/spl/parser.rs:2286 test_pipeline_values_eval_mvappend_1 *)
Example parse_049 :
  let text := "values(eval(mvappend(""a: "" . a, ""b: "" . b)))" in let R := level (S (String.length text)) in (pipeline R) text = POk "" [(CSearch (ECall "values" [(ECall "eval" [(ECall "mvappend" [(EBinary (econst (KStr "a: ")) "." (econst (KField "a"))); (EBinary (econst (KStr "b: ")) "." (econst (KField "b")))])])]))].
Proof. vm_compute. reflexivity. Qed.

(** src/spl/parser.rs:2322 test_sort_2 *)
Example parse_050 :
  let text := "sort A" in let R := level (S (String.length text)) in (cmd "sort" (p_sort R)) text = POk "" (CSort [(None, (econst (KField "A")))] 10000%Z false).
Proof. vm_compute. reflexivity. Qed.

(** src/spl/parser.rs:2373 test_pipeline_index_eval_collect_4 *)
Example parse_051 :
  let text := "index=foo bar=baz | eval foo=bar | collect index=newer" in let R := level (S (String.length text)) in (pipeline R) text = POk "" [(CSearch (EBinary (EBinary (econst (KField "index")) "=" (econst (KField "foo"))) "AND" (EBinary (econst (KField "bar")) "=" (econst (KField "baz"))))); (CEval [("foo", (econst (KField "bar")))]); (CCollect (mkCollect "newer" [] true None None None "raw" false true None None false))].
Proof. vm_compute. reflexivity. Qed.

(** src/spl/parser.rs:2413 test_aliased_call *)
Example parse_052 :
  let text := "first(startTime) AS startTime" in let R := level (S (String.length text)) in (aliased_call R) text = POk "" (EAlias (ECall "first" [(econst (KField "startTime"))]) "startTime").
Proof. vm_compute. reflexivity. Qed.

(** src/spl/parser.rs:2424 test_stats_call *)
Example parse_053 :
  let text := "first(startTime) AS startTime, last(histID) AS lastPassHistId" in let R := level (S (String.length text)) in (stats_call R) text = POk "" [(EAlias (ECall "first" [(econst (KField "startTime"))]) "startTime"); (EAlias (ECall "last" [(econst (KField "histID"))]) "lastPassHistId")].
Proof. vm_compute. reflexivity. Qed.

(** src/spl/parser.rs:2438 test_case_call_1 *)
Example parse_054 :
  let text := "status==200" in let R := level (S (String.length text)) in (expr R) text = POk "" (EBinary (econst (KField "status")) "==" (econst (KInt 200%Z))).
Proof. vm_compute. reflexivity. Qed.

(** src/spl/parser.rs:2457 test_case_call_1 *)
Example parse_055 :
  let text := "case(status==200, ""OK"", status==404, ""Not found"", status==500, ""Internal Server Error"")" in let R := level (S (String.length text)) in (call R) text = POk "" (ECall "case" [(EBinary (econst (KField "status")) "==" (econst (KInt 200%Z))); (econst (KStr "OK")); (EBinary (econst (KField "status")) "==" (econst (KInt 404%Z))); (econst (KStr "Not found")); (EBinary (econst (KField "status")) "==" (econst (KInt 500%Z))); (econst (KStr "Internal Server Error"))]).
Proof. vm_compute. reflexivity. Qed.

(** src/spl/parser.rs:2463 test_case_call_1 *)
Example parse_056 :
  let text := "eval description=case(status==200, ""OK"", status==404, ""Not found"", status==500, ""Internal Server Error"")" in let R := level (S (String.length text)) in (cmd "eval" (p_eval R)) text = POk "" (CEval [("description", (ECall "case" [(EBinary (econst (KField "status")) "==" (econst (KInt 200%Z))); (econst (KStr "OK")); (EBinary (econst (KField "status")) "==" (econst (KInt 404%Z))); (econst (KStr "Not found")); (EBinary (econst (KField "status")) "==" (econst (KInt 500%Z))); (econst (KStr "Internal Server Error"))]))]).
Proof. vm_compute. reflexivity. Qed.

(** src/spl/parser.rs:2478 test_logical_expression_1 *)
Example parse_057 :
  field "Processes.process_name=wmic.exe" = POk "=wmic.exe" "Processes.process_name".
Proof. vm_compute. reflexivity. Qed.

(** src/spl/parser.rs:2482 test_logical_expression_1 *)
Example parse_058 :
  literal "wmic.exe" = POk "" (KStr "wmic.exe").
Proof. vm_compute. reflexivity. Qed.

(** src/spl/parser.rs:2486 test_logical_expression_1 *)
Example parse_059 :
  let text := "Processes.process_name=wmic.exe" in let R := level (S (String.length text)) in (comparison_expression R) text = POk "" (EBinary (econst (KField "Processes.process_name")) "=" (econst (KStr "wmic.exe"))).
Proof. vm_compute. reflexivity. Qed.

(** src/spl/parser.rs:2496 test_logical_expression_1 *)
Example parse_060 :
  let text := "Processes.process_name=wmic.exe" in let R := level (S (String.length text)) in (logical_expression R) text = POk "" (EBinary (econst (KField "Processes.process_name")) "=" (econst (KStr "wmic.exe"))).
Proof. vm_compute. reflexivity. Qed.

(** src/spl/parser.rs:2510 test_logical_expression_2 *)
Example parse_061 :
  let text := "Processes.process_name=wmic.exe OR Processes.original_file_name=wmic.exe" in let R := level (S (String.length text)) in (logical_expression R) text = POk "" (EBinary (EBinary (econst (KField "Processes.process_name")) "=" (econst (KStr "wmic.exe"))) "OR" (EBinary (econst (KField "Processes.original_file_name")) "=" (econst (KStr "wmic.exe")))).
Proof. vm_compute. reflexivity. Qed.

(** src/spl/parser.rs:2532 test_logical_expression_3 *)
Example parse_062 :
  let text := "Processes.process = ""*os get*""" in let R := level (S (String.length text)) in (logical_expression R) text = POk "" (EBinary (econst (KField "Processes.process")) "=" (econst (KWildcard "*os get*"))).
Proof. vm_compute. reflexivity. Qed.

(** src/spl/parser.rs:2554 test_logical_expression_4 *)
Example parse_063 :
  let text := "(Processes.process_name=wmic.exe OR Processes.original_file_name=wmic.exe)" in let R := level (S (String.length text)) in (logical_expression R) text = POk "" (EBinary (EBinary (econst (KField "Processes.process_name")) "=" (econst (KStr "wmic.exe"))) "OR" (EBinary (econst (KField "Processes.original_file_name")) "=" (econst (KStr "wmic.exe")))).
Proof. vm_compute. reflexivity. Qed.

(** src/spl/parser.rs:2576 test_logical_expression_5 *)
Example parse_064 :
  let text := "(Processes.process_name=wmic.exe OR Processes.original_file_name=wmic.exe) Processes.process = ""*os get*"" Processes.process=""*/format:*"" Processes.process = ""*.xsl*""" in let R := level (S (String.length text)) in (logical_expression R) text = POk "" (EBinary (EBinary (EBinary (EBinary (EBinary (econst (KField "Processes.process_name")) "=" (econst (KStr "wmic.exe"))) "OR" (EBinary (econst (KField "Processes.original_file_name")) "=" (econst (KStr "wmic.exe")))) "AND" (EBinary (econst (KField "Processes.process")) "=" (econst (KWildcard "*os get*")))) "AND" (EBinary (econst (KField "Processes.process")) "=" (econst (KWildcard "*/format:*")))) "AND" (EBinary (econst (KField "Processes.process")) "=" (econst (KWildcard "*.xsl*")))).
Proof. vm_compute. reflexivity. Qed.

(** src/spl/parser.rs:2616 test_logical_expression_6 *)
Example parse_065 :
  let text := "NOT x=y" in let R := level (S (String.length text)) in (logical_expression R) text = POk "" (EUnary "NOT" (EBinary (econst (KField "x")) "=" (econst (KStr "y")))).
Proof. vm_compute. reflexivity. Qed.

(** src/spl/parser.rs:2627 test_logical_expression_7 *)
Example parse_066 :
  literal "127.0.0.1" = POk "" (KStr "127.0.0.1").
Proof. vm_compute. reflexivity. Qed.

(** src/spl/parser.rs:2631 test_logical_expression_7 *)
Example parse_067 :
  literal "10.0.0.0/8" = POk "" (KIPv4CIDR "10.0.0.0/8").
Proof. vm_compute. reflexivity. Qed.

(** src/spl/parser.rs:2635 test_logical_expression_7 *)
Example parse_068 :
  literal "172.16.0.0/12" = POk "" (KIPv4CIDR "172.16.0.0/12").
Proof. vm_compute. reflexivity. Qed.

(** src/spl/parser.rs:2639 test_logical_expression_7 *)
Example parse_069 :
  literal "192.168.0.0/16" = POk "" (KIPv4CIDR "192.168.0.0/16").
Proof. vm_compute. reflexivity. Qed.

(** src/spl/parser.rs:2643 test_logical_expression_7 *)
Example parse_070 :
  literal "0:0:0:0:0:0:0:1" = POk "" (KStr "0:0:0:0:0:0:0:1").
Proof. vm_compute. reflexivity. Qed.

(** src/spl/parser.rs:2648 test_logical_expression_7 *)
Example parse_071 :
  let text := "All_Traffic.dest IN (127.0.0.1,10.0.0.0/8,172.16.0.0/12, 192.168.0.0/16, 0:0:0:0:0:0:0:1)" in let R := level (S (String.length text)) in (logical_expression R) text = POk "" (EFieldIn "All_Traffic.dest" [(econst (KStr "127.0.0.1")); (econst (KIPv4CIDR "10.0.0.0/8")); (econst (KIPv4CIDR "172.16.0.0/12")); (econst (KIPv4CIDR "192.168.0.0/16")); (econst (KStr "0:0:0:0:0:0:0:1"))]).
Proof. vm_compute. reflexivity. Qed.

(** src/spl/parser.rs:2666 test_logical_expression_7 *)
Example parse_072 :
  let text := "NOT (All_Traffic.dest IN (127.0.0.1,10.0.0.0/8,172.16.0.0/12, 192.168.0.0/16, 0:0:0:0:0:0:0:1))" in let R := level (S (String.length text)) in (logical_expression R) text = POk "" (EUnary "NOT" (EFieldIn "All_Traffic.dest" [(econst (KStr "127.0.0.1")); (econst (KIPv4CIDR "10.0.0.0/8")); (econst (KIPv4CIDR "172.16.0.0/12")); (econst (KIPv4CIDR "192.168.0.0/16")); (econst (KStr "0:0:0:0:0:0:0:1"))])).
Proof. vm_compute. reflexivity. Qed.

(** src/spl/parser.rs:2688 test_logical_expression_8 *)
Example parse_073 :
  let text := "a=1 OR b=2 AND c=3 OR (d=4 e=5)" in let R := level (S (String.length text)) in (logical_expression R) text = POk "" (EBinary (EBinary (EBinary (econst (KField "a")) "=" (econst (KInt 1%Z))) "OR" (EBinary (EBinary (econst (KField "b")) "=" (econst (KInt 2%Z))) "AND" (EBinary (econst (KField "c")) "=" (econst (KInt 3%Z))))) "OR" (EBinary (EBinary (econst (KField "d")) "=" (econst (KInt 4%Z))) "AND" (EBinary (econst (KField "e")) "=" (econst (KInt 5%Z))))).
Proof. vm_compute. reflexivity. Qed.

(** src/spl/parser.rs:2711 test_logical_expression_9 *)
Example parse_074 :
  let text := "a=1 b=2" in let R := level (S (String.length text)) in (logical_expression R) text = POk "" (EBinary (EBinary (econst (KField "a")) "=" (econst (KInt 1%Z))) "AND" (EBinary (econst (KField "b")) "=" (econst (KInt 2%Z)))).
Proof. vm_compute. reflexivity. Qed.

(** src/spl/parser.rs:2725 test_int_in_string_1 *)
Example parse_075 :
  let text := "3" in let R := level (S (String.length text)) in (expr R) text = POk "" (econst (KInt 3%Z)).
Proof. vm_compute. reflexivity. Qed.

(** src/spl/parser.rs:2726 test_int_in_string_1 *)
Example parse_076 :
  let text := "3x" in let R := level (S (String.length text)) in (expr R) text = POk "" (econst (KField "3x")).
Proof. vm_compute. reflexivity. Qed.

(** src/spl/parser.rs:2731 test_field_starting_with_not *)
Example parse_077 :
  let text := "note!=ESCU*" in let R := level (S (String.length text)) in (expr R) text = POk "" (EBinary (econst (KField "note")) "!=" (econst (KWildcard "ESCU*"))).
Proof. vm_compute. reflexivity. Qed.

(** src/spl/parser.rs:2742 test_logical_expression_10 *)
Example parse_078 :
  let text := "a=1 AND (b=2 OR c=3)" in let R := level (S (String.length text)) in (expr R) text = POk "" (EBinary (EBinary (econst (KField "a")) "=" (econst (KInt 1%Z))) "AND" (EBinary (EBinary (econst (KField "b")) "=" (econst (KInt 2%Z))) "OR" (EBinary (econst (KField "c")) "=" (econst (KInt 3%Z))))).
Proof. vm_compute. reflexivity. Qed.

(** src/spl/parser.rs:2759 test_logical_expression_11 *)
Example parse_079 :
  let text := "isnull(firstTimeSeenUserApiCall) OR firstTimeSeenUserApiCall > relative_time(now(),""-24h@h"")" in let R := level (S (String.length text)) in (logical_expression R) text = POk "" (EBinary (ECall "isnull" [(econst (KField "firstTimeSeenUserApiCall"))]) "OR" (EBinary (econst (KField "firstTimeSeenUserApiCall")) ">" (ECall "relative_time" [(ECall "now" []); (econst (KSnapTime (mkSnapTime (Some (mkTimeSpan (-24)%Z "hours")) "hours" None)))]))).
Proof. vm_compute. reflexivity. Qed.

(** src/spl/parser.rs:2789 test_string_double_double_quotes *)
Example parse_080 :
  double_quoted """xyz""" = POk "" "xyz".
Proof. vm_compute. reflexivity. Qed.

(** src/spl/parser.rs:2791 test_string_double_double_quotes *)
Example parse_081 :
  double_quoted """""xyz""""" = POk "" """xyz""".
Proof. vm_compute. reflexivity. Qed.

(** src/spl/parser.rs:2793 test_string_double_double_quotes *)
Example parse_082 :
  double_quoted """""" = POk "" "".
Proof. vm_compute. reflexivity. Qed.

(** src/commands/cmd_add_totals/spl.rs:113 test_command_addtotals_1 *)
Example parse_083 :
  let text := "addtotals row=t col=f fieldname=num_total num_1 num_2" in let R := level (S (String.length text)) in (command R) text = POk "" (CAddTotals (mkAddTotals ["num_1"; "num_2"] true false "num_total" None "Total")).
Proof. vm_compute. reflexivity. Qed.

(** src/commands/cmd_bin/spl.rs:114 test_command_bin_1 *)
Example parse_084 :
  let text := "bin span=30m minspan=5m bins=20 start=0 end=20 aligntime=latest foo AS bar" in let R := level (S (String.length text)) in (command R) text = POk "" (CBin (FAAlias (econst (KField "foo")) "bar") (mkBinOpts (Some (mkTimeSpan 30%Z "minutes")) (Some (mkTimeSpan 5%Z "minutes")) (Some 20%Z) (Some 0%Z) (Some 20%Z) (Some "latest"))).
Proof. vm_compute. reflexivity. Qed.

(** src/commands/cmd_collect/spl.rs:186 test_pipeline_collect_3 *)
Example parse_085 :
  let text := "collect index=threathunting addtime=f x, y,  z" in let R := level (S (String.length text)) in (pipeline R) text = POk "" [(CCollect (mkCollect "threathunting" ["x"; "y"; "z"] false None None None "raw" false true None None false))].
Proof. vm_compute. reflexivity. Qed.

(** src/commands/cmd_convert/spl.rs:106 test_convert_1 *)
Example parse_086 :
  (cmd "convert" p_convert) "convert ctime(indextime)" = POk "" (CConvert "%m/%d/%Y %H:%M:%S" [(mkConversion "ctime" "indextime" None)]).
Proof. vm_compute. reflexivity. Qed.

(** src/commands/cmd_dedup/spl.rs:157 test_dedup_1 *)
Example parse_087 :
  (cmd "dedup" p_dedup) "dedup 10 keepevents=true keepempty=false consecutive=true host ip port" = POk "" (CDedup 10%Z ["host"; "ip"; "port"] true false true [((Some "+"), (econst (KField "_no")))] 0%Z false).
Proof. vm_compute. reflexivity. Qed.

(** src/commands/cmd_dedup/spl.rs:204 test_dedup_2 *)
Example parse_088 :
  (cmd "dedup" p_dedup) "dedup 10 keepevents=true host ip port sortby +host -ip" = POk "" (CDedup 10%Z ["host"; "ip"; "port"] true false false [((Some "+"), (econst (KField "host"))); ((Some "-"), (econst (KField "ip")))] 0%Z false).
Proof. vm_compute. reflexivity. Qed.

(** src/commands/cmd_eval/spl.rs:65 test_eval_1 *)
Example parse_089 :
  let text := "eval mitre_category=""Discovery""" in let R := level (S (String.length text)) in (cmd "eval" (p_eval R)) text = POk "" (CEval [("mitre_category", (econst (KStr "Discovery")))]).
Proof. vm_compute. reflexivity. Qed.

(** src/commands/cmd_eval/spl.rs:87 test_eval_2 *)
Example parse_090 :
  let text := "eval email_lower=lower(email)" in let R := level (S (String.length text)) in (cmd "eval" (p_eval R)) text = POk "" (CEval [("email_lower", (ECall "lower" [(econst (KField "email"))]))]).
Proof. vm_compute. reflexivity. Qed.

(** src/commands/cmd_eval/spl.rs:110 test_eval_3_args *)
Example parse_091 :
  let text := "replace(email, ""@.+"", """")" in let R := level (S (String.length text)) in (call R) text = POk "" (ECall "replace" [(econst (KField "email")); (econst (KStr "@.+")); (econst (KStr ""))]).
Proof. vm_compute. reflexivity. Qed.

(** src/commands/cmd_eval/spl.rs:121 test_eval_3_args *)
Example parse_092 :
  let text := "replace(email, ""@.+"", """")" in let R := level (S (String.length text)) in (expr R) text = POk "" (ECall "replace" [(econst (KField "email")); (econst (KStr "@.+")); (econst (KStr ""))]).
Proof. vm_compute. reflexivity. Qed.

(** src/commands/cmd_eval/spl.rs:137 test_eval_3 *)
Example parse_093 :
  let text := "eval replaced=replace(email, ""@.+"", """")" in let R := level (S (String.length text)) in (cmd "eval" (p_eval R)) text = POk "" (CEval [("replaced", (ECall "replace" [(econst (KField "email")); (econst (KStr "@.+")); (econst (KStr ""))]))]).
Proof. vm_compute. reflexivity. Qed.

(** src/commands/cmd_eval/spl.rs:165 test_eval_4 *)
Example parse_094 :
  let text := "eval hash_sha256= lower(hash_sha256), b=c" in let R := level (S (String.length text)) in (cmd "eval" (p_eval R)) text = POk "" (CEval [("hash_sha256", (ECall "lower" [(econst (KField "hash_sha256"))])); ("b", (econst (KField "c")))]).
Proof. vm_compute. reflexivity. Qed.

(** src/commands/cmd_eval/spl.rs:185 test_eval_5 *)
Example parse_095 :
  let text := "eval key='dest.workload.name' + "":"" + 'dest.process.name'" in let R := level (S (String.length text)) in (cmd "eval" (p_eval R)) text = POk "" (CEval [("key", (EBinary (econst (KField "dest.workload.name")) "+" (EBinary (econst (KStr ":")) "+" (econst (KField "dest.process.name")))))]).
Proof. vm_compute. reflexivity. Qed.

(** src/commands/cmd_event_stats/spl.rs:91 test_command_eventstats_1 *)
Example parse_096 :
  let text := "eventstats min(n) by gender" in let R := level (S (String.length text)) in (command R) text = POk "" (CEventStats false [(ECall "min" [(econst (KField "n"))])] ["gender"]).
Proof. vm_compute. reflexivity. Qed.

(** src/commands/cmd_fill_null/spl.rs:77 test_fill_null_1 *)
Example parse_097 :
  (cmd "fillnull" p_fillnull) "fillnull" = POk "" (CFillNull "0" None).
Proof. vm_compute. reflexivity. Qed.

(** src/commands/cmd_fill_null/spl.rs:95 test_fill_null_2 *)
Example parse_098 :
  (cmd "fillnull" p_fillnull) "fillnull value=""NA""" = POk "" (CFillNull "NA" None).
Proof. vm_compute. reflexivity. Qed.

(** src/commands/cmd_fill_null/spl.rs:118 test_fill_null_3 *)
Example parse_099 :
  (cmd "fillnull" p_fillnull) "fillnull value=""NULL"" host port" = POk "" (CFillNull "NULL" (Some ["host"; "port"])).
Proof. vm_compute. reflexivity. Qed.

(** src/commands/cmd_format/spl.rs:133 test_format_1 *)
Example parse_100 :
  (cmd "format" p_format) "format maxresults=10" = POk "" (CFormat (mkFormat "OR" 10%Z "(" "(" "AND" ")" "OR" ")")).
Proof. vm_compute. reflexivity. Qed.

(** src/commands/cmd_format/spl.rs:166 test_format_2 *)
Example parse_101 :
  (cmd "format" p_format) "format mvsep=""||"" ""["" ""["" ""&&"" ""]"" ""||"" ""]""" = POk "" (CFormat (mkFormat "||" 0%Z "[" "[" "&&" "]" "||" "]")).
Proof. vm_compute. reflexivity. Qed.

(** src/commands/cmd_head/spl.rs:96 test_head_limit_1 *)
Example parse_102 :
  let text := "head 20" in let R := level (S (String.length text)) in (cmd "head" (p_head R)) text = POk "" (CHead (econst (KInt 20%Z)) false false).
Proof. vm_compute. reflexivity. Qed.

(** src/commands/cmd_head/spl.rs:120 test_head_limit_2 *)
Example parse_103 :
  let text := "head limit=400" in let R := level (S (String.length text)) in (cmd "head" (p_head R)) text = POk "" (CHead (econst (KInt 400%Z)) false false).
Proof. vm_compute. reflexivity. Qed.

(** src/commands/cmd_head/spl.rs:145 test_head_limit_3 *)
Example parse_104 :
  let text := "head limit=400 keeplast=true null=false" in let R := level (S (String.length text)) in (cmd "head" (p_head R)) text = POk "" (CHead (econst (KInt 400%Z)) true false).
Proof. vm_compute. reflexivity. Qed.

(** src/commands/cmd_head/spl.rs:174 test_head_count_greater_than_10 *)
Example parse_105 :
  let text := "head count>10" in let R := level (S (String.length text)) in (cmd "head" (p_head R)) text = POk "" (CHead (EBinary (econst (KField "count")) ">" (econst (KInt 10%Z))) false false).
Proof. vm_compute. reflexivity. Qed.

(** src/commands/cmd_head/spl.rs:189 test_head_count_greater_than_10_keeplast *)
Example parse_106 :
  let text := "head count>=10 keeplast=true" in let R := level (S (String.length text)) in (cmd "head" (p_head R)) text = POk "" (CHead (EBinary (econst (KField "count")) ">=" (econst (KInt 10%Z))) true false).
Proof. vm_compute. reflexivity. Qed.

(** src/commands/cmd_input_lookup/spl.rs:113 test_input_lookup_1 *)
Example parse_107 :
  let text := "inputlookup append=t strict=f myTable where test_id=11" in let R := level (S (String.length text)) in (cmd "inputlookup" (p_inputlookup R)) text = POk "" (CInputLookup (mkInputLookup true false 0%Z 1000000000%Z "myTable") (Some (EBinary (econst (KField "test_id")) "=" (econst (KInt 11%Z))))).
Proof. vm_compute. reflexivity. Qed.

(** src/commands/cmd_input_lookup/spl.rs:142 test_input_lookup_2 *)
Example parse_108 :
  let text := "inputlookup myTable" in let R := level (S (String.length text)) in (cmd "inputlookup" (p_inputlookup R)) text = POk "" (CInputLookup (mkInputLookup false false 0%Z 1000000000%Z "myTable") None).
Proof. vm_compute. reflexivity. Qed.

(** src/commands/cmd_join/spl.rs:124 test_join_1 *)
Example parse_109 :
  let text := "join product_id [search vendors]" in let R := level (S (String.length text)) in (cmd "join" (p_join R)) text = POk "" (CJoin (mkJoin "inner" false true true 1%Z ["product_id"]) [(CSearch (econst (KField "vendors")))]).
Proof. vm_compute. reflexivity. Qed.

(** src/commands/cmd_join/spl.rs:168 test_join_2 *)
Example parse_110 :
  let text := "join type=left usetime=true earlier=false overwrite=false product_id, host, name [search vendors]" in let R := level (S (String.length text)) in (cmd "join" (p_join R)) text = POk "" (CJoin (mkJoin "left" true false false 1%Z ["product_id"; "host"; "name"]) [(CSearch (econst (KField "vendors")))]).
Proof. vm_compute. reflexivity. Qed.

(** src/commands/cmd_join/spl.rs:219 test_join_3 *)
Example parse_111 :
  let text := "join product_id [search vendors | rename pid AS product_id]" in let R := level (S (String.length text)) in (cmd "join" (p_join R)) text = POk "" (CJoin (mkJoin "inner" false true true 1%Z ["product_id"]) [(CSearch (econst (KField "vendors"))); (CRename [((econst (KField "pid")), "product_id")])]).
Proof. vm_compute. reflexivity. Qed.

(** src/commands/cmd_join/spl.rs:259 test_join_4 *)
Example parse_112 :
  let text := "join process_guid, _time [
            | tstats
                summariesonly=false allow_old_summaries=true fillnull_value=null
                count min(_time) as firstTime max(_time) as lastTime
                FROM datamodel=Endpoint.Filesystem
                where Filesystem.file_path IN (""*\\HttpProxy\\owa\\auth\\*"", ""*\\inetpub\\wwwroot\\aspnet_client\\*"", ""*\\HttpProxy\\OAB\\*"") Filesystem.file_name=""*.aspx""
                by _time span=1h Filesystem.dest Filesystem.file_create_time Filesystem.file_name Filesystem.file_path
            | rename Filesystem.* AS *
            | fields _time dest file_create_time file_name file_path process_name process_path process process_guid
            ]" in let R := level (S (String.length text)) in (cmd "join" (p_join R)) text = POk "" (CJoin (mkJoin "inner" false true true 1%Z ["process_guid"; "_time"]) [(CTStats (mkTStatsOpts false false false false false true 10000000%Z (Some "null")) [(ECall "count" []); (EAlias (ECall "min" [(econst (KField "_time"))]) "firstTime"); (EAlias (ECall "max" [(econst (KField "_time"))]) "lastTime")] (Some "Endpoint.Filesystem") None (Some (EBinary (EFieldIn "Filesystem.file_path" [(econst (KWildcard "*\\HttpProxy\\owa\\auth\\*")); (econst (KWildcard "*\\inetpub\\wwwroot\\aspnet_client\\*")); (econst (KWildcard "*\\HttpProxy\\OAB\\*"))]) "AND" (EBinary (econst (KField "Filesystem.file_name")) "=" (econst (KWildcard "*.aspx"))))) (Some [(mkMSF "_time" (Some (mkTimeSpan 1%Z "hours"))); (mkMSF "Filesystem.dest" None); (mkMSF "Filesystem.file_create_time" None); (mkMSF "Filesystem.file_name" None); (mkMSF "Filesystem.file_path" None)]) None); (CRename [((econst (KField "Filesystem.*")), "*")]); (CFields false ["_time"; "dest"; "file_create_time"; "file_name"; "file_path"; "process_name"; "process_path"; "process"; "process_guid"])]).
Proof. vm_compute. reflexivity. Qed.

(** src/commands/cmd_lookup/spl.rs:142 test_pipeline_lookup_5 *)
Example parse_113 :
  (cmd "lookup" p_lookup) "lookup process_create_whitelist a b output reason" = POk "" (CLookup "process_create_whitelist" [(FLField "a"); (FLField "b")] (Some ("output", [(FLField "reason")]))).
Proof. vm_compute. reflexivity. Qed.

(** src/commands/cmd_lookup/spl.rs:146 test_pipeline_lookup_5 *)
Example parse_114 :
  let text := "lookup process_create_whitelist a b output reason" in let R := level (S (String.length text)) in (pipeline R) text = POk "" [(CLookup "process_create_whitelist" [(FLField "a"); (FLField "b")] (Some ("output", [(FLField "reason")])))].
Proof. vm_compute. reflexivity. Qed.

(** src/commands/cmd_make_results/spl.rs:86 test_command_makeresults_1 *)
Example parse_115 :
  let text := "makeresults" in let R := level (S (String.length text)) in (command R) text = POk "" (CMakeResults (mkMakeResults 1%Z false "local" None)).
Proof. vm_compute. reflexivity. Qed.

(** src/commands/cmd_make_results/spl.rs:111 test_command_makeresults_2 *)
Example parse_116 :
  let text := "makeresults count=10 annotate=t splunk_server_group=group0" in let R := level (S (String.length text)) in (command R) text = POk "" (CMakeResults (mkMakeResults 10%Z true "local" (Some "group0"))).
Proof. vm_compute. reflexivity. Qed.

(** src/commands/cmd_map/spl.rs:101 test_command_map_1 *)
Example parse_117 :
  let text := "map search=""search index=dummy host=$host_var$"" maxsearches=20" in let R := level (S (String.length text)) in (command R) text = POk "" (CMap [(CSearch (EBinary (EBinary (econst (KField "index")) "=" (econst (KField "dummy"))) "AND" (EBinary (econst (KField "host")) "=" (econst (KVariable "host_var")))))] 20%Z).
Proof. vm_compute. reflexivity. Qed.

(** src/commands/cmd_map/spl.rs:162 test_quoted_search *)
Example parse_118 :
  double_quoted_alt """search index=\""dummy\""""" = POk "" "search index=\""dummy\""".
Proof. vm_compute. reflexivity. Qed.

(** src/commands/cmd_map/spl.rs:166 test_quoted_search *)
Example parse_119 :
  let text := "search=""search index=\""dummy\""""" in let R := level (S (String.length text)) in (quoted_search R) text = POk "" [(CSearch (EBinary (econst (KField "index")) "=" (econst (KStr "dummy"))))].
Proof. vm_compute. reflexivity. Qed.

(** src/commands/cmd_map/spl.rs:178 test_quoted_search *)
Example parse_120 :
  let text := "map search=""search index=\""dummy\""""" in let R := level (S (String.length text)) in (cmd "map" (p_map_cmd R)) text = POk "" (CMap [(CSearch (EBinary (econst (KField "index")) "=" (econst (KStr "dummy"))))] 10%Z).
Proof. vm_compute. reflexivity. Qed.

(** src/commands/cmd_map/spl.rs:193 test_quoted_search *)
Example parse_121 :
  let text := "map search=""search index=dummy""" in let R := level (S (String.length text)) in (cmd "map" (p_map_cmd R)) text = POk "" (CMap [(CSearch (EBinary (econst (KField "index")) "=" (econst (KField "dummy"))))] 10%Z).
Proof. vm_compute. reflexivity. Qed.

(** src/commands/cmd_map/spl.rs:244 test_map_1 *)
Example parse_122 :
  let text := "search index=dummy host=$host_var$ | eval this=""that"" | dedup 10 keepevents=true keepempty=false consecutive=true host ip port" in let R := level (S (String.length text)) in (pipeline R) text = POk "" [(CSearch (EBinary (EBinary (econst (KField "index")) "=" (econst (KField "dummy"))) "AND" (EBinary (econst (KField "host")) "=" (econst (KVariable "host_var"))))); (CEval [("this", (econst (KStr "that")))]); (CDedup 10%Z ["host"; "ip"; "port"] true false true [((Some "+"), (econst (KField "_no")))] 0%Z false)].
Proof. vm_compute. reflexivity. Qed.

(** src/commands/cmd_map/spl.rs:250 test_map_1 *)
Example parse_123 :
  let text := "search=""search index=dummy host=$host_var$ | eval this=\""that\"" | dedup 10 keepevents=true keepempty=false consecutive=true host ip port""" in let R := level (S (String.length text)) in rest_of ((quoted_search R) text) = Some "".
Proof. vm_compute. reflexivity. Qed.

(** src/commands/cmd_map/spl.rs:255 test_map_1 *)
Example parse_124 :
  let text := "map search=""search index=dummy host=$host_var$ | eval this=\""that\"" | dedup 10 keepevents=true keepempty=false consecutive=true host ip port""" in let R := level (S (String.length text)) in (command R) text = POk "" (CMap [(CSearch (EBinary (EBinary (econst (KField "index")) "=" (econst (KField "dummy"))) "AND" (EBinary (econst (KField "host")) "=" (econst (KVariable "host_var"))))); (CEval [("this", (econst (KStr "that")))]); (CDedup 10%Z ["host"; "ip"; "port"] true false true [((Some "+"), (econst (KField "_no")))] 0%Z false)] 10%Z).
Proof. vm_compute. reflexivity. Qed.

(** src/commands/cmd_mv_combine/spl.rs:77 test_mvcombine_1 *)
Example parse_125 :
  (cmd "mvcombine" p_mvcombine) "mvcombine host" = POk "" (CMvCombine None "host").
Proof. vm_compute. reflexivity. Qed.

(** src/commands/cmd_mv_combine/spl.rs:98 test_mvcombine_2 *)
Example parse_126 :
  (cmd "mvcombine" p_mvcombine) "mvcombine delim="","" host" = POk "" (CMvCombine (Some ",") "host").
Proof. vm_compute. reflexivity. Qed.

(** src/commands/cmd_regex/spl.rs:76 test_regex_1 *)
Example parse_127 :
  (cmd "regex" p_regex) "regex _raw=""(?<!\d)10\.\d{1,3}\.\d{1,3}\.\d{1,3}(?!\d)""" = POk "" (CRegex (Some ("_raw", "=")) "(?<!\d)10\.\d{1,3}\.\d{1,3}\.\d{1,3}(?!\d)").
Proof. vm_compute. reflexivity. Qed.

(** src/commands/cmd_regex/spl.rs:96 test_regex_2 *)
Example parse_128 :
  (cmd "regex" p_regex) "regex _raw!=""(?<!\d)10\.\d{1,3}\.\d{1,3}\.\d{1,3}(?!\d)""" = POk "" (CRegex (Some ("_raw", "!=")) "(?<!\d)10\.\d{1,3}\.\d{1,3}\.\d{1,3}(?!\d)").
Proof. vm_compute. reflexivity. Qed.

(** src/commands/cmd_regex/spl.rs:116 test_regex_3 *)
Example parse_129 :
  (cmd "regex" p_regex) "regex ""(?<!\d)10\.\d{1,3}\.\d{1,3}\.\d{1,3}(?!\d)""" = POk "" (CRegex None "(?<!\d)10\.\d{1,3}\.\d{1,3}\.\d{1,3}(?!\d)").
Proof. vm_compute. reflexivity. Qed.

(** src/commands/cmd_rename/spl.rs:68 test_rename_1 *)
Example parse_130 :
  (cmd "rename" p_rename) "rename _ip AS IPAddress" = POk "" (CRename [((econst (KField "_ip")), "IPAddress")]).
Proof. vm_compute. reflexivity. Qed.

(** src/commands/cmd_rename/spl.rs:99 test_rename_2 *)
Example parse_131 :
  (cmd "rename" p_rename) "rename _ip AS IPAddress, _host AS host, _port AS port" = POk "" (CRename [((econst (KField "_ip")), "IPAddress"); ((econst (KField "_host")), "host"); ((econst (KField "_port")), "port")]).
Proof. vm_compute. reflexivity. Qed.

(** src/commands/cmd_rename/spl.rs:127 test_rename_3 *)
Example parse_132 :
  (cmd "rename" p_rename) "rename foo* AS bar*" = POk "" (CRename [((econst (KField "foo*")), "bar*")]).
Proof. vm_compute. reflexivity. Qed.

(** src/commands/cmd_rename/spl.rs:150 test_rename_4 *)
Example parse_133 :
  (cmd "rename" p_rename) "rename count AS ""Count of Events""" = POk "" (CRename [((econst (KField "count")), "Count of Events")]).
Proof. vm_compute. reflexivity. Qed.

(** src/commands/cmd_rename/spl.rs:163 test_rename_5 *)
Example parse_134 :
  (cmd "rename" p_rename) "rename ""Web"".* AS *" = POk "" (CRename [((econst (KField """Web"".*")), "*")]).
Proof. vm_compute. reflexivity. Qed.

(** src/commands/cmd_return/spl.rs:94 test_return_1 *)
Example parse_135 :
  (cmd "return" p_return) "return 10 $test $env" = POk "" (CReturn 10%Z [(FAField "test"); (FAField "env")]).
Proof. vm_compute. reflexivity. Qed.

(** src/commands/cmd_return/spl.rs:123 test_return_2 *)
Example parse_136 :
  (cmd "return" p_return) "return 10 ip src host port" = POk "" (CReturn 10%Z [(FAField "ip"); (FAField "src"); (FAField "host"); (FAField "port")]).
Proof. vm_compute. reflexivity. Qed.

(** src/commands/cmd_return/spl.rs:152 test_return_3 *)
Example parse_137 :
  (cmd "return" p_return) "return 10 ip=src host=port" = POk "" (CReturn 10%Z [(FAAlias (econst (KField "src")) "ip"); (FAAlias (econst (KField "port")) "host")]).
Proof. vm_compute. reflexivity. Qed.

(** src/commands/cmd_rex/spl.rs:114 test_pipeline_rex_1 *)
Example parse_138 :
  double_quoted """\d""" = POk "" "\d".
Proof. vm_compute. reflexivity. Qed.

(** src/commands/cmd_rex/spl.rs:115 test_pipeline_rex_1 *)
Example parse_139 :
  double_quoted """(?<user>\w+);(?<app>\w+);(?<SavedSearchName>\w+)""" = POk "" "(?<user>\w+);(?<app>\w+);(?<SavedSearchName>\w+)".
Proof. vm_compute. reflexivity. Qed.

(** src/commands/cmd_rex/spl.rs:119 test_pipeline_rex_1 *)
Example parse_140 :
  let text := "rex field=savedsearch_id max_match=10 ""(?<user>\w+);(?<app>\w+);(?<SavedSearchName>\w+)""" in let R := level (S (String.length text)) in (pipeline R) text = POk "" [(CRex (mkRex "savedsearch_id" 10%Z None None "(?<user>\w+);(?<app>\w+);(?<SavedSearchName>\w+)"))].
Proof. vm_compute. reflexivity. Qed.

(** src/commands/cmd_rex/spl.rs:153 test_pipeline_rex_2 *)
Example parse_141 :
  let text := "rex mode=sed ""s/(\d{4}-){3}/XXXX-XXXX-XXXX-/g""" in let R := level (S (String.length text)) in (pipeline R) text = POk "" [(CRex (mkRex "_raw" 1%Z None (Some "sed") "s/(\d{4}-){3}/XXXX-XXXX-XXXX-/g"))].
Proof. vm_compute. reflexivity. Qed.

(** src/commands/cmd_s_path/spl.rs:89 test_spath_1 *)
Example parse_142 :
  (cmd "spath" p_spath) "spath output=myfield path=vendorProductSet.product.desc" = POk "" (CSPath (mkSPath "vendorProductSet.product.desc" "_raw" (Some "myfield"))).
Proof. vm_compute. reflexivity. Qed.

(** src/commands/cmd_s_path/spl.rs:115 test_spath_2 *)
Example parse_143 :
  (cmd "spath" p_spath) "spath input=x output=y key.subkey" = POk "" (CSPath (mkSPath "key.subkey" "x" (Some "y"))).
Proof. vm_compute. reflexivity. Qed.

(** src/commands/cmd_search/spl.rs:88 test_search_1 *)
Example parse_144 :
  let text := "search index=dummy host=$host_var$" in let R := level (S (String.length text)) in (p_search R) text = POk "" (CSearch (EBinary (EBinary (econst (KField "index")) "=" (econst (KField "dummy"))) "AND" (EBinary (econst (KField "host")) "=" (econst (KVariable "host_var"))))).
Proof. vm_compute. reflexivity. Qed.

(** src/commands/cmd_search/spl.rs:135 test_implied_search_2 *)
Example parse_145 :
  let text := "a=b b=c (c=f OR d=t)" in let R := level (S (String.length text)) in (p_search R) text = POk "" (CSearch (EBinary (EBinary (EBinary (econst (KField "a")) "=" (econst (KField "b"))) "AND" (EBinary (econst (KField "b")) "=" (econst (KField "c")))) "AND" (EBinary (EBinary (econst (KField "c")) "=" (econst (KBool false))) "OR" (EBinary (econst (KField "d")) "=" (econst (KBool true)))))).
Proof. vm_compute. reflexivity. Qed.

(** src/commands/cmd_search/spl.rs:164 test_implied_search_3 *)
Example parse_146 :
  let text := "code IN(4*, 5*)" in let R := level (S (String.length text)) in (p_search R) text = POk "" (CSearch (EFieldIn "code" [(econst (KWildcard "4*")); (econst (KWildcard "5*"))])).
Proof. vm_compute. reflexivity. Qed.

(** src/commands/cmd_search/spl.rs:192 test_implied_search_4 *)
Example parse_147 :
  field_in "var_5 IN (str_2, str_3)" = POk "" (EFieldIn "var_5" [(econst (KField "str_2")); (econst (KField "str_3"))]).
Proof. vm_compute. reflexivity. Qed.

(** src/commands/cmd_search/spl.rs:205 test_implied_search_4 *)
Example parse_148 :
  let text := "var_5 IN (str_2, str_3)" in let R := level (S (String.length text)) in (p_search R) text = POk "" (CSearch (EFieldIn "var_5" [(econst (KField "str_2")); (econst (KField "str_3"))])).
Proof. vm_compute. reflexivity. Qed.

(** src/commands/cmd_search/spl.rs:234 test_implied_search_5 *)
Example parse_149 :
  let text := "NOT code IN(4*, 5*)" in let R := level (S (String.length text)) in (p_search R) text = POk "" (CSearch (EUnary "NOT" (EFieldIn "code" [(econst (KWildcard "4*")); (econst (KWildcard "5*"))]))).
Proof. vm_compute. reflexivity. Qed.

(** src/commands/cmd_search/spl.rs:278 test_implied_search_6 *)
Example parse_150 :
  let text := "code IN(10, 29, 43) host!=""localhost"" xqp>5" in let R := level (S (String.length text)) in (p_search R) text = POk "" (CSearch (EBinary (EBinary (EFieldIn "code" [(econst (KInt 10%Z)); (econst (KInt 29%Z)); (econst (KInt 43%Z))]) "AND" (EBinary (econst (KField "host")) "!=" (econst (KStr "localhost")))) "AND" (EBinary (econst (KField "xqp")) ">" (econst (KInt 5%Z))))).
Proof. vm_compute. reflexivity. Qed.

(** src/commands/cmd_search/spl.rs:309 test_search_7 *)
Example parse_151 :
  let text := "sourcetype=XmlWinEventLog:Microsoft-Windows-Sysmon/Operational OR source=XmlWinEventLog:Microsoft-Windows-Sysmon/Operational OR source=Syslog:Linux-Sysmon/Operational EventCode=6 Signature=""Noriyuki MIYAZAKI"" OR ImageLoaded= ""*\\WinRing0x64.sys""" in let R := level (S (String.length text)) in (p_search R) text = POk "" (CSearch (EBinary (EBinary (EBinary (EBinary (econst (KField "sourcetype")) "=" (econst (KField "XmlWinEventLog:Microsoft-Windows-Sysmon/Operational"))) "OR" (EBinary (EBinary (econst (KField "source")) "=" (econst (KField "XmlWinEventLog:Microsoft-Windows-Sysmon/Operational"))) "OR" (EBinary (econst (KField "source")) "=" (econst (KField "Syslog:Linux-Sysmon/Operational"))))) "AND" (EBinary (econst (KField "EventCode")) "=" (econst (KInt 6%Z)))) "AND" (EBinary (EBinary (econst (KField "Signature")) "=" (econst (KStr "Noriyuki MIYAZAKI"))) "OR" (EBinary (econst (KField "ImageLoaded")) "=" (econst (KWildcard "*\\WinRing0x64.sys")))))).
Proof. vm_compute. reflexivity. Qed.

(** src/commands/cmd_search/spl.rs:361 test_search_8 *)
Example parse_152 :
  let text := "search
        query!=""SELECT * FROM Win32_ProcessStartTrace WHERE ProcessName = 'wsmprovhost.exe'""
        AND query!=""SELECT * FROM __InstanceOperationEvent WHERE TargetInstance ISA 'AntiVirusProduct' OR TargetInstance ISA 'FirewallProduct' OR TargetInstance ISA 'AntiSpywareProduct'""" in let R := level (S (String.length text)) in (p_search R) text = POk "" (CSearch (EBinary (EBinary (econst (KField "query")) "!=" (econst (KWildcard "SELECT * FROM Win32_ProcessStartTrace WHERE ProcessName = 'wsmprovhost.exe'"))) "AND" (EBinary (econst (KField "query")) "!=" (econst (KWildcard "SELECT * FROM __InstanceOperationEvent WHERE TargetInstance ISA 'AntiVirusProduct' OR TargetInstance ISA 'FirewallProduct' OR TargetInstance ISA 'AntiSpywareProduct'"))))).
Proof. vm_compute. reflexivity. Qed.

(** src/commands/cmd_search/spl.rs:388 test_search_9 *)
Example parse_153 :
  let text := "
            sourcetype=XmlWinEventLog:Microsoft-Windows-Sysmon/Operational
            OR source=XmlWinEventLog:Microsoft-Windows-Sysmon/Operational
            OR source=Syslog:Linux-Sysmon/Operational (process_name=3CXDesktopApp.exe OR OriginalFileName=3CXDesktopApp.exe)  FileVersion=18.12.*" in let R := level (S (String.length text)) in (p_search R) text = POk "" (CSearch (EBinary (EBinary (EBinary (EBinary (econst (KField "sourcetype")) "=" (econst (KField "XmlWinEventLog:Microsoft-Windows-Sysmon/Operational"))) "OR" (EBinary (EBinary (econst (KField "source")) "=" (econst (KField "XmlWinEventLog:Microsoft-Windows-Sysmon/Operational"))) "OR" (EBinary (econst (KField "source")) "=" (econst (KField "Syslog:Linux-Sysmon/Operational"))))) "AND" (EBinary (EBinary (econst (KField "process_name")) "=" (econst (KField "3CXDesktopApp.exe"))) "OR" (EBinary (econst (KField "OriginalFileName")) "=" (econst (KField "3CXDesktopApp.exe"))))) "AND" (EBinary (econst (KField "FileVersion")) "=" (econst (KWildcard "18.12.*"))))).
Proof. vm_compute. reflexivity. Qed.

(** src/commands/cmd_search/spl.rs:450 test_search_10 *)
Example parse_154 :
  let text := "
        eventtype=wineventlog_security OR Channel=security OR source=XmlWinEventLog:Security
        EventCode=5137 OR (
            EventCode=5136
            AttributeValue!=""New Group Policy Object"" AND
            (
                AttributeLDAPDisplayName=displayName OR
                AttributeLDAPDisplayName=gPCFileSysPath
            )
        )
        ObjectClass=groupPolicyContainer" in let R := level (S (String.length text)) in (p_search R) text = POk "" (CSearch (EBinary (EBinary (EBinary (EBinary (econst (KField "eventtype")) "=" (econst (KField "wineventlog_security"))) "OR" (EBinary (EBinary (econst (KField "Channel")) "=" (econst (KField "security"))) "OR" (EBinary (econst (KField "source")) "=" (econst (KField "XmlWinEventLog:Security"))))) "AND" (EBinary (EBinary (econst (KField "EventCode")) "=" (econst (KInt 5137%Z))) "OR" (EBinary (EBinary (econst (KField "EventCode")) "=" (econst (KInt 5136%Z))) "AND" (EBinary (EBinary (econst (KField "AttributeValue")) "!=" (econst (KStr "New Group Policy Object"))) "AND" (EBinary (EBinary (econst (KField "AttributeLDAPDisplayName")) "=" (econst (KField "displayName"))) "OR" (EBinary (econst (KField "AttributeLDAPDisplayName")) "=" (econst (KField "gPCFileSysPath")))))))) "AND" (EBinary (econst (KField "ObjectClass")) "=" (econst (KField "groupPolicyContainer"))))).
Proof. vm_compute. reflexivity. Qed.

(** src/commands/cmd_search/spl.rs:506 test_search_11 *)
Example parse_155 :
  let text := "eventtype=wineventlog_security OR Channel=security OR source=XmlWinEventLog:Security EventCode=5136 AttributeLDAPDisplayName IN (""msDS-AllowedToDelegateTo"",""msDS-AllowedToActOnBehalfOfOtherIdentity"",""scriptPath"",""msTSInitialProgram"") OperationType=%%14674" in let R := level (S (String.length text)) in rest_of ((p_search R) text) = Some "".
Proof. vm_compute. reflexivity. Qed.

(** src/commands/cmd_search/spl.rs:512 test_search_12 *)
Example parse_156 :
  let text := "sourcetype=XmlWinEventLog:Microsoft-Windows-Sysmon/Operational OR source=XmlWinEventLog:Microsoft-Windows-Sysmon/Operational OR source=Syslog:Linux-Sysmon/Operational EventCode=22 QueryName IN (""*pastebin*"",""""*textbin*"""", ""*ngrok.io*"", ""*discord*"", ""*duckdns.org*"", ""*pasteio.com*"")" in let R := level (S (String.length text)) in rest_of ((p_search R) text) = Some "".
Proof. vm_compute. reflexivity. Qed.

(** src/commands/cmd_search/spl.rs:517 test_search_13 *)
Example parse_157 :
  let text := "search [| inputlookup x]" in let R := level (S (String.length text)) in rest_of ((p_search R) text) = Some "".
Proof. vm_compute. reflexivity. Qed.

(** src/commands/cmd_search/spl.rs:525 test_search_13 *)
Example parse_158 :
  let text := "search [| tstats summariesonly=false allow_old_summaries=true fillnull_value=null count FROM datamodel=Endpoint.Processes where Processes.parent_process_name=cmd.exe Processes.process_name= reg.exe by Processes.parent_process_id Processes.dest Processes.process_name | rename ""Processes"".* AS * | convert timeformat=""%Y-%m-%dT%H:%M:%S"" ctime(firstTime) | convert timeformat=""%Y-%m-%dT%H:%M:%S"" ctime(lastTime) | rename parent_process_id as process_id | dedup process_id | table process_id dest]" in let R := level (S (String.length text)) in rest_of ((p_search R) text) = Some "".
Proof. vm_compute. reflexivity. Qed.

(** src/commands/cmd_search/spl.rs:531 test_search_14 *)
Example parse_159 :
  let text := "sourcetype=XmlWinEventLog:Microsoft-Windows-Sysmon/Operational OR source=XmlWinEventLog:Microsoft-Windows-Sysmon/Operational OR source=Syslog:Linux-Sysmon/Operational EventCode = 8 parent_process_name IN (""powershell_ise.exe"", ""powershell.exe"") TargetImage IN (""*\\svchost.exe"",""*\\csrss.exe"" ""*\\gpupdate.exe"", ""*\\explorer.exe"",""*\\services.exe"",""*\\winlogon.exe"",""*\\smss.exe"",""*\\wininit.exe"",""*\\userinit.exe"",""*\\spoolsv.exe"",""*\\taskhost.exe"")" in let R := level (S (String.length text)) in rest_of ((p_search R) text) = Some "".
Proof. vm_compute. reflexivity. Qed.

(** src/commands/cmd_search/spl.rs:536 test_search_15 *)
Example parse_160 :
  rest_of (field_in "email IN("""", ""null"")") = Some "".
Proof. vm_compute. reflexivity. Qed.

(** src/commands/cmd_search/spl.rs:537 test_search_15 *)
Example parse_161 :
  let text := "(email IN("""", ""null""))" in let R := level (S (String.length text)) in rest_of ((expr R) text) = Some "".
Proof. vm_compute. reflexivity. Qed.

(** src/commands/cmd_search/spl.rs:538 test_search_15 *)
Example parse_162 :
  let text := "NOT (email IN("""", ""null""))" in let R := level (S (String.length text)) in rest_of ((expr R) text) = Some "".
Proof. vm_compute. reflexivity. Qed.

(** src/commands/cmd_search/spl.rs:539 test_search_15 *)
Example parse_163 :
  let text := "sourcetype=gsuite:drive:json NOT (email IN("""", ""null""))" in let R := level (S (String.length text)) in rest_of ((p_search R) text) = Some "".
Proof. vm_compute. reflexivity. Qed.

(** src/commands/cmd_search/spl.rs:550 test_search_16 *)
Example parse_164 :
  let text := "search http_method, ""POST""" in let R := level (S (String.length text)) in (p_search R) text = POk "" (CSearch (EBinary (econst (KField "http_method")) "AND" (econst (KStr "POST")))).
Proof. vm_compute. reflexivity. Qed.

(** src/commands/cmd_stats/spl.rs:129 test_stats_1 *)
Example parse_165 :
  let text := "stats first(startTime) AS startTime, last(histID) AS lastPassHistId BY testCaseId" in let R := level (S (String.length text)) in (pipeline R) text = POk "" [(CStats (mkStatsOpts 1%Z false " " false) [(EAlias (ECall "first" [(econst (KField "startTime"))]) "startTime"); (EAlias (ECall "last" [(econst (KField "histID"))]) "lastPassHistId")] (Some [(mkMSF "testCaseId" None)]))].
Proof. vm_compute. reflexivity. Qed.

(** src/commands/cmd_stats/spl.rs:178 test_stats_2 *)
Example parse_166 :
  let text := "stats count(eval(status=404))" in let R := level (S (String.length text)) in (pipeline R) text = POk "" [(CStats (mkStatsOpts 1%Z false " " false) [(ECall "count" [(ECall "eval" [(EBinary (econst (KField "status")) "=" (econst (KInt 404%Z)))])])] None)].
Proof. vm_compute. reflexivity. Qed.

(** src/commands/cmd_stats/spl.rs:226 test_no_comma_stats_1 *)
Example parse_167 :
  let text := "stats allnum=f delim="":"" partitions=10 count earliest(_time) as earliest latest(_time) as latest values(var_2) as var_2 by var_1" in let R := level (S (String.length text)) in (pipeline R) text = POk "" [(CStats (mkStatsOpts 10%Z false ":" false) [(ECall "count" []); (EAlias (ECall "earliest" [(econst (KField "_time"))]) "earliest"); (EAlias (ECall "latest" [(econst (KField "_time"))]) "latest"); (EAlias (ECall "values" [(econst (KField "var_2"))]) "var_2")] (Some [(mkMSF "var_1" None)]))].
Proof. vm_compute. reflexivity. Qed.

(** src/commands/cmd_stats/spl.rs:258 test_stats_3 *)
Example parse_168 :
  let text := "stats
        count min(_time) as firstTime max(_time) as lastTime
        by action deviceowner user urlcategory url src dest" in let R := level (S (String.length text)) in (cmd "stats" (p_stats R)) text = POk "" (CStats (mkStatsOpts 1%Z false " " false) [(ECall "count" []); (EAlias (ECall "min" [(econst (KField "_time"))]) "firstTime"); (EAlias (ECall "max" [(econst (KField "_time"))]) "lastTime")] (Some [(mkMSF "action" None); (mkMSF "deviceowner" None); (mkMSF "user" None); (mkMSF "urlcategory" None); (mkMSF "url" None); (mkMSF "src" None); (mkMSF "dest" None)])).
Proof. vm_compute. reflexivity. Qed.

(** src/commands/cmd_stats/spl.rs:289 test_stats_4 *)
Example parse_169 :
  let text := "stats count AS instances_launched by _time userName" in let R := level (S (String.length text)) in (cmd "stats" (p_stats R)) text = POk "" (CStats (mkStatsOpts 1%Z false " " false) [(EAlias (ECall "count" []) "instances_launched")] (Some [(mkMSF "_time" None); (mkMSF "userName" None)])).
Proof. vm_compute. reflexivity. Qed.

(** src/commands/cmd_t_stats/spl.rs:286 test_tstats_1 *)
Example parse_170 :
  let text := "tstats summariesonly=false allow_old_summaries=true fillnull_value=null
                count min(_time) as firstTime max(_time) as lastTime
                from datamodel=Endpoint.Processes
                where (Processes.process_name=wmic.exe OR Processes.original_file_name=wmic.exe) Processes.process = ""*os get*"" Processes.process=""*/format:*"" Processes.process = ""*.xsl*""
                by Processes.parent_process_name Processes.parent_process Processes.process_name Processes.process_id Processes.process Processes.dest Processes.user" in let R := level (S (String.length text)) in (cmd "tstats" (p_tstats R)) text = POk "" (CTStats (mkTStatsOpts false false false false false true 10000000%Z (Some "null")) [(ECall "count" []); (EAlias (ECall "min" [(econst (KField "_time"))]) "firstTime"); (EAlias (ECall "max" [(econst (KField "_time"))]) "lastTime")] (Some "Endpoint.Processes") None (Some (EBinary (EBinary (EBinary (EBinary (EBinary (econst (KField "Processes.process_name")) "=" (econst (KStr "wmic.exe"))) "OR" (EBinary (econst (KField "Processes.original_file_name")) "=" (econst (KStr "wmic.exe")))) "AND" (EBinary (econst (KField "Processes.process")) "=" (econst (KWildcard "*os get*")))) "AND" (EBinary (econst (KField "Processes.process")) "=" (econst (KWildcard "*/format:*")))) "AND" (EBinary (econst (KField "Processes.process")) "=" (econst (KWildcard "*.xsl*"))))) (Some [(mkMSF "Processes.parent_process_name" None); (mkMSF "Processes.parent_process" None); (mkMSF "Processes.process_name" None); (mkMSF "Processes.process_id" None); (mkMSF "Processes.process" None); (mkMSF "Processes.dest" None); (mkMSF "Processes.user" None)]) None).
Proof. vm_compute. reflexivity. Qed.

(** src/commands/cmd_t_stats/spl.rs:356 test_tstats_2 *)
Example parse_171 :
  let text := "tstats
            count min(_time) as firstTime max(_time) as lastTime
            from datamodel=Web
            where Web.url IN (""/AHT/AhtApiService.asmx/AuthUser"") Web.status=200 Web.http_method=POST
            by Web.http_user_agent, Web.status Web.http_method, Web.url, Web.url_length, Web.src, Web.dest, sourcetype" in let R := level (S (String.length text)) in (all_consuming (cmd "tstats" (p_tstats R))) text = POk "" (CTStats (mkTStatsOpts false false false false false false 10000000%Z None) [(ECall "count" []); (EAlias (ECall "min" [(econst (KField "_time"))]) "firstTime"); (EAlias (ECall "max" [(econst (KField "_time"))]) "lastTime")] (Some "Web") None (Some (EBinary (EBinary (EFieldIn "Web.url" [(econst (KStr "/AHT/AhtApiService.asmx/AuthUser"))]) "AND" (EBinary (econst (KField "Web.status")) "=" (econst (KInt 200%Z)))) "AND" (EBinary (econst (KField "Web.http_method")) "=" (econst (KStr "POST"))))) (Some [(mkMSF "Web.http_user_agent" None); (mkMSF "Web.status" None); (mkMSF "Web.http_method" None); (mkMSF "Web.url" None); (mkMSF "Web.url_length" None); (mkMSF "Web.src" None); (mkMSF "Web.dest" None); (mkMSF "sourcetype" None)]) None).
Proof. vm_compute. reflexivity. Qed.

(** src/commands/cmd_t_stats/spl.rs:416 test_tstats_3 *)
Example parse_172 :
  let text := "tstats
        summariesonly=false allow_old_summaries=true fillnull_value=null
        count min(_time) AS firstTime max(_time) AS lastTime
        FROM datamodel=Endpoint.Processes
        BY _time span=1h Processes.user Processes.process_id Processes.process_name Processes.process Processes.process_path Processes.dest Processes.parent_process_name Processes.parent_process Processes.process_guid" in let R := level (S (String.length text)) in (all_consuming (cmd "tstats" (p_tstats R))) text = POk "" (CTStats (mkTStatsOpts false false false false false true 10000000%Z (Some "null")) [(ECall "count" []); (EAlias (ECall "min" [(econst (KField "_time"))]) "firstTime"); (EAlias (ECall "max" [(econst (KField "_time"))]) "lastTime")] (Some "Endpoint.Processes") None None (Some [(mkMSF "_time" (Some (mkTimeSpan 1%Z "hours"))); (mkMSF "Processes.user" None); (mkMSF "Processes.process_id" None); (mkMSF "Processes.process_name" None); (mkMSF "Processes.process" None); (mkMSF "Processes.process_path" None); (mkMSF "Processes.dest" None); (mkMSF "Processes.parent_process_name" None); (mkMSF "Processes.parent_process" None); (mkMSF "Processes.process_guid" None)]) None).
Proof. vm_compute. reflexivity. Qed.

(** src/commands/cmd_t_stats/spl.rs:470 test_tstats_4 *)
Example parse_173 :
  let text := "tstats
        summariesonly=false allow_old_summaries=true fillnull_value=null
        count min(_time) as firstTime max(_time) as lastTime
        from datamodel=Endpoint.Processes
        where (Processes.process_name =""7z.exe"" OR Processes.process_name = ""7za.exe"" OR Processes.original_file_name = ""7z.exe"" OR Processes.original_file_name =  ""7za.exe"") AND (Processes.process=""*\\C$\\*"" OR Processes.process=""*\\Admin$\\*"" OR Processes.process=""*\\IPC$\\*"")
        by Processes.original_file_name Processes.parent_process_name Processes.parent_process Processes.process_name Processes.process Processes.parent_process_id Processes.process_id  Processes.dest Processes.user" in let R := level (S (String.length text)) in (all_consuming (cmd "tstats" (p_tstats R))) text = POk "" (CTStats (mkTStatsOpts false false false false false true 10000000%Z (Some "null")) [(ECall "count" []); (EAlias (ECall "min" [(econst (KField "_time"))]) "firstTime"); (EAlias (ECall "max" [(econst (KField "_time"))]) "lastTime")] (Some "Endpoint.Processes") None (Some (EBinary (EBinary (EBinary (EBinary (EBinary (econst (KField "Processes.process_name")) "=" (econst (KStr "7z.exe"))) "OR" (EBinary (econst (KField "Processes.process_name")) "=" (econst (KStr "7za.exe")))) "OR" (EBinary (econst (KField "Processes.original_file_name")) "=" (econst (KStr "7z.exe")))) "OR" (EBinary (econst (KField "Processes.original_file_name")) "=" (econst (KStr "7za.exe")))) "AND" (EBinary (EBinary (EBinary (econst (KField "Processes.process")) "=" (econst (KWildcard "*\\C$\\*"))) "OR" (EBinary (econst (KField "Processes.process")) "=" (econst (KWildcard "*\\Admin$\\*")))) "OR" (EBinary (econst (KField "Processes.process")) "=" (econst (KWildcard "*\\IPC$\\*")))))) (Some [(mkMSF "Processes.original_file_name" None); (mkMSF "Processes.parent_process_name" None); (mkMSF "Processes.parent_process" None); (mkMSF "Processes.process_name" None); (mkMSF "Processes.process" None); (mkMSF "Processes.parent_process_id" None); (mkMSF "Processes.process_id" None); (mkMSF "Processes.dest" None); (mkMSF "Processes.user" None)]) None).
Proof. vm_compute. reflexivity. Qed.

(** src/commands/cmd_t_stats/spl.rs:556 test_tstats_5 *)
Example parse_174 :
  let text := "tstats
        summariesonly=false allow_old_summaries=true fillnull_value=null
        count
        FROM datamodel=Endpoint.Registry
        WHERE Registry.registry_path= ""*\\AppX82a6gwre4fdg3bt635tn5ctqjf8msdd2\\Shell\\open\\command*"" AND (Registry.registry_value_name = ""(Default)"" OR Registry.registry_value_name = ""DelegateExecute"")
        by _time span=1h Registry.dest Registry.user Registry.registry_path Registry.registry_key_name Registry.registry_value_name Registry.registry_value_data Registry.process_guid" in let R := level (S (String.length text)) in (all_consuming (cmd "tstats" (p_tstats R))) text = POk "" (CTStats (mkTStatsOpts false false false false false true 10000000%Z (Some "null")) [(ECall "count" [])] (Some "Endpoint.Registry") None (Some (EBinary (EBinary (econst (KField "Registry.registry_path")) "=" (econst (KWildcard "*\\AppX82a6gwre4fdg3bt635tn5ctqjf8msdd2\\Shell\\open\\command*"))) "AND" (EBinary (EBinary (econst (KField "Registry.registry_value_name")) "=" (econst (KStr "(Default)"))) "OR" (EBinary (econst (KField "Registry.registry_value_name")) "=" (econst (KStr "DelegateExecute")))))) (Some [(mkMSF "_time" (Some (mkTimeSpan 1%Z "hours"))); (mkMSF "Registry.dest" None); (mkMSF "Registry.user" None); (mkMSF "Registry.registry_path" None); (mkMSF "Registry.registry_key_name" None); (mkMSF "Registry.registry_value_name" None); (mkMSF "Registry.registry_value_data" None); (mkMSF "Registry.process_guid" None)]) None).
Proof. vm_compute. reflexivity. Qed.

(** src/commands/cmd_t_stats/spl.rs:621 test_tstats_6 *)
Example parse_175 :
  let text := "tstats
        summariesonly=false allow_old_summaries=true fillnull_value=null
        count
        FROM datamodel=Network_Traffic.All_Traffic
        where All_Traffic.dest_port != 0 NOT (All_Traffic.dest IN (127.0.0.1,10.0.0.0/8,172.16.0.0/12, 192.168.0.0/16, 0:0:0:0:0:0:0:1))
        by All_Traffic.process_id All_Traffic.dest All_Traffic.dest_port" in let R := level (S (String.length text)) in (all_consuming (cmd "tstats" (p_tstats R))) text = POk "" (CTStats (mkTStatsOpts false false false false false true 10000000%Z (Some "null")) [(ECall "count" [])] (Some "Network_Traffic.All_Traffic") None (Some (EBinary (EBinary (econst (KField "All_Traffic.dest_port")) "!=" (econst (KInt 0%Z))) "AND" (EUnary "NOT" (EFieldIn "All_Traffic.dest" [(econst (KStr "127.0.0.1")); (econst (KIPv4CIDR "10.0.0.0/8")); (econst (KIPv4CIDR "172.16.0.0/12")); (econst (KIPv4CIDR "192.168.0.0/16")); (econst (KStr "0:0:0:0:0:0:0:1"))])))) (Some [(mkMSF "All_Traffic.process_id" None); (mkMSF "All_Traffic.dest" None); (mkMSF "All_Traffic.dest_port" None)]) None).
Proof. vm_compute. reflexivity. Qed.

(** src/commands/cmd_t_stats/spl.rs:673 test_tstats_7 *)
Example parse_176 :
  let text := "tstats
        summariesonly=false allow_old_summaries=true fillnull_value=null
        dc(Updates.dest) as count
        FROM datamodel=Updates
        where Updates.vendor_product=""Microsoft Windows"" AND Updates.status=failure
        by _time span=1d" in let R := level (S (String.length text)) in (all_consuming (cmd "tstats" (p_tstats R))) text = POk "" (CTStats (mkTStatsOpts false false false false false true 10000000%Z (Some "null")) [(EAlias (ECall "dc" [(econst (KField "Updates.dest"))]) "count")] (Some "Updates") None (Some (EBinary (EBinary (econst (KField "Updates.vendor_product")) "=" (econst (KStr "Microsoft Windows"))) "AND" (EBinary (econst (KField "Updates.status")) "=" (econst (KStr "failure"))))) (Some [(mkMSF "_time" (Some (mkTimeSpan 1%Z "days")))]) None).
Proof. vm_compute. reflexivity. Qed.

(** src/commands/cmd_t_stats/spl.rs:722 test_tstats_8 *)
Example parse_177 :
  let text := "tstats
        summariesonly=false allow_old_summaries=true fillnull_value=null
        count min(_time) as firstTime max(_time) as lastTime
        from datamodel=Endpoint.Filesystem
        where NOT(Filesystem.file_path IN (""*\\Program Files*"")) Filesystem.file_name = *.url
        by Filesystem.file_create_time Filesystem.process_id  Filesystem.file_name Filesystem.user Filesystem.file_path Filesystem.process_guid Filesystem.dest
        " in let R := level (S (String.length text)) in (all_consuming (cmd "tstats" (p_tstats R))) text = POk "" (CTStats (mkTStatsOpts false false false false false true 10000000%Z (Some "null")) [(ECall "count" []); (EAlias (ECall "min" [(econst (KField "_time"))]) "firstTime"); (EAlias (ECall "max" [(econst (KField "_time"))]) "lastTime")] (Some "Endpoint.Filesystem") None (Some (EBinary (EUnary "NOT" (EFieldIn "Filesystem.file_path" [(econst (KWildcard "*\\Program Files*"))])) "AND" (EBinary (econst (KField "Filesystem.file_name")) "=" (econst (KWildcard "*.url"))))) (Some [(mkMSF "Filesystem.file_create_time" None); (mkMSF "Filesystem.process_id" None); (mkMSF "Filesystem.file_name" None); (mkMSF "Filesystem.user" None); (mkMSF "Filesystem.file_path" None); (mkMSF "Filesystem.process_guid" None); (mkMSF "Filesystem.dest" None)]) None).
Proof. vm_compute. reflexivity. Qed.

(** src/commands/cmd_t_stats/spl.rs:781 test_tstats_9 *)
Example parse_178 :
  let text := "Processes.process=*urlcache* Processes.process=*split*" in let R := level (S (String.length text)) in rest_of ((logical_expression_term R) text) = Some " Processes.process=*split*".
Proof. vm_compute. reflexivity. Qed.

(** src/commands/cmd_t_stats/spl.rs:787 test_tstats_9 *)
Example parse_179 :
  let text := "Processes.process=*split*" in let R := level (S (String.length text)) in rest_of ((logical_expression_term R) text) = Some "".
Proof. vm_compute. reflexivity. Qed.

(** src/commands/cmd_t_stats/spl.rs:793 test_tstats_9 *)
Example parse_180 :
  let text := "Processes.process=*urlcache* AND Processes.process=*split*" in let R := level (S (String.length text)) in rest_of ((logical_expression R) text) = Some "".
Proof. vm_compute. reflexivity. Qed.

(** src/commands/cmd_t_stats/spl.rs:799 test_tstats_9 *)
Example parse_181 :
  let text := "(Processes.process=*urlcache* AND Processes.process=*split*)" in let R := level (S (String.length text)) in rest_of ((logical_expression_term R) text) = Some "".
Proof. vm_compute. reflexivity. Qed.

(** src/commands/cmd_t_stats/spl.rs:807 test_tstats_9 *)
Example parse_182 :
  let text := "(Processes.process=*urlcache* Processes.process=*split*)" in let R := level (S (String.length text)) in rest_of ((logical_expression_term R) text) = Some "".
Proof. vm_compute. reflexivity. Qed.

(** src/commands/cmd_t_stats/spl.rs:814 test_tstats_9 *)
Example parse_183 :
  let text := "tstats
        summariesonly=false allow_old_summaries=true fillnull_value=null
        count min(_time) as firstTime max(_time) as lastTime
        from datamodel=Endpoint.Processes
        where
            Processes.parent_process_name IN (""sqlservr.exe"", ""sqlagent.exe"", ""sqlps.exe"", ""launchpad.exe"", ""sqldumper.exe"")
            (Processes.process_name=certutil.exe OR Processes.original_file_name=CertUtil.exe)
            (Processes.process=*urlcache* Processes.process=*split*)
            OR Processes.process=*urlcache*
        by Processes.dest Processes.user Processes.parent_process Processes.parent_process_name Processes.process_name Processes.process Processes.process_id Processes.original_file_name Processes.parent_process_id
        " in let R := level (S (String.length text)) in (all_consuming (cmd "tstats" (p_tstats R))) text = POk "" (CTStats (mkTStatsOpts false false false false false true 10000000%Z (Some "null")) [(ECall "count" []); (EAlias (ECall "min" [(econst (KField "_time"))]) "firstTime"); (EAlias (ECall "max" [(econst (KField "_time"))]) "lastTime")] (Some "Endpoint.Processes") None (Some (EBinary (EBinary (EBinary (EFieldIn "Processes.parent_process_name" [(econst (KStr "sqlservr.exe")); (econst (KStr "sqlagent.exe")); (econst (KStr "sqlps.exe")); (econst (KStr "launchpad.exe")); (econst (KStr "sqldumper.exe"))]) "AND" (EBinary (EBinary (econst (KField "Processes.process_name")) "=" (econst (KStr "certutil.exe"))) "OR" (EBinary (econst (KField "Processes.original_file_name")) "=" (econst (KStr "CertUtil.exe"))))) "AND" (EBinary (EBinary (econst (KField "Processes.process")) "=" (econst (KWildcard "*urlcache*"))) "AND" (EBinary (econst (KField "Processes.process")) "=" (econst (KWildcard "*split*"))))) "OR" (EBinary (econst (KField "Processes.process")) "=" (econst (KWildcard "*urlcache*"))))) (Some [(mkMSF "Processes.dest" None); (mkMSF "Processes.user" None); (mkMSF "Processes.parent_process" None); (mkMSF "Processes.parent_process_name" None); (mkMSF "Processes.process_name" None); (mkMSF "Processes.process" None); (mkMSF "Processes.process_id" None); (mkMSF "Processes.original_file_name" None); (mkMSF "Processes.parent_process_id" None)]) None).
Proof. vm_compute. reflexivity. Qed.

(** src/commands/cmd_t_stats/spl.rs:900 test_tstats_10 *)
Example parse_184 :
  let text := "tstats
        summariesonly=false allow_old_summaries=true fillnull_value=null
        count min(_time) as firstTime max(_time) as lastTime
        from datamodel=Endpoint.Processes
        where (Processes.process_name=sc.exe OR Processes.original_file_name=sc.exe) (Processes.process=*\\\\* AND Processes.process=*start*)
        by Processes.dest Processes.user Processes.parent_process_name Processes.process_name Processes.process Processes.process_id Processes.parent_process_id" in let R := level (S (String.length text)) in (cmd "tstats" (p_tstats R)) text = POk "" (CTStats (mkTStatsOpts false false false false false true 10000000%Z (Some "null")) [(ECall "count" []); (EAlias (ECall "min" [(econst (KField "_time"))]) "firstTime"); (EAlias (ECall "max" [(econst (KField "_time"))]) "lastTime")] (Some "Endpoint.Processes") None (Some (EBinary (EBinary (EBinary (econst (KField "Processes.process_name")) "=" (econst (KStr "sc.exe"))) "OR" (EBinary (econst (KField "Processes.original_file_name")) "=" (econst (KStr "sc.exe")))) "AND" (EBinary (EBinary (econst (KField "Processes.process")) "=" (econst (KWildcard "*\\\\*"))) "AND" (EBinary (econst (KField "Processes.process")) "=" (econst (KWildcard "*start*")))))) (Some [(mkMSF "Processes.dest" None); (mkMSF "Processes.user" None); (mkMSF "Processes.parent_process_name" None); (mkMSF "Processes.process_name" None); (mkMSF "Processes.process" None); (mkMSF "Processes.process_id" None); (mkMSF "Processes.parent_process_id" None)]) None).
Proof. vm_compute. reflexivity. Qed.

(** src/commands/cmd_t_stats/spl.rs:971 test_tstats_11 *)
Example parse_185 :
  let text := "tstats
        summariesonly=false allow_old_summaries=true fillnull_value=null
        count min(_time) as firstTime max(_time) as lastTime
        FROM datamodel=Endpoint.Registry
        where Registry.registry_path= ""*\\SYSTEM\\CurrentControlSet\\Services*"" AND (
            Registry.action = deleted OR (
                Registry.registry_value_name = DeleteFlag AND
                Registry.registry_value_data = 0x00000001 AND Registry.action=modified
            )
        )
        by Registry.registry_key_name Registry.user Registry.registry_path Registry.registry_value_data Registry.registry_value_name Registry.action Registry.dest" in let R := level (S (String.length text)) in (cmd "tstats" (p_tstats R)) text = POk "" (CTStats (mkTStatsOpts false false false false false true 10000000%Z (Some "null")) [(ECall "count" []); (EAlias (ECall "min" [(econst (KField "_time"))]) "firstTime"); (EAlias (ECall "max" [(econst (KField "_time"))]) "lastTime")] (Some "Endpoint.Registry") None (Some (EBinary (EBinary (econst (KField "Registry.registry_path")) "=" (econst (KWildcard "*\\SYSTEM\\CurrentControlSet\\Services*"))) "AND" (EBinary (EBinary (econst (KField "Registry.action")) "=" (econst (KStr "deleted"))) "OR" (EBinary (EBinary (EBinary (econst (KField "Registry.registry_value_name")) "=" (econst (KStr "DeleteFlag"))) "AND" (EBinary (econst (KField "Registry.registry_value_data")) "=" (econst (KStr "0x00000001")))) "AND" (EBinary (econst (KField "Registry.action")) "=" (econst (KStr "modified"))))))) (Some [(mkMSF "Registry.registry_key_name" None); (mkMSF "Registry.user" None); (mkMSF "Registry.registry_path" None); (mkMSF "Registry.registry_value_data" None); (mkMSF "Registry.registry_value_name" None); (mkMSF "Registry.action" None); (mkMSF "Registry.dest" None)]) None).
Proof. vm_compute. reflexivity. Qed.

(** src/commands/cmd_table/spl.rs:60 test_table_1 *)
Example parse_186 :
  let text := "table foo bar baz*" in let R := level (S (String.length text)) in (pipeline R) text = POk "" [(CTable ["foo"; "bar"; "baz*"])].
Proof. vm_compute. reflexivity. Qed.

(** src/commands/cmd_table/spl.rs:80 test_table_2 *)
Example parse_187 :
  let text := "table _time, dest, user, Operation, EventType, Query, Consumer, Filter" in let R := level (S (String.length text)) in (pipeline R) text = POk "" [(CTable ["_time"; "dest"; "user"; "Operation"; "EventType"; "Query"; "Consumer"; "Filter"])].
Proof. vm_compute. reflexivity. Qed.

(** src/commands/cmd_table/spl.rs:105 test_table_3 *)
Example parse_188 :
  let text := "table protoPayload.@type protoPayload.status.details{}.@type protoPayload.status.details{}.violations{}.callerIp protoPayload.status.details{}.violations{}.type protoPayload.status.message" in let R := level (S (String.length text)) in (pipeline R) text = POk "" [(CTable ["protoPayload.@type"; "protoPayload.status.details{}.@type"; "protoPayload.status.details{}.violations{}.callerIp"; "protoPayload.status.details{}.violations{}.type"; "protoPayload.status.message"])].
Proof. vm_compute. reflexivity. Qed.

(** src/commands/cmd_top/spl.rs:144 test_top_1 *)
Example parse_189 :
  (cmd "top" p_top) "top  sourceIPs{} user.username verb annotations.authorization.k8s.io/decision" = POk "" (CTop (mkTopRare ["sourceIPs{}"; "user.username"; "verb"; "annotations.authorization.k8s.io/decision"] 10%Z None "count" "OTHER" "percent" true true false)).
Proof. vm_compute. reflexivity. Qed.

(** src/commands/cmd_where/spl.rs:64 test_pipeline_where_6 *)
Example parse_190 :
  let text := "where isnull(reason)" in let R := level (S (String.length text)) in (pipeline R) text = POk "" [(CWhere (ECall "isnull" [(econst (KField "reason"))]))].
Proof. vm_compute. reflexivity. Qed.
