(** The remaining unit tests of /repo (of macros, of functions and of translation), run on the
    model.  These are tests of the model's fidelity, not proofs of properties. *)
From Verif Require Import Str SplAst PyAst Render Functions Transpile Commands Nom Lexer Parser CmdParser Macros.
Import ListNotations.
Open Scope string_scope.
Open Scope list_scope.

(** src/spl/macros.rs:62-173 *)
Example macros_1 : detect_macros "`foo`" = Some (Ok ([("", mkMacroCall "foo" [])], "")).
Proof. vm_compute. reflexivity. Qed.
Example macros_2 : detect_macros "`foo(bar, 1, ""s"")`"
  = Some (Ok ([("", mkMacroCall "foo" [(None, "bar"); (None, "1"); (None, """s""")])], "")).
Proof. vm_compute. reflexivity. Qed.
Example macros_3 : detect_macros "`foo(foo=bar, baz=1)`"
  = Some (Ok ([("", mkMacroCall "foo" [(Some "foo", "bar"); (Some "baz", "1")])], "")).
Proof. vm_compute. reflexivity. Qed.
Example macros_4 : detect_macros "index=main | `foo(bar, 1, ""s"")` x=`f` y=3"
  = Some (Ok ([("index=main | ", mkMacroCall "foo" [(None, "bar"); (None, "1"); (None, """s""")]);
               (" x=", mkMacroCall "f" [])], " y=3")).
Proof. vm_compute. reflexivity. Qed.
Example macros_5 : detect_macros "`foo(""`"")`" = Some (Ok ([("", mkMacroCall "foo" [(None, """`""")])], "")).
Proof. vm_compute. reflexivity. Qed.

(** tests/test_macros.py:5-20 *)
Definition test_registry : Macros :=
  registry [("f", mkMacro [] "index=main"); ("g", mkMacro ["f"] "ctime($f$)")].
Definition substituted (s : string) : option (res string) := substitute_macros 5 (fun _ _ _ => Err) test_registry s.
Example substitute_1 : substituted "`f`" = Some (Ok "index=main").
Proof. vm_compute. reflexivity. Qed.
Example substitute_2 : substituted "`f` | eval x=y" = Some (Ok "index=main | eval x=y").
Proof. vm_compute. reflexivity. Qed.
Example substitute_3 : substituted "`f` | eval x=`g(y)`" = Some (Ok "index=main | eval x=ctime(y)").
Proof. vm_compute. reflexivity. Qed.
Example substitute_4 : substituted "`f` | eval x=`g(f=y)`" = Some (Ok "index=main | eval x=ctime(y)").
Proof. vm_compute. reflexivity. Qed.

(** An expression read by [call] and translated, as in src/functions/eval_fns.rs *)
Definition call_to_spark (rt : Rt) (s : string) : res PExpr :=
  match call (level (S (String.length s))) s with POk _ e => to_spark_expr rt e | _ => Err end.
Definition call_code (rt : Rt) (s : string) : res string :=
  rbind (call_to_spark rt s) (fun e => Ok (render_pexpr (pe_unaliased e))).
(** src/functions/eval_fns.rs:489-505 *)
Example eval_fns_1 : to_spark_expr Disallow (ECall "max" [efield "a"; efield "b"])
  = Ok (PCol (CAliased (pfun "greatest" [pcol "a"; pcol "b"]) "max")).
Proof. vm_compute. reflexivity. Qed.
Example eval_fns_2 : to_spark_expr Disallow (ECall "sin" []) = Err.
Proof. vm_compute. reflexivity. Qed.
Example eval_fns_3 :
  rbind (call_to_spark Disallow "mvindex(split(mvindex(BoundaryRanges, -1), "":""), 0)") (fun e => Ok (pe_unaliased e))
  = Ok (pfun "get" [pfun "split" [pfun "get" [pcol "BoundaryRanges"; PyLit "-1"]; PyLit """:"""]; PyLit "0"]).
Proof. vm_compute. reflexivity. Qed.
Example eval_fns_4 : call_code Disallow "mvzip(x,y)"
  = Ok "F.zip_with(F.col('x'), F.col('y'), lambda left_, right_: F.concat_ws(r"","", left_, right_))".
Proof. vm_compute. reflexivity. Qed.
Example eval_fns_5 : call_code Disallow "mvzip(x,y,""_"")"
  = Ok "F.zip_with(F.col('x'), F.col('y'), lambda left_, right_: F.concat_ws(r""_"", left_, right_))".
Proof. vm_compute. reflexivity. Qed.
Example eval_fns_6 : call_code Disallow "relative_time(now(), ""-70m@m"")"
  = Ok "F.date_trunc(""minute"", (F.to_timestamp(F.current_timestamp()) + F.expr(""INTERVAL -70 MINUTES"")))".
Proof. vm_compute. reflexivity. Qed.
Example eval_fns_7 : call_code Require "cidrmatch(""123.132.32.0/25"",ip)"
  = Ok "functions.eval.cidrmatch(""123.132.32.0/25"", F.col('ip'))".
Proof. vm_compute. reflexivity. Qed.

(** src/pyspark/transpiler/mod.rs:80-215 *)
Example transpile_1 : to_spark_expr Disallow (efield "x") = Ok (pcol "x").
Proof. vm_compute. reflexivity. Qed.
Example transpile_2 : to_spark_expr Disallow (EBinary (efield "x") ">" (efield "y")) = Ok (pbin (pcol "x") ">" (pcol "y")).
Proof. vm_compute. reflexivity. Qed.
Example transpile_3 : to_spark_expr Disallow (EFieldIn "junk" []) = Ok (plit "True").
Proof. vm_compute. reflexivity. Qed.
Example transpile_4 : to_spark_expr Disallow (EFieldIn "c" [ewild "abc*"]) = Ok (pmeth (pcol "c") "like" [pylit_str "abc%"]).
Proof. vm_compute. reflexivity. Qed.
Example transpile_5 : to_spark_expr Disallow (EFieldIn "c" [estr "abc"]) = Ok (pbin (pcol "c") "==" (pylit_str "abc")).
Proof. vm_compute. reflexivity. Qed.
Example transpile_6 : to_spark_expr Disallow (EFieldIn "c" [estr "abc"; ewild "abc*"])
  = Ok (pbin (pbin (pcol "c") "==" (pylit_str "abc")) "|" (pmeth (pcol "c") "like" [pylit_str "abc%"])).
Proof. vm_compute. reflexivity. Qed.
Example transpile_7 : to_spark_expr Disallow (EFieldIn "c" [estr "abc"; ewild "abc*"; estr "xyz"])
  = Ok (pbin (pbin (pbin (pcol "c") "==" (pylit_str "abc")) "|" (pmeth (pcol "c") "like" [pylit_str "abc%"]))
             "|" (pbin (pcol "c") "==" (pylit_str "xyz"))).
Proof. vm_compute. reflexivity. Qed.

(** src/pyspark/transpiler/expr.rs:180-202 *)
Example search_expr_1 : into_search_expr (pbin (pcol "A") "==" (PyLit "5")) = pbin (pcol "A") "==" (PyLit "5").
Proof. vm_compute. reflexivity. Qed.
Example search_expr_2 : into_search_expr (pcol "A") = pmeth (pcol "_raw") "ilike" [pylit_str "%A%"].
Proof. vm_compute. reflexivity. Qed.
Example search_expr_3 : into_search_expr (plit """A""") = pmeth (pcol "_raw") "ilike" [pylit_str "%A%"].
Proof. vm_compute. reflexivity. Qed.
Example search_expr_4 : into_search_expr (pbin (pcol "A") "&" (plit """B"""))
  = pbin (pmeth (pcol "_raw") "ilike" [pylit_str "%A%"]) "&" (pmeth (pcol "_raw") "ilike" [pylit_str "%B%"]).
Proof. vm_compute. reflexivity. Qed.

(** src/pyspark/ast.rs:829-905 *)
Definition df_code (d : DataFrame) : string := code_to_string (render_df d).
Example ast_1 : df_code (d_where (DSource "main") (pcol "x")) = "spark.table('main').where(F.col('x'),)".
Proof. vm_compute. reflexivity. Qed.
Example ast_2 : df_code (d_with_column (DSource "main") "final_name" (c_aliased (pcol "orig_name") "alias_name"))
  = "spark.table('main').withColumn('final_name', F.col('orig_name'),)".
Proof. vm_compute. reflexivity. Qed.

(** tests/test_basic.py:5-40, tests/runtime/test_data_model.py:13-23, test_fill_null.py:27-38 *)
Example basic_1 : parse "head count>10" = Some (Ok [CHead (EBinary (efield "count") ">" (eint 10)) false false]).
Proof. vm_compute. reflexivity. Qed.
Definition code (rt : Rt) (s : string) : option (res string) :=
  option_map (fun r => rbind r (render_pyspark (mkEnv rt (fun _ l => l) (fun _ => Ok [])))) (parse s).
Example basic_2 : code Disallow "code IN(4*, 5*)"
  = Some (Ok "spark.table('main').where((F.col('code').like(""4%"") | F.col('code').like(""5%"")),)").
Proof. vm_compute. reflexivity. Qed.
Example basic_3 : code Allow "datamodel Model search"
  = Some (Ok "df_1 = commands.data_model(None, data_model_name=""Model"", dataset_name=None, search_mode=""search"", strict_fields=False, allow_old_summaries=False, summaries_only=True)
df_1").
Proof. vm_compute. reflexivity. Qed.
