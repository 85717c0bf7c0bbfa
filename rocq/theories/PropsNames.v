(** C75: the names generated code depends on.  See SpecNames.v. *)
From Coq Require Import String List Ascii.
Import ListNotations.
From Verif Require Import Str SplAst PyAst Render Functions Transpile Commands CmdParser Api SpecPipe SpecPy PyFacts SpecCol SpecFrame SpecNames NameUseFacts SpecText SpecExpr EvalFacts CodeFacts.
Open Scope string_scope.
Open Scope list_scope.

(** Generated code looks up only F, spark, Python's constants, data frames assigned on earlier lines
    and, with the runtime, commands and functions; and no assignment hides one of these.  Proved for
    programs Python reads as built ([plain_df]), from queries that spell no function name with a
    dot.  Missing: programs with texts that need quoting, and the lambda of mvzip. *)
Theorem C75_names_are_provided_partial : forall env p d assignments result,
  (forall c f, occurs c p -> In f (command_calls c) -> contains "." f = false) ->
  transform_pipeline env p = Ok (Some d) -> plain_df d = true ->
  render_pyspark env p = Ok (code_to_string (render_df d)) /\
  (python_program (code_to_string (render_df d)) assignments result ->
   known_first (provided (env_rt env)) assignments result /\ forall n, In n (map fst assignments) -> ~ In n (provided (env_rt env))).
Proof. exact names_provided. Qed.
Print Assumptions C75_names_are_provided_partial.
Example C75_ex : let p := parsed "search index=a x=1 | eval y=len(z) | stats max(y) by x | head 5" in
  (forall c f, occurs c p -> In f (command_calls c) -> contains "." f = false) /\
  exists d a r, transform_pipeline (env0 Allow) p = Ok (Some d) /\ plain_df d = true /\
    python_program (code_to_string (render_df d)) a r /\ map fst a = ["df_1"; "df_2"; "df_3"] /\ In "functions" (names (snd (nth 1 a ("", PName "")))).
Proof.
  cbv zeta. split.
  - intros c f Hc Hf.
    assert (E : parsed "search index=a x=1 | eval y=len(z) | stats max(y) by x | head 5"
      = ltac:(let v := eval vm_compute in (parsed "search index=a x=1 | eval y=len(z) | stats max(y) by x | head 5") in exact v)) by (vm_compute; reflexivity).
    rewrite E in Hc. inversion Hc as [? Hi|? o q Hi Hq|? qs q Hi Hq Hd]; subst; cbn in Hi;
      repeat (destruct Hi as [Hi|Hi]; [ try discriminate Hi; subst c; cbn in Hf; repeat (destruct Hf as [Hf|Hf]; [ subst f; reflexivity | ]); contradiction | ]); contradiction.
  - eexists _, _, _. split; [ vm_compute; reflexivity | ]. split; [ vm_compute; reflexivity | ].
    split; [ apply (program_by 100); vm_compute; reflexivity | ]. split; vm_compute; tauto.
Qed.
(** False for the dotted names: what is before the dot is looked up, or is the session itself. *)
Theorem C75_dotted_functions_refuted :
  (exists code, transpile (env0 Disallow) "stats os.getcwd as c" = Some (Ok code) /\
     python_program code [] (py_method (py_method (py_table "main") "groupBy" [PList []]) "agg" [py_method (PCall (PAttr (PName "os") "getcwd") [] []) "alias" [PStr "c"]]) /\
     ~ In "os" (provided Disallow)) /\
  (exists code, transpile (env0 Disallow) "stats spark.stop as c" = Some (Ok code) /\
     python_program code [] (py_method (py_method (py_table "main") "groupBy" [PList []]) "agg" [py_method (PCall (PAttr (PName "spark") "stop") [] []) "alias" [PStr "c"]])).
Proof.
  split; eexists; (split; [ vm_compute; reflexivity | ]).
  - split; [ apply (program_by 40); vm_compute; reflexivity | vm_compute; intuition discriminate ].
  - apply (program_by 40). vm_compute. reflexivity.
Qed.
Print Assumptions C75_dotted_functions_refuted.

(** C76: what a query puts between double quotes stays a text.  False, for every piece of code
    without star and at sign whose double quotes stand after backslashes: the query that quotes it in this way is
    translated into a program in which it stands as an expression.  See C24 for the texts that
    survive. *)
Theorem C76_quoted_text_runs_refuted : forall env name code, env_rt env = Disallow -> field_name name ->
  all_chars (fun c => c <> "*"%char /\ c <> "@"%char) code -> well_quoted false code ->
  transpile env ("eval " ++ name ++ "=" ++ in_quotes ("a')+(" ++ code ++ ")+F.lit('b"))%string =
    Some (Ok ("spark.table('main').withColumn('" ++ name ++ "', F.lit('a')+(" ++ code ++ ")+F.lit('b'),)")%string).
Proof. exact text_runs. Qed.
Print Assumptions C76_quoted_text_runs_refuted.
(** One such program, as Python reads it: it stops the session. *)
Example C76_ex : plain_ident "y" /\ exists code, transpile (env0 Disallow) "eval y=""a')+(spark.stop())+F.lit('b""" = Some (Ok code) /\
  python_program code [] (py_method (py_table "main") "withColumn" [PStr "y";
    PBin "+" (PBin "+" (py_F "lit" [PStr "a"]) (PCall (PAttr (PName "spark") "stop") [] [])) (py_F "lit" [PStr "b"])]).
Proof.
  split; [ now apply ident_by | ]. eexists. split; [ vm_compute; reflexivity | ]. apply (program_by 100). vm_compute. reflexivity.
Qed.
(** The same with the name of an index. *)
Theorem C76_index_runs_refuted : exists code, transpile (env0 Disallow) "search index=""a').join(spark.stop()).where('x""" = Some (Ok code) /\
  python_program code [] (py_method (py_method (py_table "a") "join" [PCall (PAttr (PName "spark") "stop") [] []]) "where" [PStr "x"]).
Proof. eexists. split; [ vm_compute; reflexivity | ]. apply (program_by 100). vm_compute. reflexivity. Qed.
Print Assumptions C76_index_runs_refuted.
