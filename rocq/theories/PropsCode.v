(** Properties of the generated code as Python text: statements only; proofs are in
    ReadFacts.v, ReadTree.v, FrameFacts.v, ProgramFacts.v and CodeFacts.v.  How Python
    reads a text is in SpecPy.v, the intended trees are in SpecCol.v and SpecFrame.v. *)
From Verif Require Import Str SplAst PyAst Render Functions Transpile Commands Nom Lexer Parser CmdParser Api SpecText SpecExpr EvalFacts.
From Verif Require Import SpecWhere SpecPy PyFacts SpecCol SpecFrame ReadTree ProgramFacts CodeFacts.
From Verif Require SpellRuns.
Open Scope string_scope.

(** ** C23: Python reads a generated column with the grouping the transpiler built. *)
(** Proved for columns of any depth whose names and texts need no quoting, whose operators
    exist in Python, and in which no method is called on a negation ([plain_col]). *)
Theorem C23_columns_read_as_built_partial : forall c,
  plain_col c = true -> forall t, python_reads (render_col c) t <-> t = col_tree c.
Proof. exact read_col_iff. Qed.
Print Assumptions C23_columns_read_as_built_partial.
(** The same for whole programs: the assignments, in order, and the last expression. *)
Theorem C23_programs_read_as_built_partial : forall d,
  plain_df d = true -> forall assignments result,
  python_program (code_to_string (render_df d)) assignments result <-> (assignments, result) = df_prog d.
Proof. exact read_program_iff. Qed.
Print Assumptions C23_programs_read_as_built_partial.
Example C23_applies :
  let c := CBinaryOp "&" (PCol (CBinaryOp "==" (PCol (CBinaryOp "+" (PCol (CNamed "a")) (PCol (CBinaryOp "*" (PCol (CLiteral "2")) (PCol (CNamed "b"))))))
                                              (PCol (CLiteral "'x y'"))))
                         (PCol (CUnaryNot (PCol (CMethodCall (PCol (CNamed "c")) "like" [PyLit (dq ++ "%z" ++ dq)])))) in
  plain_col c = true /\
  render_col c = "((F.col('a') + (F.lit(2) * F.col('b'))) == F.lit('x y')) & ~F.col('c').like(" ++ dq ++ "%z" ++ dq ++ ")" /\
  let d := DWithColumn (DRuntime "df_1" (Some (DSource "main")) "search" [] [("x", RExpr (PCol (CLiteral "1")))]) "y" c in
  plain_df d = true.
Proof. repeat split; vm_compute; reflexivity. Qed.
(** Texts with escapes have the value Python gives them: a quote, a backslash *)
Example C23_escapes_apply :
  let back := one_char (py_char 92) in
  let c := CLiteral ("'it" ++ back ++ "'s" ++ back ++ back ++ "'") in
  plain_col c = true /\ col_tree c = py_F "lit" [PStr ("it's" ++ back)].
Proof. split; vm_compute; reflexivity. Qed.
(** It fails where a method is called on a negation: tostring(NOT a) becomes code that
    Python reads as the negation of a cast. *)
Theorem C23_method_on_negation_refuted : exists code,
  transpile (env0 Disallow) "eval y=tostring(NOT a)" = Some (Ok code) /\
  python_program code []
    (py_method (py_table "main") "withColumn"
       [PStr "y"; PUn "~" (py_method (py_F "col" [PStr "a"]) "cast" [PStr "string"])]).
Proof.
  eexists. split; [ vm_compute; reflexivity | ]. apply (program_by 40). vm_compute. reflexivity.
Qed.
Print Assumptions C23_method_on_negation_refuted.
(** And for the concatenation operator, which is copied: the generated code is an
    attribute access. *)
Theorem C23_concatenation_refuted : exists code,
  transpile (env0 Disallow) "eval y=a . b" = Some (Ok code) /\
  python_program code []
    (py_method (py_table "main") "withColumn"
       [PStr "y"; PCall (PAttr (PAttr (py_F "col" [PStr "a"]) "F") "col") [PStr "b"] []]).
Proof.
  eexists. split; [ vm_compute; reflexivity | ]. apply (program_by 40). vm_compute. reflexivity.
Qed.
Print Assumptions C23_concatenation_refuted.

(** ** C24: string values survive the trip into Python literals. *)
(** Proved from the text of the query to the Python reading of the code.  For texts written as
    they are ([plain_string] is about the query side, see C53; [stands] about the Python
    side): backslashes only before characters that have no meaning after one, as in \d.
    Missing: single quotes, line breaks, leading white space. *)
Theorem C24_string_values_survive_partial : forall env name s,
  env_rt env = Disallow -> field_name name -> plain_string s -> stands squote false s = true ->
  exists code, transpile env ("eval " ++ name ++ "=" ++ in_quotes s) = Some (Ok code) /\
    python_program code [] (py_method (py_table "main") "withColumn" [PStr name; py_F "lit" [PStr s]]).
Proof. exact string_program. Qed.
Print Assumptions C24_string_values_survive_partial.
Example C24_applies : plain_ident "msg" /\ plain_string "100% (of #3): {a} \d+\.\s" /\ stands squote false "100% (of #3): {a} \d+\.\s" = true.
Proof. split; [ now apply ident_by | ]. split; [ now apply plain_string_by | reflexivity ]. Qed.
(** For texts written with a backslash before every double quote and backslash ([escape]):
    the value is the text itself. *)
Theorem C24_escaped_values_survive_partial : forall env name s,
  env_rt env = Disallow -> field_name name -> match s with EmptyString => False | String c _ => ~ white c end ->
  all_chars (fun c => c <> "*"%char /\ c <> "@"%char /\ nat_of_ascii c <> 39 /\ ~ In (nat_of_ascii c) [0; 10; 13]) s ->
  exists code, transpile env ("eval " ++ name ++ "=" ++ in_quotes (escape s)) = Some (Ok code) /\
    python_program code [] (py_method (py_table "main") "withColumn" [PStr name; py_F "lit" [PStr s]]).
Proof. exact escaped_program. Qed.
Print Assumptions C24_escaped_values_survive_partial.
Example C24_escaped_ex : let s := "say ""C:\new"" twice" in in_quotes (escape s) = """say \""C:\\new\"" twice""" /\
  all_chars (fun c => c <> "*"%char /\ c <> "@"%char /\ nat_of_ascii c <> 39 /\ ~ In (nat_of_ascii c) [0; 10; 13]) s.
Proof. split; [ reflexivity | ]. cbn. repeat split; try discriminate; lia. Qed.
(** It fails for a string with a single quote: the value becomes code that reads another
    column. *)
Theorem C24_string_values_survive_refuted : exists s code,
  plain_string s /\
  transpile (env0 Disallow) ("eval x=" ++ in_quotes s) = Some (Ok code) /\
  python_program code []
    (py_method (py_table "main") "withColumn"
       [PStr "x"; PBin "+" (py_F "lit" [PStr "z"]) (py_F "col" [PStr "secret"])]).
Proof.
  exists "z') + F.col('secret". eexists. split; [ now apply plain_string_by | ].
  split; [ vm_compute; reflexivity | ]. apply (program_by 40). vm_compute. reflexivity.
Qed.
Print Assumptions C24_string_values_survive_refuted.
(** And for a string with a backslash that is not doubled: the value parse() yields and the value of the
    generated literal differ. *)
Theorem C24_backslash_refuted : exists query s s' code,
  parse query = Some (Ok [CEval [("x", ELeaf (LConstant (KStr s)))]]) /\
  transpile (env0 Disallow) query = Some (Ok code) /\
  python_program code [] (py_method (py_table "main") "withColumn" [PStr "x"; py_F "lit" [PStr s']]) /\
  s' <> s.
Proof.
  exists ("eval x=" ++ in_quotes "C:\temp"). eexists. exists ("C:" ++ String (ascii_of_nat 9) "emp"). eexists.
  split; [ vm_compute; reflexivity | ]. split; [ vm_compute; reflexivity | ].
  split; [ apply (program_by 40); vm_compute; reflexivity | discriminate ].
Qed.
Print Assumptions C24_backslash_refuted.

(** ** C25: boolean constants are Python's True and False. *)
(** The code writes them in lower case, so Python sees an undefined name. *)
Theorem C25_boolean_literals_are_python_refuted :
  (exists code, transpile (env0 Disallow) "where a=true" = Some (Ok code) /\
    python_program code []
      (py_method (py_table "main") "where" [PBin "==" (py_F "col" [PStr "a"]) (py_F "lit" [PName "true"])])) /\
  (exists code, transpile (env0 Disallow) "where a=f" = Some (Ok code) /\
    python_program code []
      (py_method (py_table "main") "where" [PBin "==" (py_F "col" [PStr "a"]) (py_F "lit" [PName "false"])])).
Proof.
  split; (eexists; split; [ vm_compute; reflexivity | ]; apply (program_by 40); vm_compute; reflexivity).
Qed.
Print Assumptions C25_boolean_literals_are_python_refuted.

(** ** C26: operator keywords work in any letter case. *)
(** In search and eval a lower case operator is accepted and copied into the code, which is
    then not readable as a column expression; a lower case not is refused. *)
Theorem C26_operator_keywords_any_case_refuted :
  (exists code, transpile (env0 Disallow) "search a=1 and b=2" = Some (Ok code) /\
    forall assignments result, ~ python_program code assignments result) /\
  (exists code, transpile (env0 Disallow) "eval x=a=1 or b=2" = Some (Ok code) /\
    forall assignments result, ~ python_program code assignments result) /\
  transpile (env0 Disallow) "search not a=1" = Some Err /\
  (exists code, transpile (env0 Disallow) "search NOT a=1" = Some (Ok code)).
Proof.
  split; [ | split; [ | split; [ vm_compute; reflexivity | eexists; vm_compute; reflexivity ] ] ];
    (eexists; split; [ vm_compute; reflexivity | ]; apply no_program_by; vm_compute; reflexivity).
Qed.
Print Assumptions C26_operator_keywords_any_case_refuted.
(** In where, keywords work in any letter case: ways to write one condition are translated
    alike (see C09_spelled for a text with small and mixed letters; C27 says what the
    code computes). *)
Theorem C26_where_keywords_any_case_partial : forall env c s t, cond_wf c -> cond_spells c s -> cond_spells c t ->
  transpile env ("where " ++ s) = transpile env ("where " ++ t).
Proof. exact SpellRuns.where_layouts. Qed.
Print Assumptions C26_where_keywords_any_case_partial.
