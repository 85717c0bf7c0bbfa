(** What is dropped, kept or copied for all uses: C14, C33, C53 and C75.  See SpecText.v for
    [plain_string], SpecMacro.v for [trimmed], SpecTime.v for [directives] and SpecPy.v for
    [python_program]. *)
From Coq Require Import Ascii String List ZArith.
Import ListNotations.
From Verif Require Import Str SplAst PyAst Render Functions Commands CmdParser Api Macros SpecText SpecExpr SpecWhere SpecPy SpecCol SpecFrame SpecCommands SpecMacro SpecTime
  EvalFacts ExprFacts MacroSubFacts QuotedMore DottedFacts BareFacts.
Open Scope string_scope.
Open Scope list_scope.

(** C53: white space after the opening quote is never part of the value. *)
Theorem C53_leading_white_space_is_dropped_refuted : forall x b s, field_name x -> spaces b -> plain_string s ->
  parse ("eval " ++ x ++ "=" ++ in_quotes (b ++ s)) = Some (Ok [CEval [(x, ELeaf (LConstant (KStr s)))]]).
Proof. exact eval_white. Qed.
Print Assumptions C53_leading_white_space_is_dropped_refuted.
Example C53_leading_ex : field_name "x" /\ spaces "   " /\ plain_string "a b".
Proof. split; [ now apply field_by | ]. split; [ cbn; unfold white; cbn; tauto | now apply plain_string_by ]. Qed.

(** C14: a call without arguments is never an error, however many parameters the macro has:
    the definition is put into the text with its parameters unchanged. *)
Theorem C14_bare_calls_keep_the_parameters_refuted : forall re lib f d piece rest, plain_ident f -> lib f = Some d ->
  no_tick piece -> no_tick (md_definition d) -> no_tick rest ->
  exists n r, (forall fuel, n <= fuel -> substitute_macros fuel re lib (piece ++ "`" ++ f ++ "`" ++ rest) = Some (Ok r)) /\
    trimmed (piece ++ md_definition d ++ rest) r.
Proof. exact bare_kept. Qed.
Print Assumptions C14_bare_calls_keep_the_parameters_refuted.
Example C14_bare_ex : exists d, plain_ident "pick" /\ registry [("pick", mkMacro ["a"; "b"] "x=$a$ OR y=$b$")] "pick" = Some d /\
  md_arguments d = ["a"; "b"] /\ no_tick "index=i " /\ no_tick (md_definition d) /\ no_tick " | head".
Proof.
  eexists. split; [ now apply ident_by | ]. split; [ reflexivity | ]. split; [ reflexivity | ]. cbn. repeat split; discriminate.
Qed.

(** C14: nor is a call by names that are no parameters, if their number is right: the names
    given are replaced, and every parameter that is not among them stays ([value_of] in
    SpecMacro.v). *)
Theorem C14_other_names_keep_the_parameters_refuted : forall re lib f d names values t0 l piece rest s, lib f = Some d -> values <> [] ->
  length values = length names -> length names = length (md_arguments d) -> NoDup names -> Forall param_name names ->
  Forall (fun v => no_dollar v /\ no_backslash v) values -> plain_template t0 l -> md_definition d = template t0 l ->
  plain_call (mkMacroCall f (combine (map Some names) values)) ->
  spells [(piece, mkMacroCall f (combine (map Some names) values))] rest s -> no_tick piece -> no_tick rest ->
  no_tick (instantiate names values t0 l) ->
  exists n r, (forall fuel, n <= fuel -> substitute_macros fuel re lib s = Some (Ok r)) /\ trimmed (piece ++ instantiate names values t0 l ++ rest) r.
Proof. exact names_kept. Qed.
Print Assumptions C14_other_names_keep_the_parameters_refuted.
Example C14_other_names_ex : let d := mkMacro ["a"] "x=$a$ OR y=$a$" in let t0 := "x=" in let l := [("a", " OR y="); ("a", "")] in
  NoDup ["c"] /\ Forall param_name ["c"] /\ Forall (fun v => no_dollar v /\ no_backslash v) ["1"] /\ plain_template t0 l /\ md_definition d = template t0 l /\
  plain_call (mkMacroCall "pick" (combine (map Some ["c"]) ["1"])) /\
  spells [("index=i ", mkMacroCall "pick" (combine (map Some ["c"]) ["1"]))] " | head" "index=i `pick(c=1)` | head" /\
  no_tick (instantiate ["c"] ["1"] t0 l) /\ instantiate ["c"] ["1"] t0 l = md_definition d.
Proof. exact other_names_example. Qed.

(** C33: a format with none of the directives of SpecTime.v is handed to Spark as it is,
    whatever percent signs and letters it has. *)
Theorem C33_unknown_directives_are_kept_refuted : forall fmt, contains "%%" fmt = false ->
  (forall d, In d directives -> contains ("%" ++ d) fmt = false) -> convert_time_format fmt = Ok fmt.
Proof. exact unknown_kept. Qed.
Print Assumptions C33_unknown_directives_are_kept_refuted.
Example C33_unknown_kept_ex : contains "%%" "%V week %3N" = false /\ forallb (fun d => negb (contains ("%" ++ d) "%V week %3N")) directives = true.
Proof. split; vm_compute; reflexivity. Qed.

(** C75, C82: the name before the dot is looked up in Python, whatever it is. *)
Theorem C75_dotted_functions_are_copied_refuted : forall env o m f n by_ keys, env_rt env = Disallow -> py_ident m = true -> py_ident f = true ->
  prefix "exactperc" (m ++ "." ++ f) = false -> prefix "percentile" (m ++ "." ++ f) = false -> prefix "upperperc" (m ++ "." ++ f) = false ->
  plain_name_text n = true ->
  by_names by_ = Some keys -> Forall (fun k => plain_between dquote k = true) keys ->
  exists code, render_pyspark env [CStats o [EAlias (ECall (m ++ "." ++ f) []) n] by_] = Ok code /\
    python_program code [] (py_method (py_method (py_table "main") "groupBy" [PList (map PStr keys)]) "agg"
      [py_method (PCall (PAttr (PName m) f) [] []) "alias" [PStr n]]).
Proof. exact (fun env o m f n by_ keys R M F P1 P2 P3 => dotted_copied env o m f [] n by_ keys R M F P1 P2 P3 (Forall_nil _)). Qed.
Print Assumptions C75_dotted_functions_are_copied_refuted.
Example C75_dotted_ex : exists o by_, parsed "stats shutil.rmtree as c by host" = [CStats o [EAlias (ECall ("shutil" ++ "." ++ "rmtree") []) "c"] by_] /\
  by_names by_ = Some ["host"] /\ py_ident "shutil" = true /\ py_ident "rmtree" = true /\ prefix "percentile" "shutil.rmtree" = false /\ plain_name_text "c" = true.
Proof. eexists _, _. split; [ vm_compute; reflexivity | ]. repeat split; vm_compute; reflexivity. Qed.
