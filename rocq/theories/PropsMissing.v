(** C49: functions of stats that the library lacks. *)
From Coq Require Import Ascii String List ZArith.
Import ListNotations.
From Verif Require Import Str SplAst PyAst Render Functions Commands CmdParser Api SpecPipe SpecPy SpecFrame SpecSpark Runtime Transpile SumFacts TstatsFails SpecLacks LacksFacts NameFacts2 WrapFacts.
Open Scope string_scope.
Open Scope list_scope.

(** No program with a sum, a list or the count of a field in a stats command can be run with
    the library, whatever comes before and whatever goes on after it: the library's functions
    are called sum_ and list_, and its count takes no argument. *)
Theorem C49_sums_never_run_refuted : forall sp db column_type env p o funcs by_ q d e f args, env_rt env <> Disallow ->
  In e funcs -> (e = ECall f args \/ exists n, e = EAlias (ECall f args) n) ->
  (f = "sum" \/ f = "list" \/ (f = "count" /\ args <> [])) ->
  (forall c, In c q -> ~ starts_over c) -> transform_pipeline env (p ++ CStats o funcs by_ :: q) = Ok (Some d) -> plain_df d = true ->
  forall x, ~ runs sp db column_type (code_to_string (render_df d)) x.
Proof. exact missing_fails. Qed.
Print Assumptions C49_sums_never_run_refuted.
Example C49_sums_ex : exists s o e1 e2 by_ h d args n, parsed "search index=main | stats max(x) as m, sum(x) as total by u | head 5" = [s] ++ CStats o [e1; e2] by_ :: [h]
  /\ e2 = EAlias (ECall "sum" args) n /\ ~ starts_over h
  /\ transform_pipeline (env0 Allow) (parsed "search index=main | stats max(x) as m, sum(x) as total by u | head 5") = Ok (Some d) /\ plain_df d = true.
Proof.
  eexists _, _, _, _, _, _, _, _, _. split; [ vm_compute; reflexivity | ]. split; [ reflexivity | ]. split; [ intro H; exact H | ].
  split; [ vm_compute; reflexivity | ]. vm_compute. reflexivity.
Qed.

(** Nor can one with a tstats command that comes after another command, that names no data
    model, or that has such a function. *)
Theorem C49_tstats_never_runs_refuted : forall sp db column_type env p before o funcs model node where_ by_ prefix q d, env_rt env <> Disallow ->
  transform_pipeline env p = Ok before ->
  before <> None \/ model = None \/
    (exists e f args, In e funcs /\ (e = ECall f args \/ exists n, e = EAlias (ECall f args) n) /\ (f = "sum" \/ f = "list" \/ (f = "count" /\ args <> []))) ->
  (forall c, In c q -> ~ starts_over c) ->
  transform_pipeline env (p ++ CTStats o funcs model node where_ by_ prefix :: q) = Ok (Some d) -> plain_df d = true ->
  forall x, ~ runs sp db column_type (code_to_string (render_df d)) x.
Proof. exact tstats_fails. Qed.
Print Assumptions C49_tstats_never_runs_refuted.
Example C49_tstats_never_ex : exists h o l m n w b x y t d d2 args,
  parsed "search index=main | tstats max(x) as m from datamodel=web by u | head 5" = [x] ++ CTStats o l m n w b None :: [h] /\ ~ starts_over h /\
  (exists d0, transform_pipeline (env0 Allow) [x] = Ok (Some d0)) /\
  transform_pipeline (env0 Allow) (parsed "search index=main | tstats max(x) as m from datamodel=web by u | head 5") = Ok (Some d) /\ plain_df d = true /\
  parsed "tstats sum(x) as total from datamodel=web by u" = [] ++ CTStats o [EAlias (ECall "sum" args) y] t n w b None :: [] /\
  transform_pipeline (env0 Allow) (parsed "tstats sum(x) as total from datamodel=web by u") = Ok (Some d2) /\ plain_df d2 = true.
Proof.
  eexists _, _, _, _, _, _, _, _, _, _, _, _, _. split; [ vm_compute; reflexivity | ]. split; [ intro H; exact H | ].
  split; [ eexists; vm_compute; reflexivity | ]. split; [ vm_compute; reflexivity | ]. split; [ vm_compute; reflexivity | ].
  split; [ vm_compute; reflexivity | ]. split; [ vm_compute; reflexivity | ]. vm_compute. reflexivity.
Qed.

(** Nor can one with an eval command that assigns a call of a function the library cannot
    compute (SpecLacks.v lists them), once runtime calls are required, or allowed and the
    arguments can be translated. *)
Theorem C49_lacking_functions_never_run_refuted : forall sp db column_type env p fields q d n f args,
  In (n, ECall f args) fields -> In f (not_implemented ++ always_raises) ->
  env_rt env = Require \/ (env_rt env = Allow /\ Forall (fun a => exists x, to_spark_expr (env_rt env) a = Ok x) args) ->
  (forall c, In c q -> ~ starts_over c) -> transform_pipeline env (p ++ CEval fields :: q) = Ok (Some d) -> plain_df d = true ->
  forall x, ~ runs sp db column_type (code_to_string (render_df d)) x.
Proof. exact lacks_fails. Qed.
Print Assumptions C49_lacking_functions_never_run_refuted.
Example C49_lacking_ex : exists s fd h d n args, parsed "search index=main | eval a=x+1, y=tonumber(x) | head 5" = [s] ++ CEval [fd; (n, ECall "tonumber" args)] :: [h]
  /\ In "tonumber" (not_implemented ++ always_raises) /\ Forall (fun a => exists x, to_spark_expr Allow a = Ok x) args /\ ~ starts_over h
  /\ transform_pipeline (env0 Allow) (parsed "search index=main | eval a=x+1, y=tonumber(x) | head 5") = Ok (Some d) /\ plain_df d = true.
Proof.
  eexists _, _, _, _, _, _. split; [ vm_compute; reflexivity | ]. split; [ vm_compute; tauto | ].
  split; [ repeat constructor; eexists; vm_compute; reflexivity | ]. split; [ intro H; exact H | ].
  split; [ vm_compute; reflexivity | ]. vm_compute. reflexivity.
Qed.

(** C49: when runtime calls are required, a call in an expression is written as a call of the
    library's function of that name, with the arguments in order. *)
Theorem C49_functions_by_name : forall f args x, f <> "cidrmatch" -> to_spark_expr Require (ECall f args) = Ok x ->
  exists g a, library_name f g /\ x = PCol (CFunctionCall ("functions.eval." ++ g) a) /\
    Forall2 (fun e y => exists z, to_spark_expr Require e = Ok z /\ y = pe_unaliased z) args a.
Proof. exact function_written. Qed.
Print Assumptions C49_functions_by_name.
Example C49_functions_by_name_ex : exists x, to_spark_expr Require (ECall "min" [ELeaf (LConstant (KField "x")); ELeaf (LConstant (KInt 3))]) = Ok x
  /\ library_name "min" "min_" /\ library_name "abs" "abs".
Proof.
  eexists. split; [ vm_compute; reflexivity | ]. split; [ apply (LN_clash "min"); cbn; tauto | ]. apply LN_same. cbn. intuition discriminate.
Qed.

(** Nor can one with a where command whose condition is, or combines, a call of a function
    whose result PySpark refuses (SpecLacks.v lists these as well). *)
Theorem C49_conditions_on_functions_never_run_refuted : forall sp db column_type env p e q d, env_rt env = Allow ->
  uses_call (fun f args => In f (wrapped ++ not_implemented ++ always_raises) /\ Forall (fun a => exists x, to_spark_expr Allow a = Ok x) args) e ->
  (forall c, In c q -> ~ starts_over c) -> transform_pipeline env (p ++ CWhere e :: q) = Ok (Some d) -> plain_df d = true ->
  forall x, ~ runs sp db column_type (code_to_string (render_df d)) x.
Proof. exact where_fails. Qed.
Print Assumptions C49_conditions_on_functions_never_run_refuted.
Example C49_conditions_ex : exists s e h d, parsed "search index=main | where y>1 AND isnull(x) | head 5" = [s] ++ CWhere e :: [h]
  /\ uses_call (fun f args => In f (wrapped ++ not_implemented ++ always_raises) /\ Forall (fun a => exists x, to_spark_expr Allow a = Ok x) args) e
  /\ ~ starts_over h
  /\ transform_pipeline (env0 Allow) (parsed "search index=main | where y>1 AND isnull(x) | head 5") = Ok (Some d) /\ plain_df d = true.
Proof.
  eexists _, _, _, _. split; [ vm_compute; reflexivity | ].
  split; [ apply UC_right, UC_call; split; [ vm_compute; tauto | repeat constructor; eexists; vm_compute; reflexivity ] | ].
  split; [ intro H; exact H | ]. split; [ vm_compute; reflexivity | ]. vm_compute. reflexivity.
Qed.
