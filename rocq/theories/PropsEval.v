(** C59-C63: calls of functions in eval and where.  See PropsRows.v for [covered] and [gives]. *)
From Coq Require Import String List ZArith.
Import ListNotations.
From Verif Require Import Str SplAst PyAst Functions Commands CmdParser Api SpecPy SpecCol SpecSpark SpecRows SpecCommands
  SpecResult SpecEffect SpecPipe SpecExpr SpecEval RowFacts ResultFacts EffectFacts EvalCalls.
Open Scope string_scope.
Open Scope list_scope.

Ltac by_running := eapply text_frame; [ vm_compute; reflexivity
  | eapply frame_gives; [ vm_compute; reflexivity | vm_compute; reflexivity | intro; vm_compute; reflexivity ] ].
Ltac by_failing := eapply text_fails; [ vm_compute; reflexivity | vm_compute; reflexivity | vm_compute; reflexivity | intro; vm_compute; reflexivity ].

(** C59: the value of a call is the function ([apply_fn]) of the values of its arguments.
    Partial: without the runtime, for the functions and arguments of SpecRows. *)
Theorem C59_calls_partial : forall env sp db, env_rt env = Disallow -> walks_sets env ->
  forall p rows x f args (values : Row -> list Val) (result : Row -> Val), covered sp db p rows ->
  plain_name_text x = true -> plain_expr true (ECall f args) = true ->
  (forall r, In r rows -> Forall2 (fun a v => ev sp r a = Some v) args (values r) /\ apply_fn sp f (values r) = Some (result r)) ->
  gives env sp db (p ++ [CEval [(x, ECall f args)]]) (OFrame None (map (fun r => set_cell x (result r) r) rows)).
Proof. exact call_gives. Qed.
Print Assumptions C59_calls_partial.
Example C59_ex : forall sp, exists args, parsed "eval m=avg(a, b+1, 5)" = [CEval [("m", ECall "avg" args)]]
  /\ plain_expr true (ECall "avg" args) = true
  /\ Forall2 (fun e v => ev sp [("a", SInt 1); ("b", SInt 2)] e = Some v) args [SInt 1; sp_arith sp "+" (SInt 2) (SInt 1); SInt 5]
  /\ apply_fn small_spark "avg" [SInt 1; SInt 3; SInt 5] = Some (lifted (small_arith "/") (SInt 9) (SInt 3)).
Proof. intro sp. eexists. split; [ vm_compute; reflexivity | ]. repeat split; repeat constructor. Qed.
Example C59_more_ex : forallb (fun t => match parsed t with [CEval [(_, e)]] => plain_expr true e | _ => false end)
  [ "eval x=round(a, 2)"; "eval x=substr(lower(a), 1, 3)"; "eval x=replace(a, ""b+"", ""c"")"; "eval x=mvindex(split(a, "":""), 0)";
    "eval x=max(a, b, 3)"; "eval x=tostring(a + b)"; "eval x=bit_and(a, 7)"; "eval x=mvindex(a, 1, 2)"; "eval x=sha256(a)";
    "eval x=if(isnull(a), now(), tonumber(b))"; "eval x=pow(pi(), 2)" ] = true.
Proof. vm_compute. reflexivity. Qed.
(** False: an argument that should be a constant but is a field is not read; its name is used. *)
Theorem C59_field_argument_refuted : forall sp a b,
  text_gives (env0 Disallow) sp (only_main [[("a", a); ("b", b)]]) "eval y=replace(a, b, ""-"")"
    (OFrame None [[("a", a); ("b", b); ("y", sp_fn sp "regexp_replace" [AVal a; ALit (SStr "b"); ALit (SStr "-")])]]).
Proof. intros. by_running. Qed.
Print Assumptions C59_field_argument_refuted.
(** False: log(x, base) calls Spark's log with the base second; Spark takes it first. *)
Theorem C59_log_refuted : forall sp v,
  text_gives (env0 Disallow) sp (only_main [[("x", v)]]) "eval y=log(x, 2)"
    (OFrame None [[("x", v); ("y", sp_fn sp "log" [AVal v; AVal (SInt 2)])]]).
Proof. intros. by_running. Qed.
Print Assumptions C59_log_refuted.
(** False: the last item of a list is asked for as item -1 of get, which counts from 0 and
    gives null outside of the list; the last three as three items from position -2. *)
Theorem C59_mvindex_from_the_end_refuted : forall sp v,
  text_gives (env0 Disallow) sp (only_main [[("x", v)]]) "eval y=mvindex(x, -1)"
    (OFrame None [[("x", v); ("y", sp_fn sp "get" [AVal v; ALit (SInt (-1))])]])
  /\ text_gives (env0 Disallow) sp (only_main [[("x", v)]]) "eval y=mvindex(x, -3, -1)"
    (OFrame None [[("x", v); ("y", sp_fn sp "slice" [AVal v; ALit (SInt (-2)); ALit (SInt 3)])]]).
Proof. intros. split; by_running. Qed.
Print Assumptions C59_mvindex_from_the_end_refuted.
(** False: sum is an aggregation of the column in Spark, which withColumn does not take. *)
Theorem C59_sum_refuted : fails (env0 Disallow) small_spark (only_main [[("x", SInt 1)]]) "eval y=sum(x)".
Proof. by_failing. Qed.
Print Assumptions C59_sum_refuted.

(** C60: a call of a documented function that is never translated makes rendering fail,
    however deep in an expression of eval or where it stands, also inside sub-searches.
    Partial: without the runtime. *)
Theorem C60_untranslated_functions_raise_partial : forall env p c e f args, env_rt env = Disallow ->
  occurs c p -> computed_by c e -> part (ECall f args) e -> In f untranslated ->
  forall out, render_pyspark env p <> Ok out.
Proof. exact untranslated_refused. Qed.
Print Assumptions C60_untranslated_functions_raise_partial.
Example C60_ex : exists c e args, occurs c (parsed "index=a | join k [search b=1 | eval y=len(if(x>1, mvjoin(z, ""-""), 2)) + 1]")
  /\ computed_by c e /\ part (ECall "mvjoin" args) e /\ In "mvjoin" untranslated.
Proof.
  assert (E : parsed "index=a | join k [search b=1 | eval y=len(if(x>1, mvjoin(z, ""-""), 2)) + 1]"
    = ltac:(let v := eval vm_compute in (parsed "index=a | join k [search b=1 | eval y=len(if(x>1, mvjoin(z, ""-""), 2)) + 1]") in exact v)) by (vm_compute; reflexivity).
  rewrite E. do 3 eexists. split; [ eapply OC_join; [ right; left; reflexivity | apply OC_here; right; left; reflexivity ] | ].
  split; [ left; reflexivity | ]. split; [ | vm_compute; tauto ].
  apply P_left. eapply P_argument; [ left; reflexivity | ]. eapply P_argument; [ right; left; reflexivity | ]. apply P_self.
Qed.
(** So does an aggregation of stats or tstats that is never translated, and a call of such a
    function anywhere in the arguments of an aggregation. *)
Theorem C60_untranslated_aggregations_raise_partial : forall env p c f args, env_rt env = Disallow ->
  occurs c p -> aggregates c f args -> In f untranslated_aggregations ->
  forall out, render_pyspark env p <> Ok out.
Proof. exact aggregation_refused. Qed.
Print Assumptions C60_untranslated_aggregations_raise_partial.
Theorem C60_aggregated_calls_raise_partial : forall env p c f args a g xs, env_rt env = Disallow ->
  occurs c p -> aggregates c f args -> In a args -> part (ECall g xs) a -> In g untranslated ->
  forall out, render_pyspark env p <> Ok out.
Proof. exact aggregated_part_refused. Qed.
Print Assumptions C60_aggregated_calls_raise_partial.
Example C60_aggregations_ex : exists c args, occurs c (parsed "index=a | join k [search b=1 | stats sum(x) as s, per_hour(mvjoin(x, ""-"")) as h by k]")
  /\ aggregates c "per_hour" args /\ In "per_hour" untranslated_aggregations /\ exists a xs, In a args /\ part (ECall "mvjoin" xs) a.
Proof.
  assert (E : parsed "index=a | join k [search b=1 | stats sum(x) as s, per_hour(mvjoin(x, ""-"")) as h by k]"
    = ltac:(let v := eval vm_compute in (parsed "index=a | join k [search b=1 | stats sum(x) as s, per_hour(mvjoin(x, ""-"")) as h by k]") in exact v)) by (vm_compute; reflexivity).
  rewrite E. do 2 eexists. split; [ eapply OC_join; [ right; left; reflexivity | apply OC_here; right; left; reflexivity ] | ].
  split; [ eexists; split; [ right; eexists; reflexivity | right; left; reflexivity ] | ]. split; [ vm_compute; tauto | ].
  do 2 eexists. split; [ left; reflexivity | apply P_self ].
Qed.
(** False of other functions: the name, whatever it is, is copied into the program as that of
    a Spark function; and with the runtime the call is passed to a library that does not have it. *)
Theorem C60_unknown_functions_refuted :
  transpile (env0 Disallow) "eval y=exit(x)" = Some (Ok "spark.table('main').withColumn('y', F.exit(F.col('x')),)")
  /\ (exists code, transpile (env0 Allow) "eval y=mvjoin(x, "","")" = Some (Ok code) /\ contains "functions.eval.mvjoin(" code = true).
Proof. split; [ vm_compute; reflexivity | ]. eexists. split; vm_compute; reflexivity. Qed.
Print Assumptions C60_unknown_functions_refuted.

(** C61: a call with a number of arguments the function does not have is refused, at any
    depth of eval and where.  Partial: without the runtime, functions of [argument_counts]. *)
Theorem C61_wrong_counts_are_refused_partial : forall env p c e f args counts, env_rt env = Disallow ->
  occurs c p -> computed_by c e -> part (ECall f args) e -> In (f, counts) argument_counts -> ~ In (length args) counts ->
  forall out, render_pyspark env p <> Ok out.
Proof. exact count_refused. Qed.
Print Assumptions C61_wrong_counts_are_refused_partial.
Example C61_ex : exists e args, parsed "eval z=abs(x + replace(y, ""a"")) - 2" = [CEval [("z", e)]] /\ part (ECall "replace" args) e /\ length args = 2
  /\ In ("replace", [3]) argument_counts.
Proof.
  do 2 eexists. split; [ vm_compute; reflexivity | ]. split; [ | split; [ shelve | vm_compute; tauto ] ].
  - apply P_left. eapply P_argument; [ left; reflexivity | ]. apply P_right. apply P_self.
  Unshelve. reflexivity.
Qed.
Theorem C61_wrong_counts_of_aggregations_are_refused_partial : forall env p c f args counts, env_rt env = Disallow ->
  occurs c p -> aggregates c f args -> In (f, counts) aggregation_counts -> ~ In (length args) counts ->
  forall out, render_pyspark env p <> Ok out.
Proof. exact aggregation_count_refused. Qed.
Print Assumptions C61_wrong_counts_of_aggregations_are_refused_partial.
Example C61_aggregations_ex : exists c args, parsed "stats count as c, sum(a, b) by u" = [c] /\ aggregates c "sum" args /\ length args = 2
  /\ In ("sum", [1]) aggregation_counts.
Proof.
  do 2 eexists. split; [ vm_compute; reflexivity | ]. split; [ eexists; split; [ left; reflexivity | right; left; reflexivity ] | ].
  split; [ reflexivity | vm_compute; tauto ].
Qed.
(** False: what follows the arguments of mvindex and relative_time is ignored; optional
    arguments that are left out (or, for tostring and tonumber, given) are refused; and the
    runtime's calls are not checked. *)
Theorem C61_counts_refuted :
  transpile (env0 Disallow) "eval y=mvindex(x, 1, 2, 3)" = transpile (env0 Disallow) "eval y=mvindex(x, 1, 2)"
  /\ (exists code, transpile (env0 Disallow) "eval y=mvindex(x, 1, 2)" = Some (Ok code))
  /\ Forall (fun t => transpile (env0 Disallow) t = Some Err)
       ["eval y=round(x)"; "eval y=substr(x, 2)"; "eval y=log(x)"; "eval y=ltrim(x)"; "eval y=rtrim(x)"; "eval y=trim(x)";
        "eval y=tostring(x, ""hex"")"; "eval y=tonumber(x, 16)"; "where in(x, 1, 2)"]
  /\ (exists code, transpile (env0 Allow) "eval y=abs(a, b)" = Some (Ok code) /\ contains "functions.eval.abs(F.col('a'), F.col('b')" code = true).
Proof.
  split; [ vm_compute; reflexivity | ]. split; [ eexists; vm_compute; reflexivity | ]. split; [ repeat constructor; vm_compute; reflexivity | ].
  eexists. split; vm_compute; reflexivity.
Qed.
Print Assumptions C61_counts_refuted.

(** C62: a call of a documented function, with any arguments, can be written and is read as
    that call.  Partial: in, like and lookup are reserved words and cannot be called. *)
Theorem C62_documented_functions_can_be_called_partial : forall f x args, In f documented ->
  ~ In f ["in"; "like"; "lookup"] -> field_name x -> Forall (fun a => wf (fst a) /\ writes 9 (fst a) (snd a)) args ->
  parse ("eval " ++ x ++ "=" ++ f ++ "(" ++ commas (map snd args) ++ ")")%string
  = Some (Ok [CEval [(x, ECall f (map (fun a => meaning (fst a)) args))]]).
Proof. exact documented_read. Qed.
Print Assumptions C62_documented_functions_can_be_called_partial.
Example C62_ex : In "coalesce" documented /\ ~ In "coalesce" ["in"; "like"; "lookup"] /\ writes 9 (TInt 5) "5"
  /\ parse "eval x=coalesce(a, 5)" = Some (Ok [CEval [("x", ECall "coalesce" [ELeaf (LConstant (KField "a")); ELeaf (LConstant (KInt 5))])]]).
Proof.
  split; [ vm_compute; tauto | ]. split; [ cbn [In]; intuition discriminate | ]. split; [ | vm_compute; reflexivity ].
  do 7 (apply W_up; [ repeat constructor | ]). exact (W_int 5).
Qed.
Theorem C62_like_and_in_refuted : parse "where like(a, ""x%"")" = Some Err /\ parse "eval y=if(like(a, ""x%""), 1, 2)" = Some Err
  /\ parse "where in(a, 1, 2)" = Some Err /\ In "like" documented /\ In "in" documented.
Proof. repeat split; try (vm_compute; reflexivity); vm_compute; tauto. Qed.
Print Assumptions C62_like_and_in_refuted.

(** C63 is false: where compares only a field with a constant or a call, not two expressions;
    a field on the right is taken for a text and a number on the left for a field. *)
Theorem C63_where_takes_expressions_refuted :
  Forall (fun t => parse t = Some Err) ["where abs(x) > 2"; "where x + 1 > 2"; "where x > y + 1"; "where (x + 1) > 2"]
  /\ (exists e, parse "eval z=if(abs(x) > 2, 1, 0)" = Some (Ok [CEval [("z", e)]])).
Proof. split; [ repeat constructor; vm_compute; reflexivity | eexists; vm_compute; reflexivity ]. Qed.
Print Assumptions C63_where_takes_expressions_refuted.
Theorem C63_where_compares_fields_refuted :
  text_gives (env0 Disallow) small_spark (only_main [[("x", SInt 1); ("y", SInt 1)]]) "where x=y" (OFrame None [])
  /\ text_gives (env0 Disallow) small_spark (only_main [[("x", SInt 5)]]) "where 2<x" (OFrame None []).
Proof. split; by_running. Qed.
Print Assumptions C63_where_compares_fields_refuted.
