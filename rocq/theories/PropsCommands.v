(** C34-C46, C50, C55: what commands do to rows.  See PropsRows.v for [covered] and [gives]. *)
From Coq Require Import String List ZArith Permutation Sorted.
Import ListNotations.
From Verif Require Import Str SplAst PyAst Functions Transpile Commands CmdParser Api SpecExpr SpecPy SpecCol SpecSpark SpecRows SpecCommands
  SpecResult SpecEffect RowFacts ResultFacts EffectFacts.
Open Scope string_scope.
Open Scope list_scope.

Ltac by_running := eapply text_frame; [ vm_compute; reflexivity
  | eapply frame_gives; [ vm_compute; reflexivity | vm_compute; reflexivity | intro; vm_compute; reflexivity ] ].
Ltac by_failing := eapply text_fails; [ vm_compute; reflexivity | vm_compute; reflexivity | vm_compute; reflexivity | intro; vm_compute; reflexivity ].

(** C55: every covered pipeline renders, and its program computes exactly the rows its
    commands yield one after the other, sub-searches of join and multisearch included. *)
Theorem C55_pipelines_compute_their_commands : forall env sp db p rows, env_rt env = Disallow -> walks_sets env ->
  covered sp db p rows -> p <> [] -> gives env sp db p (OFrame None rows).
Proof. exact covered_gives. Qed.
Print Assumptions C55_pipelines_compute_their_commands.
Example C55_ex :
  covered small_spark (fun n => if String.eqb n "web" then Some [[("u", SInt 1); ("n", SInt 5)]; [("u", SInt 2); ("n", SInt 7)]]
                                else if String.eqb n "main" then Some [[("u", SInt 2); ("k", SStr "b")]] else None)
    (parsed "search index=web n>4 | eval m=n+1 | join u [search k=""b"" | table u, k] | sort -m | head 3 | stats sum(m) as t by u")
    [[("u", SInt 2); ("t", SInt 8)]].
Proof. right. split; vm_compute; reflexivity. Qed.
Example C55_multi_ex :
  covered small_spark (fun n => if String.eqb n "a" then Some [[("x", SInt 1)]; [("x", SInt 2)]] else if String.eqb n "m.t" then Some [[("x", SInt 2)]; [("x", SInt 3)]] else None)
    (parsed "multisearch [search index=a x>1] [tstats count from datamodel=m.t by x] | eval y=x")
    [[("x", SInt 2); ("y", SInt 2)]; [("x", SInt 2); ("count", SInt 1); ("y", SInt 2)]; [("x", SInt 3); ("count", SInt 1); ("y", SInt 3)]].
Proof. right. split; vm_compute; reflexivity. Qed.
Example C55_made_ex :
  covered small_spark (fun _ => None) (parsed "makeresults count=2 annotate=true | eval x=id | table x, splunk_server")
    [[("x", SInt 0); ("splunk_server", SStr "local")]; [("x", SInt 1); ("splunk_server", SStr "local")]].
Proof. right. split; vm_compute; reflexivity. Qed.

(** With the runtime allowed, pipelines of commands that have no runtime version are
    translated to the same code, and so compute the same rows. *)
Theorem C55_allowing_the_runtime_changes_nothing : forall env p, env_rt env = Allow -> forallb runtime_free p = true ->
  render_pyspark env p = render_pyspark (without_runtime env) p.
Proof. exact allow_renders. Qed.
Print Assumptions C55_allowing_the_runtime_changes_nothing.
Theorem C55_pipelines_with_the_runtime_allowed : forall env sp db p rows, env_rt env = Allow -> walks_sets env ->
  covered sp db p rows -> p <> [] -> forallb runtime_free p = true -> gives env sp db p (OFrame None rows).
Proof. exact allow_gives. Qed.
Print Assumptions C55_pipelines_with_the_runtime_allowed.
Example C55_allow_ex :
  forallb runtime_free (parsed "where n>1 | join u [where k=1 | table u] | rename n as m | sort -m | head 5 | table m, u") = true /\
  covered small_spark (only_main [[("u", SInt 2); ("k", SInt 1); ("n", SInt 5)]])
    (parsed "where n>1 | join u [where k=1 | table u] | rename n as m | sort -m | head 5 | table m, u") [[("m", SInt 5); ("u", SInt 2)]].
Proof. split; [ vm_compute; reflexivity | right; split; vm_compute; reflexivity ]. Qed.

(** C34: head n keeps the first n rows. *)
Theorem C34_head_keeps_the_first_rows_partial : forall env sp db, env_rt env = Disallow -> walks_sets env ->
  forall p rows n keeplast null_opt, covered sp db p rows -> (0 <= n < 2 ^ 63)%Z ->
  gives env sp db (p ++ [CHead (eint n) keeplast null_opt]) (OFrame None (firstn (Z.to_nat n) rows)).
Proof. exact head_gives. Qed.
Print Assumptions C34_head_keeps_the_first_rows_partial.
(** head with count < n or count <= n keeps rows, numbered from 0, while the condition
    holds of the number, and with keeplast the first row of which it does not hold. *)
Theorem C34_head_while_partial : forall env sp db, env_rt env = Disallow -> walks_sets env ->
  forall p rows n keeplast null_opt op test, covered sp db p rows -> (0 <= n < 2 ^ 63 - 2)%Z ->
  (op = "<" /\ test = (fun i => i <? n)%Z) \/ (op = "<=" /\ test = (fun i => i <=? n)%Z) ->
  gives env sp db (p ++ [CHead (EBinary (efield "count") op (eint n)) keeplast null_opt])
    (OFrame None (while_count test keeplast 0 rows)).
Proof. exact head_while_gives. Qed.
Print Assumptions C34_head_while_partial.
(** False for negative counts, which become huge. *)
Theorem C34_negative_head_refuted :
  transpile (env0 Disallow) "head -1" = Some (Ok "spark.table('main').limit(18446744073709551615,)") /\
  transpile (env0 Disallow) "head count<-3" = Some (Ok "spark.table('main').limit(18446744073709551613,)").
Proof. split; vm_compute; reflexivity. Qed.
Print Assumptions C34_negative_head_refuted.
Example C34_ex : parsed "head 3" = [CHead (eint 3) false false]
  /\ parsed "head count<=2 keeplast=true" = [CHead (EBinary (efield "count") "<=" (eint 2)) true false]
  /\ while_count (fun i => i <=? 1)%Z true 0 [[("x", SInt 1)]; [("x", SInt 2)]; [("x", SInt 3)]; [("x", SInt 4)]]
     = [[("x", SInt 1)]; [("x", SInt 2)]; [("x", SInt 3)]].
Proof. repeat split; vm_compute; reflexivity. Qed.

(** C50: the other limits.  sort n: see C35; tail n: the last n rows, as a Python list. *)
Theorem C50_tail_keeps_the_last_rows_partial : forall env sp db, env_rt env = Disallow -> walks_sets env ->
  forall p rows n, covered sp db p rows -> (0 <= n)%Z ->
  gives env sp db (p ++ [CTail n]) (ORows (skipn (length rows - Z.to_nat n) rows)).
Proof. exact tail_gives. Qed.
Print Assumptions C50_tail_keeps_the_last_rows_partial.
Theorem C50_negative_limits_refuted :
  transpile (env0 Disallow) "tail -1" = Some (Ok "spark.table('main').tail(18446744073709551615)") /\
  transpile (env0 Disallow) "sort -5 x" = Some (Ok "spark.table('main').orderBy(F.col('x').asc(),).limit(18446744073709551611,)") /\
  (exists code, transpile (env0 Disallow) "top -5 x" = Some (Ok code) /\ contains "limit(18446744073709551611," code = true).
Proof. repeat split; try (vm_compute; reflexivity). eexists. split; vm_compute; reflexivity. Qed.
Print Assumptions C50_negative_limits_refuted.
(** tail is no data frame, so that nothing can follow it *)
Theorem C50_after_tail_refuted : fails (env0 Disallow) small_spark (only_main [[("x", SInt 1)]]) "tail 5 | where x=1".
Proof. by_failing. Qed.
Print Assumptions C50_after_tail_refuted.
Example C50_ex : parsed "tail 2" = [CTail 2]. Proof. vm_compute. reflexivity. Qed.

(** C35: if orderBy sorts this table by the given order of rows (a permutation, in which
    every row comes before the later ones), sort yields a permutation of the rows in which
    every row comes before the later ones by the wanted keys, cut to count rows if count is
    not 0.  [Before]: the first key that distinguishes two rows decides, in its direction. *)
Theorem C35_sort_orders_by_the_keys_partial : forall env sp db, env_rt env = Disallow -> walks_sets env ->
  forall p rows keys count desc, covered sp db p rows -> keys <> [] ->
  Forall (fun k => plain_name_text (snd k) = true /\ (fst k = None \/ fst k = Some "+" \/ fst k = Some "-")) keys ->
  (0 <= count < 2 ^ 63)%Z ->
  (forall le, Permutation rows (sp_sort sp le rows)) ->
  StronglySorted (fun a b => row_le (sp_le sp) (map (wanted_key desc) keys) a b = true)
    (sp_sort sp (row_le (sp_le sp) (map (wanted_key desc) keys)) rows) ->
  exists sorted, Permutation rows sorted /\ StronglySorted (Before (sp_le sp) (map (wanted_key desc) keys)) sorted /\
  gives env sp db (p ++ [CSort (map written_key keys) count desc])
    (OFrame None (if (count =? 0)%Z then sorted else firstn (Z.to_nat count) sorted)).
Proof. exact sort_orders. Qed.
Print Assumptions C35_sort_orders_by_the_keys_partial.
Example C35_ex : parsed "sort 2 -a, b" = [CSort (map written_key [(Some "-", "a"); (None, "b")]) 2 false]
  /\ map (wanted_key false) [(Some "-", "a"); (None, "b")] = [("a", true); ("b", false)]
  /\ sp_sort small_spark (row_le (sp_le small_spark) [("a", true); ("b", false)])
       [[("a", SInt 1); ("b", SInt 5)]; [("a", SInt 2); ("b", SInt 4)]; [("a", SInt 2); ("b", SInt 3)]]
     = [[("a", SInt 2); ("b", SInt 3)]; [("a", SInt 2); ("b", SInt 4)]; [("a", SInt 1); ("b", SInt 5)]].
Proof. repeat split; vm_compute; reflexivity. Qed.

(** C36: eval assigns one after the other; a column already there is replaced in place, a
    new one is added at the end.  Partial: without the runtime. *)
Theorem C36_eval_assigns_left_to_right_partial : forall env sp db, env_rt env = Disallow -> walks_sets env ->
  forall p rows l out, covered sp db p rows ->
  Forall (fun ne => plain_name_text (fst ne) = true /\ plain_expr true (snd ne) = true) l ->
  Forall2 (Assigns sp l) rows out -> gives env sp db (p ++ [CEval l]) (OFrame None out).
Proof. exact eval_gives. Qed.
Print Assumptions C36_eval_assigns_left_to_right_partial.
(** From the text of the query *)
Theorem C36_eval_text_partial : forall env sp db, env_rt env = Disallow -> walks_sets env ->
  forall (l : list (string * (Tree * string))) rows out, l <> [] -> db "main" = Some rows ->
  Forall (fun a => field_name (fst a) /\ wf (fst (snd a)) /\ writes 9 (fst (snd a)) (snd (snd a))
                   /\ plain_expr true (meaning (fst (snd a))) = true) l ->
  Forall2 (Assigns sp (map (fun a => (fst a, meaning (fst (snd a)))) l)) rows out ->
  text_gives env sp db ("eval " ++ commas (map (fun a => fst a ++ "=" ++ snd (snd a))%string l)) (OFrame None out).
Proof. exact eval_text. Qed.
Print Assumptions C36_eval_text_partial.
Theorem C36_set_cell : forall n v r, cell n (set_cell n v r) = v /\ forall m, m <> n -> cell m (set_cell n v r) = cell m r.
Proof. exact set_cell_cells. Qed.
Print Assumptions C36_set_cell.
Example C36_ex : exists l, parsed "eval x=x+1, y=x * 2, z=if(y>5, ""big"", coalesce(w, y))" = [CEval l] /\
  Forall (fun ne => plain_name_text (fst ne) = true /\ plain_expr true (snd ne) = true) l /\
  Assigns small_spark l [("x", SInt 2)] [("x", SInt 3); ("y", SInt 6); ("z", SStr "big")].
Proof.
  eexists. split; [ vm_compute; reflexivity | ]. split; [ repeat constructor | ].
  repeat (eapply AOne; [ vm_compute; reflexivity | ]). vm_compute. constructor.
Qed.

(** C37: rename applies the renamings one after the other to every row, table keeps exactly
    the listed columns, in order. *)
Theorem C37_rename : forall env sp db, env_rt env = Disallow -> walks_sets env ->
  forall p rows l, covered sp db p rows -> Forall (fun on => plain_name_text (fst on) = true /\ plain_name_text (snd on) = true) l ->
  gives env sp db (p ++ [CRename (map written_renaming l)]) (OFrame None (map (rename_all l) rows)).
Proof. exact rename_gives. Qed.
Print Assumptions C37_rename.
Theorem C37_rename_touches_only_its_column : forall old new r n, n <> old -> n <> new -> cell n (rename_cell old new r) = cell n r.
Proof. exact rename_other. Qed.
Print Assumptions C37_rename_touches_only_its_column.
Theorem C37_rename_moves_its_column : forall old new r, ~ In new (map fst r) -> cell new (rename_cell old new r) = cell old r.
Proof. exact rename_moves. Qed.
Print Assumptions C37_rename_moves_its_column.
Theorem C37_table : forall env sp db, env_rt env = Disallow -> walks_sets env ->
  forall p rows l c, covered sp db p rows -> l <> [] -> Forall (fun n => plain_name_text n = true) l ->
  c = CTable l \/ c = CFields false l ->
  gives env sp db (p ++ [c]) (OFrame None (map (fun r => map (fun n => (n, cell n r)) l) rows)).
Proof. exact table_gives. Qed.
Print Assumptions C37_table.
Example C37_ex : parsed "rename a as b, b as c" = [CRename (map written_renaming [("a", "b"); ("b", "c")])]
  /\ rename_all [("a", "b"); ("b", "c")] [("x", SInt 0); ("a", SInt 1)] = [("x", SInt 0); ("c", SInt 1)]
  /\ parsed "table b, a" = [CTable ["b"; "a"]].
Proof. repeat split; vm_compute; reflexivity. Qed.

(** C38: fields a, b keeps exactly the listed fields: C37_table.  fields - x is false: it
    keeps x and drops the rest. *)
Theorem C38_fields_minus_refuted : text_gives (env0 Disallow) small_spark (only_main [[("x", SInt 1); ("y", SInt 2)]])
  "fields - x" (OFrame None [[("x", SInt 1)]]).
Proof. by_running. Qed.
Print Assumptions C38_fields_minus_refuted.
Theorem C38_fields_keeps_the_listed_fields_partial : forall env sp db, env_rt env = Disallow -> walks_sets env ->
  forall p rows l, covered sp db p rows -> l <> [] -> Forall (fun n => plain_name_text n = true) l ->
  gives env sp db (p ++ [CFields false l]) (OFrame None (map (fun r => map (fun n => (n, cell n r)) l) rows)).
Proof. exact fields_gives. Qed.
Print Assumptions C38_fields_keeps_the_listed_fields_partial.
Example C38_ex : parsed "fields x, y" = [CFields false ["x"; "y"]]. Proof. vm_compute. reflexivity. Qed.

(** C39: join pairs every row with every row of the sub-search it agrees with on all the
    fields (and, if asked, is not earlier or not later than); left and outer joins keep the
    rows without a partner.  Partial: at most one partner per row (max=1) is not done, see
    below. *)
Theorem C39_join_partial : forall env sp db, env_rt env = Disallow -> walks_sets env ->
  forall p rows o q right, covered sp db p rows -> plain_pipeline q = true -> run sp db q = Some right ->
  jo_max o = 1%Z -> In (jo_type o) ["inner"; "left"; "outer"] -> jo_fields o <> [] ->
  Forall (fun n => plain_name_text n = true) (jo_fields o) ->
  gives env sp db (p ++ [CJoin o q]) (OFrame None (joined_rows sp o rows right)).
Proof. exact join_gives. Qed.
Print Assumptions C39_join_partial.
Theorem C39_match_is_agreement : forall sp o l r, join_match sp o l r = true <->
  (forall f, In f (jo_fields o) -> cell f l <> SNull /\ cell f r <> SNull /\ sp_cmp sp "==" (cell f l) (cell f r) = true) /\
  (jo_use_time o = true -> cell "_time" l <> SNull /\ cell "_time" r <> SNull /\
     sp_cmp sp (if jo_earlier o then ">=" else "<=") (cell "_time" l) (cell "_time" r) = true).
Proof. exact join_match_iff. Qed.
Print Assumptions C39_match_is_agreement.
Theorem C39_unsupported_options_are_refused : forall env p o sub q,
  jo_max o <> 1%Z \/ ~ In (jo_type o) ["inner"; "left"; "outer"] ->
  forall out, render_pyspark env (p ++ CJoin o sub :: q) <> Ok out.
Proof. exact join_refused. Qed.
Print Assumptions C39_unsupported_options_are_refused.
(** False: max=1, the default, joins a row with two partners; overwrite makes no difference. *)
Theorem C39_join_max_refuted : exists db, (forall l, db "main" = Some l -> length l = 1) /\
  text_gives (env0 Disallow) small_spark db "join max=1 x [search index=b]"
    (OFrame None [[("x", SInt 1); ("x", SInt 1); ("y", SInt 2)]; [("x", SInt 1); ("x", SInt 1); ("y", SInt 3)]]).
Proof.
  exists (fun n => if String.eqb n "main" then Some [[("x", SInt 1)]]
                   else if String.eqb n "b" then Some [[("x", SInt 1); ("y", SInt 2)]; [("x", SInt 1); ("y", SInt 3)]] else None).
  split; [ intros l E; now injection E as <- | by_running ].
Qed.
Print Assumptions C39_join_max_refuted.
Theorem C39_join_overwrite_refuted : forall env ty ut ea max fields sub p q,
  render_pyspark env (p ++ CJoin (mkJoin ty ut ea true max fields) sub :: q) = render_pyspark env (p ++ CJoin (mkJoin ty ut ea false max fields) sub :: q).
Proof. exact join_overwrite. Qed.
Print Assumptions C39_join_overwrite_refuted.
Example C39_ex : exists o q, parsed "join type=left usetime=true a, b [search k=1 | table a, b, v]" = [CJoin o q] /\
  plain_pipeline q = true /\ jo_max o = 1%Z /\ jo_fields o = ["a"; "b"] /\ jo_type o = "left" /\
  join_match small_spark o [("a", SInt 1); ("b", SInt 2); ("_time", SInt 9)] [("b", SInt 2); ("a", SInt 1); ("_time", SInt 9)] = true.
Proof. eexists. eexists. split; [ vm_compute; reflexivity | ]. repeat split; vm_compute; reflexivity. Qed.

(** C40: stats yields, for each group of rows with equal BY fields, the BY fields and one
    column per aggregation, in order, under its alias or its function's name
    ([stats_rows]).  Partial: aggregations of SpecCommands.stat_of, percentiles with an alias,
    earliest_time, latest_time and rate of fields that no row lacks; BY without spans. *)
Theorem C40_stats_partial : forall env sp db, env_rt env = Disallow -> walks_sets env ->
  forall p rows o funcs by_ out, covered sp db p rows -> plain1 (CStats o funcs by_) = true ->
  stats_rows sp funcs by_ rows = Some out -> gives env sp db (p ++ [CStats o funcs by_]) (OFrame None out).
Proof. exact stats_gives. Qed.
Print Assumptions C40_stats_partial.
(** An aggregation that cannot be translated alone makes the whole command fail. *)
Theorem C40_untranslatable_aggregation_is_refused : forall env o funcs by_ e p q, env_rt env = Disallow -> In e funcs ->
  (forall out, render_pyspark env [CStats o [e] by_] <> Ok out) ->
  forall out, render_pyspark env (p ++ CStats o funcs by_ :: q) <> Ok out.
Proof. exact stats_refused. Qed.
Print Assumptions C40_untranslatable_aggregation_is_refused.
Example C40_ex : exists o funcs by_, parsed "stats count, sum(n) as total by u" = [CStats o funcs by_] /\ plain1 (CStats o funcs by_) = true /\
  stats_rows small_spark funcs by_ [[("u", SInt 1); ("n", SInt 5)]; [("u", SInt 2); ("n", SInt 7)]; [("u", SInt 1); ("n", SInt 8)]]
  = Some [[("u", SInt 1); ("count", SInt 2); ("total", SInt 13)]; [("u", SInt 2); ("count", SInt 1); ("total", SInt 7)]].
Proof. do 3 eexists. split; [ vm_compute; reflexivity | ]. split; vm_compute; reflexivity. Qed.
Example C40_more_ex : exists o funcs by_, parsed "stats earliest(n) as e, latest(n) as l, rate(n), sumsq(n), first(n), latest_time(n) by u" = [CStats o funcs by_] /\
  plain1 (CStats o funcs by_) = true /\
  stats_rows small_spark funcs by_ [[("u", SInt 1); ("n", SInt 5); ("_time", SInt 9)]; [("u", SInt 1); ("n", SInt 8); ("_time", SInt 4)]]
  = Some [[("u", SInt 1); ("e", SInt 8); ("l", SInt 5); ("rate", SNull); ("sumsq", SInt 89); ("first", SInt 8); ("latest_time", SInt 9)]].
Proof. do 3 eexists. split; [ vm_compute; reflexivity | ]. split; vm_compute; reflexivity. Qed.
Example C40_percentile_ex : forallb (fun t => match parsed t with [c] => plain1 c | _ => false end)
  [ "stats percentile95(x) as p"; "stats median(x), exactperc5(x) as a, upperperc50(x+y) as b by u, v"; "stats last(x), rate(y), estdc(z)" ] = true.
Proof. vm_compute. reflexivity. Qed.
(** False: the column of a percentile has a name without the number, so that two of them
    cannot be told apart. *)
Theorem C40_percentile_column_refuted : forall sp v,
  let p q := sp_agg sp "percentile_approx" [[AVal v; ALit (SNum q)]] in
  text_gives (env0 Disallow) sp (only_main [[("x", v)]]) "stats percentile50(x), percentile95(x)"
    (OFrame None [[("percentile", p "0.5"); ("percentile", p "0.95")]]).
Proof. intros. by_running. Qed.
Print Assumptions C40_percentile_column_refuted.
(** False: range takes the maximum of differences from the minimum, an aggregate inside an
    aggregate, which Spark refuses. *)
Theorem C40_range_refuted : forall sp v, fails (env0 Disallow) sp (only_main [[("x", v)]]) "stats range(x)".
Proof. intros. by_failing. Qed.
Print Assumptions C40_range_refuted.
(** False: perc95, the usual name of percentile95, and names that are no function at all are
    accepted, and the program calls a function that does not exist. *)
Theorem C40_unknown_function_refuted : forall sp v, fails (env0 Disallow) sp (only_main [[("x", v)]]) "stats perc95(x)"
  /\ fails (env0 Disallow) sp (only_main [[("x", v)]]) "stats nosuchfunction(x) as y".
Proof. intros. split; by_failing. Qed.
Print Assumptions C40_unknown_function_refuted.
(** False: earliest_time and latest_time count rows that have no value. *)
Theorem C40_earliest_time_refuted : text_gives (env0 Disallow) small_spark
  (only_main [[("_time", SInt 1); ("x", SNull)]; [("_time", SInt 2); ("x", SInt 7)]])
  "stats earliest_time(x)" (OFrame None [[("earliest_time", SInt 1)]]).
Proof. by_running. Qed.
Print Assumptions C40_earliest_time_refuted.
(** False: a field with a span in BY loses its name; the buckets stand in a column window. *)
Theorem C40_span_refuted : forall sp t v, text_gives (env0 Disallow) sp (only_main [[("_time", t); ("x", v)]])
  "stats count by _time span=1h"
  (OFrame None [[("window", sp_fn sp "window" [AVal t; ALit (SStr "1 hours")]); ("count", sp_agg sp "count" [[AVal (SInt 1)]])]]).
Proof.
  intros. eapply text_frame; [ vm_compute; reflexivity | ]. eapply frame_gives; [ vm_compute; reflexivity | vm_compute; reflexivity | ].
  intro cmds. lazy -[vals_eqb sp_fn sp_agg]. rewrite !vals_eqb_refl. reflexivity.
Qed.
Print Assumptions C40_span_refuted.
Example C40_refused_ex : exists o funcs by_ e, parsed "stats count, estdc_error(x) by u" = [CStats o funcs by_] /\ In e funcs /\
  forall out, render_pyspark (env0 Disallow) [CStats o [e] by_] <> Ok out.
Proof.
  do 4 eexists. split; [ vm_compute; reflexivity | ]. split; [ right; left; reflexivity | ]. intros out H. vm_compute in H. discriminate H.
Qed.

(** C64 is false: a column without AS is named after the function alone, so that the same
    function of two fields gives two columns of one name, and the name the aggregation has in
    later commands is not that of a column. *)
Theorem C64_column_names_refuted : forall sp a b,
  text_gives (env0 Disallow) sp (only_main [[("a", a); ("b", b)]]) "stats avg(a), avg(b)"
    (OFrame None [[("avg", sp_agg sp "avg" [[AVal a]]); ("avg", sp_agg sp "avg" [[AVal b]])]])
  /\ text_gives (env0 Disallow) sp (only_main [[("a", a); ("b", b)]]) "stats avg(a) | eval c='avg(a)'"
       (OFrame None [[("avg", sp_agg sp "avg" [[AVal a]]); ("c", SNull)]]).
Proof. intros. split; by_running. Qed.
Print Assumptions C64_column_names_refuted.

(** C41 is false: the program for top cannot be run (F.count needs an argument); with BY the
    listed fields vanish; limit= is rejected. *)
Theorem C41_top_fails_refuted : fails (env0 Disallow) small_spark (only_main [[("x", SInt 1)]]) "top x".
Proof. by_failing. Qed.
Print Assumptions C41_top_fails_refuted.
Theorem C41_top_by_refuted : exists code, transpile (env0 Disallow) "top 5 x by y" = Some (Ok code) /\ contains "x" code = false.
Proof. eexists. split; vm_compute; reflexivity. Qed.
Print Assumptions C41_top_by_refuted.
Theorem C41_top_limit_refuted : transpile (env0 Disallow) "top limit=5 x" = Some Err
  /\ exists code, transpile (env0 Disallow) "top showperc=false 5 x" = Some (Ok code) /\ contains "limit(10" code = true.
Proof. split; [ vm_compute; reflexivity | ]. eexists. split; vm_compute; reflexivity. Qed.
Print Assumptions C41_top_limit_refuted.

(** C42: without fields, fillnull fills every null.  With fields it is false: without the
    runtime it fills all the other columns too. *)
Theorem C42_fillnull_all_partial : forall env sp db, env_rt env = Disallow -> walks_sets env ->
  forall p rows v, covered sp db p rows -> plain_between dquote v = true ->
  gives env sp db (p ++ [CFillNull v None]) (OFrame None (map (map (fun c => if is_null (snd c) then (fst c, SStr v) else c)) rows)).
Proof. exact fillnull_gives. Qed.
Print Assumptions C42_fillnull_all_partial.
Theorem C42_fillnull_fields_refuted : text_gives (env0 Disallow) small_spark (only_main [[("x", SNull); ("y", SNull)]])
  "fillnull value=0 x" (OFrame None [[("x", SStr "0"); ("y", SStr "0")]]).
Proof. by_running. Qed.
Print Assumptions C42_fillnull_fields_refuted.
Example C42_ex : parsed "fillnull value=none" = [CFillNull "none" None]. Proof. vm_compute. reflexivity. Qed.

(** C43 is false: lookup adds nothing, and OUTPUTNEW is rejected. *)
Theorem C43_lookup_refuted : text_gives (env0 Disallow) small_spark
    (fun n => if String.eqb n "main" then Some [[("k", SInt 1)]] else if String.eqb n "t" then Some [[("k", SInt 1); ("v", SInt 2)]] else None)
    "lookup t k OUTPUT v" (OFrame (Some "main") [[("k", SInt 1)]])
  /\ transpile (env0 Disallow) "lookup t k OUTPUTNEW v" = Some Err.
Proof. split; [ by_running | vm_compute; reflexivity ]. Qed.
Print Assumptions C43_lookup_refuted.

(** C44 is false: the column n is discretised, not the named one. *)
Theorem C44_bin_refuted : exists code, transpile (env0 Disallow) "bin span=5m x" = Some (Ok code) /\
  contains "F.window(F.col('n'), " code = true /\ contains "F.col('x')" code = false.
Proof. eexists. split; [ vm_compute; reflexivity | split; vm_compute; reflexivity ]. Qed.
Print Assumptions C44_bin_refuted.

(** C45: addtotals stores in every row the sum of the listed fields, left to right, where a
    value that is not numeric (cannot be cast to a number) counts 0. *)
Theorem C45_addtotals : forall env sp db, env_rt env = Disallow -> walks_sets env ->
  forall p rows a, covered sp db p rows -> plain_name_text (at_field_name a) = true -> Forall (fun n => plain_name_text n = true) (at_fields a) ->
  gives env sp db (p ++ [CAddTotals a]) (OFrame None (map (fun r => set_cell (at_field_name a) (total sp (at_fields a) r) r) rows)).
Proof. exact totals_gives. Qed.
Print Assumptions C45_addtotals.
Example C45_ex : exists a, parsed "addtotals fieldname=all x y z" = [CAddTotals a] /\ at_fields a = ["x"; "y"; "z"] /\ at_field_name a = "all" /\
  total small_spark (at_fields a) [("x", SInt 1); ("y", SStr "b"); ("z", SInt 5)] = SInt 6.
Proof. eexists. split; [ vm_compute; reflexivity | ]. repeat split; vm_compute; reflexivity. Qed.

(** C46: case picks the value of the first true condition, validate that of the first false
    one, null if there is none.  Partial: without the runtime. *)
Theorem C46_first_branch_partial : forall env sp db, env_rt env = Disallow -> walks_sets env ->
  forall p rows x l f b (v : Row -> Val), covered sp db p rows -> plain_name_text x = true -> l <> [] ->
  Forall (fun ce => plain_expr true (fst ce) = true /\ plain_expr true (snd ce) = true) l ->
  (f = "case" /\ b = true) \/ (f = "validate" /\ b = false) ->
  (forall r, In r rows -> Branch sp b r l (v r)) ->
  gives env sp db (p ++ [CEval [(x, ECall f (alternating l))]]) (OFrame None (map (fun r => set_cell x (v r) r) rows)).
Proof. exact branch_gives. Qed.
Print Assumptions C46_first_branch_partial.
Theorem C46_odd_arguments_are_refused_partial : forall env p x f args rest q, env_rt env = Disallow ->
  f = "case" \/ f = "validate" -> Nat.even (length args) = false ->
  forall out, render_pyspark env (p ++ CEval ((x, ECall f args) :: rest) :: q) <> Ok out.
Proof. exact branches_refused. Qed.
Print Assumptions C46_odd_arguments_are_refused_partial.
(** False with the runtime *)
Theorem C46_odd_arguments_refuted : exists code, transpile (env0 Allow) "eval x=case(a)" = Some (Ok code).
Proof. eexists. vm_compute. reflexivity. Qed.
Print Assumptions C46_odd_arguments_refuted.
Example C46_ex : exists l, parsed "eval x=case(a>5, ""high"", a>2, ""mid"", true(), ""low"")" = [CEval [("x", ECall "case" (alternating l))]] /\
  Branch small_spark true [("a", SInt 3)] l (SStr "mid") /\ Branch small_spark true [("a", SInt 1)] l (SStr "low").
Proof.
  match goal with |- exists l, ?a = _ /\ _ => let v := eval vm_compute in a in
    match v with [CEval [(_, ECall _ [?c1; ?v1; ?c2; ?v2; ?c3; ?v3])]] => exists [(c1, v1); (c2, v2); (c3, v3)] end end.
  split; [ vm_compute; reflexivity | ]. split.
  - eapply CNext; [ left; reflexivity | reflexivity | ]. eapply CHere; [ reflexivity | reflexivity | ].
    eapply CHere; [ reflexivity | reflexivity | ]. constructor.
  - eapply CNext; [ left; reflexivity | reflexivity | ]. eapply CNext; [ left; reflexivity | reflexivity | ].
    eapply CHere; [ reflexivity | reflexivity | ]. constructor.
Qed.

(** C56: makeresults yields count rows with the present time (and, annotated, empty
    metadata).  Partial: without splunk_server_group. *)
Theorem C56_makeresults_partial : forall env sp db m, env_rt env = Disallow -> walks_sets env ->
  (0 <= mr_count m)%Z -> plain_between dquote (mr_server m) = true -> mr_server_group m = None ->
  gives env sp db [CMakeResults m] (OFrame None (made_rows sp m)).
Proof. exact made_gives. Qed.
Print Assumptions C56_makeresults_partial.
Theorem C56_makeresults_count : forall sp m, length (made_rows sp m) = Z.to_nat (mr_count m).
Proof. exact made_length. Qed.
Print Assumptions C56_makeresults_count.
(** False with a server group: its name is emitted without quotes, as a Python variable. *)
Theorem C56_server_group_refuted : exists code, transpile (env0 Disallow) "makeresults annotate=true splunk_server_group=g1" = Some (Ok code) /\
  contains "F.lit(g1)" code = true.
Proof. eexists. split; vm_compute; reflexivity. Qed.
Print Assumptions C56_server_group_refuted.
(** False: the rows have a column id no query asked for. *)
Theorem C56_extra_column_refuted : text_gives (env0 Disallow) small_spark (only_main []) "makeresults | table id" (OFrame None [[("id", SInt 0)]]).
Proof. by_running. Qed.
Print Assumptions C56_extra_column_refuted.
Example C56_ex : exists m, parsed "makeresults count=3 annotate=true" = [CMakeResults m] /\ mr_count m = 3%Z /\ plain_between dquote (mr_server m) = true /\ mr_server_group m = None.
Proof. eexists. split; [ vm_compute; reflexivity | ]. repeat split; vm_compute; reflexivity. Qed.

(** C57: spath stores in every row the value at the path in the input field's JSON text, in
    the output field, by default named like the path. *)
Theorem C57_spath : forall env sp db, env_rt env = Disallow -> walks_sets env ->
  forall p rows c out, covered sp db p rows -> plain_name_text (sp_input c) = true -> plain_between dquote (sp_path c) = true ->
  out = match sp_output c with Some o => o | None => sp_path c end -> plain_name_text out = true ->
  gives env sp db (p ++ [CSPath c]) (OFrame None (map (fun r => set_cell out
    (sp_fn sp "get_json_object" [AVal (cell (sp_input c) r); ALit (SStr ("$." ++ sp_path c))]) r) rows)).
Proof. exact spath_gives. Qed.
Print Assumptions C57_spath.
Example C57_ex : exists c, parsed "spath input=body output=v path=a.b" = [CSPath c] /\ sp_input c = "body" /\ sp_path c = "a.b" /\ sp_output c = Some "v".
Proof. eexists. split; [ vm_compute; reflexivity | ]. repeat split; vm_compute; reflexivity. Qed.
