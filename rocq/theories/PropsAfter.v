(** What follows a command whose result cannot be used: C29, C40, C41, C48, C50 and C59 are
    false for every continuation.  See SpecAfter.v for [stuck] and SpecResult.v for [covered]. *)
From Coq Require Import Ascii String List ZArith.
Import ListNotations.
From Verif Require Import Str SplAst PyAst Render Functions Commands CmdParser Api SpecPipe SpecPy SpecExpr SpecFrame SpecCol SpecSpark SpecRows SpecCommands
  SpecText SpecResult SpecEval SpecCall SpecAfter ResultFacts DefectMore CallMore AfterFacts.
Open Scope string_scope.
Open Scope list_scope.

(** C50: tail yields a list of rows, not a frame.  Whatever commands follow it, as long as
    none starts over and they change the program at all, the program cannot be run. *)
Theorem C50_nothing_after_tail_refuted : forall env sp db, env_rt env = Disallow -> walks_sets env ->
  forall p rows n q t d, covered sp db p rows -> (0 <= n)%Z -> (forall c, In c q -> ~ starts_over c) ->
  transform_pipeline env (p ++ [CTail n]) = Ok (Some t) -> transform_pipeline env (p ++ CTail n :: q) = Ok (Some d) -> plain_df d = true -> d <> t ->
  forall cmds x, ~ computes sp db cmds (code_to_string (render_df d)) x.
Proof. exact after_tail. Qed.
Print Assumptions C50_nothing_after_tail_refuted.
Example C50_after_ex : exists t d, transform_pipeline (env0 Disallow) (parsed "tail 5") = Ok (Some t) /\
  transform_pipeline (env0 Disallow) (parsed "tail 5 | where x=1 | stats count by y") = Ok (Some d) /\ plain_df d = true /\ d <> t /\
  (exists a b, parsed "tail 5 | where x=1 | stats count by y" = CTail 5 :: [a; b] /\ ~ starts_over a /\ ~ starts_over b).
Proof.
  eexists _, _. split; [ vm_compute; reflexivity | ]. split; [ vm_compute; reflexivity | ]. split; [ vm_compute; reflexivity | ].
  split; [ discriminate | ]. eexists _, _. split; [ vm_compute; reflexivity | ]. split; intro H; exact H.
Qed.

(** C41: nor does anything make top and rare run. *)
Theorem C41_nothing_after_top_refuted : forall env sp db, env_rt env = Disallow -> walks_sets env ->
  forall p rows c command, covered sp db p rows -> rows <> [] -> command = CTop c \/ command = CRare c -> tr_use_other c = false ->
  Forall (fun f => plain_between dquote f = true) (match tr_by c with Some l => l | None => tr_fields c end) ->
  plain_name_text (tr_count_field c) = true -> plain_name_text (tr_percent_field c) = true -> stuck env sp db p command.
Proof. exact ranked_stuck. Qed.
Print Assumptions C41_nothing_after_top_refuted.
Example C41_after_ex : exists c d w, parsed "top 5 x | where count > 3" = [CTop c; w] /\ tr_use_other c = false /\ ~ starts_over w /\
  transform_pipeline (env0 Disallow) [CTop c; w] = Ok (Some d) /\ plain_df d = true.
Proof.
  eexists _, _, _. split; [ vm_compute; reflexivity | ]. split; [ reflexivity | ]. split; [ intro H; exact H | ].
  split; [ vm_compute; reflexivity | ]. vm_compute. reflexivity.
Qed.

(** C40: range, with AS or without, grouped by any fields, cannot be run on any rows, and
    neither can what follows it. *)
Theorem C40_range_fails_refuted : forall env sp db, env_rt env = Disallow -> walks_sets env ->
  forall p rows o e x n by_ keys, covered sp db p rows -> rows <> [] ->
  by_names by_ = Some keys -> Forall (fun k => plain_between dquote k = true) keys -> plain_name_text x = true ->
  (e = ECall "range" [ELeaf (LConstant (KField x))] \/ (e = EAlias (ECall "range" [ELeaf (LConstant (KField x))]) n /\ plain_name_text n = true)) ->
  stuck env sp db p (CStats o [e] by_).
Proof. exact range_stuck. Qed.
Print Assumptions C40_range_fails_refuted.
Example C40_range_fails_ex : exists o by_ w d, parsed "stats range(x) as r by host, user | where r > 3" =
    [CStats o [EAlias (ECall "range" [ELeaf (LConstant (KField "x"))]) "r"] by_; w] /\ by_names by_ = Some ["host"; "user"] /\
  transform_pipeline (env0 Disallow) (parsed "stats range(x) as r by host, user | where r > 3") = Ok (Some d) /\ plain_df d = true.
Proof. eexists _, _, _, _. split; [ vm_compute; reflexivity | ]. split; [ reflexivity | ]. split; [ vm_compute; reflexivity | ]. vm_compute. reflexivity. Qed.

(** C40: a name that is no aggregation is called all the same, by any name that SpecSpark
    knows no aggregate function by. *)
Theorem C40_unknown_aggregations_fail_refuted : forall env sp db, env_rt env = Disallow -> walks_sets env ->
  forall p rows o e f xs n by_ keys, covered sp db p rows -> rows <> [] ->
  by_names by_ = Some keys -> Forall (fun k => plain_between dquote k = true) keys -> Forall (fun x => plain_name_text x = true) xs ->
  py_ident f = true -> contains "." f = false -> ~ In f (untranslated_aggregations ++ map fst aggregation_counts ++ ["earliest_time"; "latest_time"]) ->
  prefix "exactperc" f = false -> prefix "percentile" f = false -> prefix "upperperc" f = false -> ~ In f aggregate_functions ->
  (e = ECall f (map (fun x => ELeaf (LConstant (KField x))) xs) \/
   (e = EAlias (ECall f (map (fun x => ELeaf (LConstant (KField x))) xs)) n /\ plain_name_text n = true)) ->
  stuck env sp db p (CStats o [e] by_).
Proof. exact unknown_stuck. Qed.
Print Assumptions C40_unknown_aggregations_fail_refuted.
Example C40_unknown_ex : exists o by_, parsed "stats perc95(x) by host" = [CStats o [ECall "perc95" (map (fun x => ELeaf (LConstant (KField x))) ["x"])] by_] /\
  by_names by_ = Some ["host"] /\ py_ident "perc95" = true /\ contains "." "perc95" = false /\
  str_in "perc95" (untranslated_aggregations ++ map fst aggregation_counts ++ ["earliest_time"; "latest_time"] ++ aggregate_functions) = false /\
  prefix "exactperc" "perc95" = false /\ prefix "percentile" "perc95" = false /\ prefix "upperperc" "perc95" = false.
Proof. eexists _, _. split; [ vm_compute; reflexivity | ]. repeat split; vm_compute; reflexivity. Qed.

(** C59: the sum of eval is an aggregate, so that the program cannot be run, whatever the
    field, the name and the rows. *)
Theorem C59_sum_fails_refuted : forall env sp db, env_rt env = Disallow -> walks_sets env ->
  forall p rows x y, covered sp db p rows -> rows <> [] -> plain_name_text x = true -> plain_name_text y = true ->
  stuck env sp db p (CEval [(y, ECall "sum" [ELeaf (LConstant (KField x))])]).
Proof. exact sum_stuck. Qed.
Print Assumptions C59_sum_fails_refuted.
Example C59_sum_fails_ex : exists w d, parsed "eval y=sum(x) | where y > 3" = [CEval [("y", ECall "sum" [ELeaf (LConstant (KField "x"))])]; w] /\ ~ starts_over w /\
  transform_pipeline (env0 Disallow) (parsed "eval y=sum(x) | where y > 3") = Ok (Some d) /\ plain_df d = true.
Proof. eexists _, _. split; [ vm_compute; reflexivity | ]. split; [ intro H; exact H | ]. split; [ vm_compute; reflexivity | ]. vm_compute. reflexivity. Qed.

(** C48, C29: a command that gives a keyword twice or one named df, and every datamodel, is
    turned into a call of the library that Python refuses, whatever comes before it and goes
    on after it.  See SpecCall.v for [well_named] and [binds]. *)
Theorem C48_clashing_names_refuted : forall env p c q d, handed_over (env_rt env) c -> ~ well_named c ->
  (forall c, In c q -> ~ starts_over c) -> transform_pipeline env (p ++ c :: q) = Ok (Some d) ->
  exists name source f args kwargs, In (DRuntime name source f args kwargs) (frames d) /\ ~ binds f (1 + length args) (map fst kwargs).
Proof. exact clash. Qed.
Print Assumptions C48_clashing_names_refuted.
Example C48_clashing_ex : exists l w d, parsed "eval x=1, y=2, x=y | where x=2" = [CEval l; w] /\ handed_over Allow (CEval l) /\ ~ well_named (CEval l) /\ ~ starts_over w /\
  transform_pipeline (env0 Allow) (parsed "eval x=1, y=2, x=y | where x=2") = Ok (Some d).
Proof.
  eexists _, _, _. split; [ vm_compute; reflexivity | ]. split; [ discriminate | ]. split.
  - intros [_ W]. destruct (W _ (KW_eval _)) as [ND _]. inversion ND as [|? ? N _]; subst. apply N. right. now left.
  - split; [ intro H; exact H | vm_compute; reflexivity ].
Qed.
Example C29_clashing_ex : exists e d, parsed "search x=1 x=2" = [CSearch e] /\ handed_over Require (CSearch e) /\ ~ well_named (CSearch e) /\
  transform_pipeline (env0 Require) (parsed "search x=1 x=2") = Ok (Some d).
Proof.
  eexists _, _. split; [ vm_compute; reflexivity | ]. split; [ reflexivity | ]. split; [ | vm_compute; reflexivity ].
  intros [_ W]. assert (K : keywords (CSearch (EBinary (EBinary (ELeaf (LConstant (KField "x"))) "=" (ELeaf (LConstant (KInt 1)))) "AND"
    (EBinary (ELeaf (LConstant (KField "x"))) "=" (ELeaf (LConstant (KInt 2)))))) ["x"; "x"]).
  { refine (KW_search _ [Some "x"; Some "x"] _). repeat constructor; cbn; intuition discriminate. }
  destruct (W _ K) as [ND _]. inversion ND as [|? ? N _]; subst. apply N. now left.
Qed.
