(** What is ignored, copied or added, for every use: C40, C41, C50, C56 and C76 are false not
    in special cases only. *)
From Coq Require Import Ascii String List ZArith.
Import ListNotations.
From Verif Require Import Str SplAst PyAst Functions Transpile Commands CmdParser Api SpecExpr SpecFrame SpecCol SpecSpark SpecRows SpecCommands
  SpecText SpecResult SpecPy SpecSpell CodeFacts ProgramFacts NameFacts ExprFacts EvalFacts MoreDefects TailText.
Open Scope string_scope.
Open Scope list_scope.

(** C76: the name of an index is copied into the program as it is written, so that every
    piece of code without star and at sign, its double quotes after backslashes, can be made
    part of the program. *)
Theorem C76_index_copied_refuted : forall env code, env_rt env = Disallow -> walks_sets env ->
  all_chars (fun c => c <> "*"%char /\ c <> "@"%char) code -> well_quoted false code ->
  transpile env ("search index=" ++ in_quotes ("a').join(" ++ code ++ ").where('x"))%string = Some (Ok ("spark.table('a').join(" ++ code ++ ").where('x')")%string).
Proof. exact index_runs. Qed.
Print Assumptions C76_index_copied_refuted.
Example C76_index_ex : all_chars (fun c => c <> "*"%char /\ c <> "@"%char) "spark.stop()" /\ well_quoted false "spark.stop()".
Proof. split; [ | ]; cbn; repeat split; discriminate. Qed.

(** C41: top and rare with BY give the same program whatever fields they list. *)
Theorem C41_top_by_ignores_fields_refuted : forall env p q c c' by_, tr_by c = Some by_ -> tr_by c' = Some by_ -> tr_n c = tr_n c' ->
  tr_count_field c = tr_count_field c' -> tr_percent_field c = tr_percent_field c' -> tr_show_percent c = tr_show_percent c' -> tr_use_other c = tr_use_other c' ->
  render_pyspark env (p ++ CTop c :: q) = render_pyspark env (p ++ CTop c' :: q) /\
  render_pyspark env (p ++ CRare c :: q) = render_pyspark env (p ++ CRare c' :: q).
Proof. exact top_by_alike. Qed.
Print Assumptions C41_top_by_ignores_fields_refuted.
Example C41_by_ex : exists c c' w, parsed "top 5 x by z | where z=1" = [CTop c; w] /\ parsed "top 5 u, v by z | where z=1" = [CTop c'; w] /\
  tr_fields c = ["x"] /\ tr_fields c' = ["u"; "v"] /\ tr_by c = Some ["z"] /\ tr_by c' = Some ["z"] /\ tr_n c = tr_n c'.
Proof. eexists _, _, _. split; [ vm_compute; reflexivity | ]. split; [ vm_compute; reflexivity | ]. repeat split; reflexivity. Qed.

(** C40: earliest_time and latest_time give the same program whatever fields they are of. *)
Theorem C40_earliest_time_ignores_its_field_refuted : forall env p q o f xs ys by_, env_rt env = Disallow -> f = "earliest_time" \/ f = "latest_time" ->
  render_pyspark env (p ++ CStats o [ECall f (map (fun x => ELeaf (LConstant (KField x))) xs)] by_ :: q) =
  render_pyspark env (p ++ CStats o [ECall f (map (fun x => ELeaf (LConstant (KField x))) ys)] by_ :: q).
Proof. exact time_alike. Qed.
Print Assumptions C40_earliest_time_ignores_its_field_refuted.
Example C40_time_ex : exists o by_, parsed "where a=1 | stats latest_time(x) by u" =
  parsed "where a=1" ++ [CStats o [ECall "latest_time" (map (fun x => ELeaf (LConstant (KField x))) ["x"])] by_].
Proof. eexists _, _. vm_compute. reflexivity. Qed.

(** C56: every row of makeresults has a column id no query asked for. *)
Theorem C56_rows_have_id_refuted : forall env sp db m, env_rt env = Disallow -> walks_sets env ->
  (0 <= mr_count m)%Z -> plain_between dquote (mr_server m) = true -> mr_server_group m = None ->
  exists rows, gives env sp db [CMakeResults m] (OFrame None rows) /\ length rows = Z.to_nat (mr_count m) /\ Forall (fun r => In "id" (map fst r)) rows.
Proof. exact made_id. Qed.
Print Assumptions C56_rows_have_id_refuted.
Example C56_id_ex : exists m, parsed "makeresults count=7" = [CMakeResults m] /\ mr_count m = 7%Z /\ plain_between dquote (mr_server m) = true /\ mr_server_group m = None.
Proof. eexists. split; [ vm_compute; reflexivity | ]. repeat split; vm_compute; reflexivity. Qed.

(** C50: every negative number after tail, in any case and layout, becomes a number near 2^64. *)
Theorem C50_negative_counts_of_tail_refuted : forall env w b n, env_rt env <> Require -> same_word w "tail" -> blanks b -> (- 2 ^ 63 < n < 0)%Z ->
  transpile env (w ++ b ++ decimal n)%string = Some (Ok ("spark.table('main').tail(" ++ dec (2 ^ 64 + n) ++ ")")%string).
Proof. exact tail_minus_code. Qed.
Print Assumptions C50_negative_counts_of_tail_refuted.
Example C50_tail_ex : same_word "Tail" "tail" /\ blanks "  " /\ decimal (-12) = "-12".
Proof. split; [ now apply same_word_lower | ]. split; [ split; [ discriminate | cbn; unfold white; cbn; tauto ] | vm_compute; reflexivity ]. Qed.
