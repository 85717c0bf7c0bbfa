(** Facts: what is ignored and what is copied, for every use. *)
From Coq Require Import Lia Permutation.
From Verif Require Import Str SplAst PyAst Functions Transpile Render Commands Nom Lexer Parser CmdParser Api PipeFacts SpecPy SpecCol SpecFrame SpecText SpecExpr ExprFacts EvalFacts
  SpecSpark SpecRows SpecCommands SpecResult CommandFacts ResultFacts EffectFacts SpecWhere DefectFacts DefectMore SpecAfter CodeFacts AfterFacts.
Open Scope list_scope.

(** ** The name of an index *)
Definition one_index (s : string) : Expr := EBinary (ELeaf (LConstant (KField "index"))) "=" (ELeaf (LConstant (KStr s))).
Lemma index_read : forall s, plain_string s -> parse ("search index=" ++ in_quotes s) = Some (Ok [CSearch (one_index s)]).
Proof.
  intros s P. assert (Hi : field_name "index") by now apply field_by.
  assert (Wf : wf (TBin OEq (TField "index") (TStr s))) by (cbn [wf]; auto).
  exact (parse_search1 _ ("index" ++ "=" ++ in_quotes s)%string Wf (cmp_written "index" CEq (TStr s) (in_quotes s) Hi P (W_str s) 9 ltac:(lia) ltac:(lia))).
Qed.
Lemma index_copied : forall env s, env_rt env = Disallow -> walks_sets env -> plain_string s ->
  transpile env ("search index=" ++ in_quotes s) = Some (Ok ("spark.table('" ++ s ++ "')")%string).
Proof.
  intros env s R W P. unfold transpile. rewrite (index_read s P). cbn [option_map rbind]. unfold render_pyspark, transform_pipeline.
  cbn [run_commands transform_command]. rewrite R. cbn [select_rt]. unfold bind, t_search_standalone, lift, bind, ret, hash_iter, one_index.
  cbn [split_conditions is_index]. cbn. unfold set_insert. cbn.
  rewrite (Permutation_length_1_inv (W 0 [s])). cbn. unfold code_to_string. cbn. reflexivity.
Qed.
Lemma index_runs : forall env code, env_rt env = Disallow -> walks_sets env ->
  all_chars (fun c => c <> "*"%char /\ c <> "@"%char) code -> well_quoted false code ->
  transpile env ("search index=" ++ in_quotes ("a').join(" ++ code ++ ").where('x"))%string = Some (Ok ("spark.table('a').join(" ++ code ++ ").where('x')")%string).
Proof.
  intros env s R W P Q. rewrite index_copied; auto.
  - do 2 f_equal. cbn [append]. rewrite ?ParserFacts.append_assoc_s. reflexivity.
  - split; [ cbn; unfold white; cbn; lia | ]. split.
    + apply all_chars_app. split; [ cbn; repeat split; discriminate | ]. apply all_chars_app. split; [ exact P | cbn; repeat split; discriminate ].
    + apply well_quoted_app; [ cbn; repeat split; discriminate | ]. apply well_quoted_app; [ exact Q | cbn; repeat split; discriminate ].
Qed.

(** ** Fields that are ignored *)
Lemma top_by_alike : forall env p q c c' by_, tr_by c = Some by_ -> tr_by c' = Some by_ -> tr_n c = tr_n c' -> tr_count_field c = tr_count_field c' ->
  tr_percent_field c = tr_percent_field c' -> tr_show_percent c = tr_show_percent c' -> tr_use_other c = tr_use_other c' ->
  render_pyspark env (p ++ CTop c :: q) = render_pyspark env (p ++ CTop c' :: q) /\
  render_pyspark env (p ++ CRare c :: q) = render_pyspark env (p ++ CRare c' :: q).
Proof.
  intros env p q c c' by_ B B' N C P S U.
  assert (E : forall dir s, t_toprare dir c s = t_toprare dir c' s).
  { intros dir s. unfold t_toprare. now rewrite B, B', N, C, P, S, U. }
  split; apply alike; intros s st; cbn [transform_command]; now rewrite E.
Qed.
Lemma time_alike : forall env p q o f xs ys by_, env_rt env = Disallow -> f = "earliest_time"%string \/ f = "latest_time"%string ->
  render_pyspark env (p ++ CStats o [ECall f (map (fun x => ELeaf (LConstant (KField x))) xs)] by_ :: q) =
  render_pyspark env (p ++ CStats o [ECall f (map (fun x => ELeaf (LConstant (KField x))) ys)] by_ :: q).
Proof.
  intros env p q o f xs ys by_ R F. apply alike. intros s st. cbn [transform_command]. rewrite R. cbn [select_rt].
  assert (E : forall d zs, transform_stats_expr Disallow d (ECall f (map (fun x => ELeaf (LConstant (KField x))) zs))
    = Ok (d, CAliased (PCol (c_func (if String.eqb f "earliest_time" then "min" else "max") [pcol "_time"])) f)).
  { intros d zs. unfold transform_stats_expr, stats_fn. cbn [expr_unaliased_with_name fst snd].
    destruct F as [-> | ->]; unfold stats_fn_bare; cbn [existsb stats_unsupported String.eqb Ascii.eqb Bool.eqb orb];
    cbn -[map_args with_args map]; unfold ft_map; rewrite field_args; reflexivity. }
  unfold t_stats_standalone. cbn [transform_stats_exprs]. now rewrite !E.
Qed.
Lemma made_id : forall env sp db m, env_rt env = Disallow -> walks_sets env -> (0 <= mr_count m)%Z -> plain_between dquote (mr_server m) = true -> mr_server_group m = None ->
  exists rows, gives env sp db [CMakeResults m] (OFrame None rows) /\ length rows = Z.to_nat (mr_count m) /\ Forall (fun r => In "id"%string (map fst r)) rows.
Proof.
  intros env sp db m R W N S G. exists (made_rows sp m). split; [ now apply made_gives | ]. split; [ apply made_length | ].
  apply Forall_forall. intros r I. apply in_map_iff in I. destruct I as (i & <- & _). now left.
Qed.
