(** Facts: function names with a dot are copied, whatever they are. *)
From Coq Require Import Lia.
From Verif Require Import Str SplAst PyAst Functions Transpile Render Commands SpecPipe PipeFacts AllowFacts TreeFacts NamesFacts ShapeFacts ScopeFacts
  StatementFacts ComposeFacts SpecPy SpecCol SpecFrame FrameFacts ProgramFacts SpecText SpecSpark SpecRows SpecCommands SpecResult RowFacts ValueFacts
  SearchFacts CommandFacts RunFacts ResultFacts EffectFacts DefectFacts SpecExpr SpecEval DefectMore SpecAfter AfterFacts TimeFacts.
Open Scope string_scope.
Open Scope list_scope.

Lemma contains_dot : forall m f, contains "." (m ++ "." ++ f) = true.
Proof.
  intros m f. apply contains_split. exists m, ("." ++ f)%string, f. split; reflexivity.
Qed.
Lemma ident_nodot : forall f, py_ident f = true -> has_char "." f = false.
Proof.
  assert (W : forall c, py_word c = true -> Ascii.eqb c "." = false).
  { intros [[] [] [] [] [] [] [] []]; cbn; intro H; first [ reflexivity | discriminate H ]. }
  intros [|c f] H; [ discriminate | ]. cbn [py_ident] in H. apply andb_true_iff in H. destruct H as [H _]. apply andb_true_iff in H. destruct H as [L H].
  assert (A : forall g, sforall py_word g = true -> has_char "." g = false).
  { unfold has_char, sexists. induction g as [|b g IH]; intro G; [ reflexivity | ]. cbn [sforall] in *. apply andb_true_iff in G. destruct G as [Gb G].
    rewrite Ascii.eqb_sym, W by exact Gb. cbn [negb andb]. now apply IH. }
  apply A. cbn [sforall]. unfold py_word at 1. rewrite L. exact H.
Qed.
Lemma split_plain : forall s, has_char "." s = false -> split_on "." s = [s].
Proof.
  unfold has_char, sexists. induction s as [|c s IH]; intro H; [ reflexivity | ]. cbn [sforall split_on] in *. apply negb_false_iff, andb_true_iff in H.
  destruct H as [Hc H]. apply negb_true_iff in Hc. rewrite Hc. rewrite IH by (now rewrite H). reflexivity.
Qed.
Lemma split_dot : forall m f, has_char "." m = false -> has_char "." f = false -> split_on "." (m ++ "." ++ f) = [m; f].
Proof.
  intros m f Hm Hf. induction m as [|c m IH]; [ cbn [append split_on]; rewrite Ascii.eqb_refl; now rewrite split_plain | ].
  unfold has_char, sexists in Hm. cbn [sforall] in Hm. apply negb_false_iff, andb_true_iff in Hm. destruct Hm as [Hc Hm]. apply negb_true_iff in Hc.
  change ((String c m ++ "." ++ f)%string) with (String c (m ++ "." ++ f)). cbn [split_on]. rewrite Hc. rewrite IH; [ reflexivity | ]. unfold has_char, sexists. now rewrite Hm.
Qed.
Lemma dot_not_known : forall g l, contains "." g = true -> forallb (fun k => negb (contains "." k)) l = true -> ~ In g l.
Proof. intros g l D F I. rewrite forallb_forall in F. specialize (F g I). rewrite D in F. discriminate F. Qed.
Lemma dotted_copied : forall env o m f xs n by_ keys, env_rt env = Disallow -> py_ident m = true -> py_ident f = true ->
  prefix "exactperc" (m ++ "." ++ f) = false -> prefix "percentile" (m ++ "." ++ f) = false -> prefix "upperperc" (m ++ "." ++ f) = false ->
  Forall (fun x => plain_name_text x = true) xs -> plain_name_text n = true ->
  by_names by_ = Some keys -> Forall (fun k => plain_between dquote k = true) keys ->
  exists code, render_pyspark env [CStats o [EAlias (ECall (m ++ "." ++ f) (map (fun x => ELeaf (LConstant (KField x))) xs)) n] by_] = Ok code /\
    python_program code [] (py_method (py_method (py_table "main") "groupBy" [PList (map PStr keys)]) "agg"
      [py_method (PCall (PAttr (PName m) f) (map (fun x => py_F "col" [PStr x]) xs) []) "alias" [PStr n]]).
Proof.
  intros env o m f xs n by_ keys R Hm Hf P1 P2 P3 HX HN B HK.
  set (g := (m ++ "." ++ f)%string) in *. assert (D : contains "." g = true) by apply contains_dot.
  set (c := CFunctionCall g (map (fun x => PCol (CNamed x)) xs)).
  assert (T : forall d, transform_stats_expr Disallow d (EAlias (ECall g (map (fun x => ELeaf (LConstant (KField x))) xs)) n) = Ok (d, CAliased (PCol c) n)).
  { intro d. unfold transform_stats_expr, stats_fn. cbn [expr_unaliased_with_name fst snd]. rewrite no_aggregation; auto.
    - rewrite field_args. reflexivity.
    - apply (dot_not_known g); [ exact D | vm_compute; reflexivity ]. }
  set (d := DAggregation (DGroupBy (DSource "main") (map CNName keys)) [CAliased (PCol c) n]).
  exists (code_to_string (render_df d)). split.
  - unfold render_pyspark, transform_pipeline. cbn [run_commands transform_command]. rewrite R. cbn [select_rt]. unfold t_stats_standalone. cbn [transform_stats_exprs].
    unfold bind, lift, ret. rewrite T. cbn [rbind d_or_default]. rewrite (by_columns_names by_ keys B). reflexivity.
  - assert (C : plain_col (CAliased (PCol c) n) = true).
    { unfold c. cbn [plain_col plain_pexpr receiver]. rewrite D. unfold g. rewrite (split_dot m f (ident_nodot m Hm) (ident_nodot f Hf)). cbn [forallb].
      rewrite Hm, Hf, HN. cbn [andb]. rewrite andb_true_r. clear - HX. induction HX as [|x xs H HX IH]; [ reflexivity | ]. cbn. now rewrite H, IH. }
    apply read_program_iff.
    + unfold d. cbn [plain_df nonempty forallb]. rewrite C. cbn [andb]. rewrite !andb_true_r.
      clear - HK. induction HK as [|k keys H HK IH]; [ reflexivity | ]. cbn [map forallb plain_con]. rewrite H. exact IH.
    + unfold d. cbn [df_prog fst snd map col_tree pexpr_tree]. unfold c. cbn [col_tree]. rewrite D. unfold py_path, g.
      rewrite (split_dot m f (ident_nodot m Hm) (ident_nodot f Hf)). cbn [fold_left]. rewrite !map_map. reflexivity.
Qed.
Lemma convert_unchanged : forall fmt l, (forall k, In k (map fst l) -> contains k fmt = false) -> convert_time_go l fmt = Ok fmt.
Proof.
  induction l as [|[k r] l IH]; intro H; [ reflexivity | ]. cbn [convert_time_go map fst] in *. rewrite (H k (or_introl eq_refl)). apply IH. intros k' I. apply H. now right.
Qed.
Lemma unknown_kept : forall fmt, contains "%%" fmt = false -> (forall d, In d SpecTime.directives -> contains ("%" ++ d) fmt = false) -> convert_time_format fmt = Ok fmt.
Proof.
  intros fmt P D. apply convert_unchanged. intros k I.
  assert (E : k = "%%" \/ exists d, In d SpecTime.directives /\ k = ("%" ++ d)%string).
  { assert (F : forallb (fun k => String.eqb k "%%" || existsb (fun d => String.eqb k ("%" ++ d)) SpecTime.directives) (map fst CONVERSIONS) = true) by (vm_compute; reflexivity).
    rewrite forallb_forall in F. specialize (F k I). apply orb_true_iff in F. destruct F as [F|F]; [ left; now apply String.eqb_eq | right ].
    apply existsb_exists in F. destruct F as (d & Hd & E). exists d. split; [ exact Hd | now apply String.eqb_eq ]. }
  destruct E as [-> | (d & Hd & ->)]; auto.
Qed.
