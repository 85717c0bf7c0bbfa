(** Facts: commands whose translation never does what they ask for. *)
From Verif Require Import Str SplAst PyAst Functions Transpile Render Commands Nom Lexer Parser CmdParser Api PipeFacts SpecPy SpecCol SpecFrame
  FrameFacts ProgramFacts SpecText SpecExpr ExprFacts LogicFacts EvalFacts SpecSpark SpecRows SpecCommands SpecResult SpecEffect RowFacts ValueFacts
  SearchFacts CommandFacts RunFacts ResultFacts EffectFacts SpecSpell SpecWhere.
Open Scope list_scope.

Section Defects.
  Variable env : Env.
  Variable sp : Spark.
  Variable db : string -> option Table.
  Hypothesis Rt : env_rt env = Disallow.
  Hypothesis Sets : walks_sets env.
  Notation covered := (covered sp db).
  Notation gives := (gives env sp db).

  (** ** lookup *)
  Lemma traverse_all : forall {A B} (f : A -> res B) l, Forall (fun a => exists b, f a = Ok b) l -> exists bs, rtraverse f l = Ok bs.
  Proof.
    intros A B f l H. induction H as [|a l (b & E) _ (bs & IH)]; [ now exists [] | ]. exists (b :: bs). rewrite rtraverse_cons, E, IH. reflexivity.
  Qed.
  Lemma lookup_gives : forall p rows table fields output, covered p rows ->
    Forall (fun f => exists n, f = FLField n \/ exists a, f = FLAliasedField n a) fields ->
    match output with
    | None => True
    | Some (keyword, columns) => upper keyword = "OUTPUT"%string /\ Forall (fun f => exists n, f = FLField n \/ exists a, f = FLAliasedField n a) columns
    end -> gives (p ++ [CLookup table fields output]) (OFrame (Some "main"%string) rows).
  Proof.
    intros p rows table fields output C F O.
    assert (L : forall s, exists d, lookup_result table fields output s = Ok d).
    { intro s. unfold lookup_result.
      destruct (traverse_all lookup_join_column fields) as (cs & ->).
      { eapply Forall_impl; [ | exact F ]. intros f (n & [-> | (a & ->)]); cbn; eauto. }
      cbn [rbind]. destruct output as [[kw cols]|]; [ | eexists; reflexivity ].
      destruct O as [-> Fo]. change (String.eqb "OUTPUT" "OUTPUT") with true. cbv iota.
      destruct (traverse_all lookup_output_column cols) as (os & ->).
      { eapply Forall_impl; [ | exact Fo ]. intros f (n & [-> | (a & ->)]); cbn; eauto. }
      eexists. reflexivity. }
    apply (command_obj env sp db Rt Sets p rows (CLookup table fields output) (fun s => DAlias (d_or_default s) "main")); [ exact C | | ].
    - intros s st. cbn [transform_command]. rewrite Rt. unfold t_lookup. destruct (L s) as (d & ->). reflexivity.
    - intros cmds s D. now apply alias_sem.
  Qed.

  (** ** top and rare *)
  Lemma fv_dead : forall cmds t m args k, (forall x, t <> PName x) -> fv sp db cmds [] t = None -> fv sp db cmds [] (PCall (PAttr t m) args k) = None.
  Proof. intros cmds t m args k N E. cbn [SpecSpark.fv]. destruct t as [n| | | | | | | |]; try (now rewrite E). now destruct (N n). Qed.
  Lemma first_key : forall keys r rows, exists k l, distinct_keys [] (map (key_of keys) (r :: rows)) = k :: l.
  Proof. intros keys r rows. cbn [map distinct_keys existsb]. eauto. Qed.
  Lemma count_nothing : forall keys rows n, rows <> [] ->
    aggregate sp keys rows [py_method (py_F "count" []) "alias" [PStr n]] = None.
  Proof.
    intros keys rows n N. unfold aggregate, py_method. cbn [map all_some out_name]. change (String.eqb "alias" "alias") with true. cbv iota.
    cbn [option_map unalias]. change (String.eqb "alias" "alias") with true. cbv iota zeta.
    destruct rows as [|r rows]; [ congruence | ].
    assert (G : exists k l, match keys with [] => [[]] | _ => distinct_keys [] (map (key_of keys) (r :: rows)) end = k :: l).
    { destruct keys as [|x keys]; [ eauto | apply first_key ]. }
    destruct G as (k & l & ->). reflexivity.
  Qed.
  Definition dead (cmds : string -> option Obj -> list Py -> list (string * Py) -> option Obj) (d : DataFrame) : Prop :=
    plain_df d = true /\ fst (df_prog d) = [] /\ (forall x, snd (df_prog d) <> PName x) /\ fv sp db cmds [] (snd (df_prog d)) = None.
  Lemma dead_step : forall cmds d d' m args, dead cmds d -> plain_df d' = true -> df_prog d' = (fst (df_prog d), py_method (snd (df_prog d)) m args) -> dead cmds d'.
  Proof.
    intros cmds d d' m args (P & A & N & F) P' E. unfold dead. rewrite E. cbn [fst snd]. split; [ exact P' | split; [ exact A | split; [ discriminate | ] ] ].
    now apply fv_dead.
  Qed.
  Lemma ranked_dead : forall cmds dir c s rows, tr_use_other c = false -> rows <> [] ->
    forallb (plain_between dquote) (match tr_by c with Some l => l | None => tr_fields c end) = true ->
    plain_name_text (tr_count_field c) = true -> plain_name_text (tr_percent_field c) = true -> In dir ["asc"; "desc"]%string ->
    frame_sem sp db cmds [] [] true (d_or_default s) rows -> exists d, t_toprare dir c s = Ok d /\ dead cmds d.
  Proof.
    intros cmds dir c s rows U N PK PC PP Dir D. unfold t_toprare. rewrite U. cbn [negb ensure rbind]. cbv zeta. eexists. split; [ reflexivity | ].
    set (keys := match tr_by c with Some l => l | None => tr_fields c end) in *.
    set (g := DGroupBy (d_or_default s) (map CNName keys)).
    assert (G : obj_sem sp db cmds [] [] true g (OGrouped keys rows)).
    { eapply (step_sem sp db cmds [] [] true (d_or_default s)); [ exact D | | reflexivity | reflexivity | ].
      - change (plain_df (d_or_default s) && forallb plain_con (map CNName keys) = true). rewrite (proj1 D). cbn [andb].
        revert PK. clear. induction keys as [|k keys IH]; [ reflexivity | ]. cbn [map forallb plain_con]. intro H. apply andb_true_iff in H. destruct H as [-> H]. now apply IH.
      - cbn [SpecSpark.frame_method]. cbn [String.eqb Ascii.eqb Bool.eqb]. cbv iota.
        now rewrite names_items. }
    set (a := DAggregation g _).
    assert (A : dead cmds a).
    { destruct G as (P & _ & X & K & F). unfold dead, a. cbn [df_prog fst snd]. split; [ | split; [ exact X | split; [ discriminate | ] ] ].
      - cbn [plain_df]. rewrite P. cbn. now rewrite PC.
      - change (map col_tree _) with [py_method (py_F "count" []) "alias" [PStr (tr_count_field c)]].
        rewrite (fv_method sp db cmds [] _ _ _ _ K F). cbn [SpecSpark.frame_method]. change (String.eqb "agg" "agg") with true. cbv iota.
        now rewrite count_nothing. }
    set (w := if tr_show_percent c then _ else a).
    assert (W : dead cmds w).
    { unfold w. destruct (tr_show_percent c); [ | exact A ]. unfold d_with_column.
      eapply (dead_step cmds a); [ exact A | | reflexivity ]. cbn [plain_df]. rewrite (proj1 A), PP. reflexivity. }
    assert (O : dead cmds (DOrderBy w [c_method (pcol "count") dir []])).
    { eapply (dead_step cmds w); [ exact W | | reflexivity ]. cbn [plain_df]. rewrite (proj1 W). destruct Dir as [<-|[<-|[]]]; reflexivity. }
    destruct (tr_n c =? 0)%Z; [ exact O | ]. eapply (dead_step cmds (DOrderBy w _)); [ exact O | | reflexivity ]. exact (proj1 O).
  Qed.
  Lemma ranked_fails : forall p rows c k, covered p rows -> rows <> [] -> k = CTop c \/ k = CRare c -> tr_use_other c = false ->
    Forall (fun f => plain_between dquote f = true) (match tr_by c with Some l => l | None => tr_fields c end) ->
    plain_name_text (tr_count_field c) = true -> plain_name_text (tr_percent_field c) = true ->
    exists code, render_pyspark env (p ++ [k]) = Ok code /\ forall cmds x, ~ computes sp db cmds code x.
  Proof.
    intros p rows c k C N K U PK PC PP.
    assert (Q : forallb (plain_between dquote) (match tr_by c with Some l => l | None => tr_fields c end) = true).
    { apply forallb_forall. intros f I. rewrite Forall_forall in PK. now apply PK. }
    assert (T : forall cmds, exists d, transform_pipeline env (p ++ [k]) = Ok (Some d) /\ dead cmds d).
    { intro cmds. destruct (covered_frame env sp db Rt Sets cmds p rows C transform_state0) as (st' & s & E & F).
      assert (X : exists dir, In dir ["asc"; "desc"]%string /\ forall st, transform_command env k s st = (st, rmap (@Some DataFrame) (t_toprare dir c s))).
      { destruct K as [-> | ->]; [ exists "desc"%string | exists "asc"%string ]; (split; [ cbn; auto | ]); intro st; cbn [transform_command]; rewrite Rt;
          cbn [select_rt]; unfold bind, lift, ret; destruct (t_toprare _ c s); reflexivity. }
      destruct X as (dir & I & X). destruct (ranked_dead cmds dir c s rows U N Q PC PP I F) as (d & Ed & Dd). exists d. split; [ | exact Dd ].
      unfold transform_pipeline. rewrite run_commands_app. unfold bind. rewrite E. cbn [run_commands]. unfold bind. rewrite X, Ed. reflexivity. }
    destruct (T no_commands) as (d & E & _). exists (code_to_string (render_df d)). split; [ unfold render_pyspark; now rewrite E | ].
    intros cmds x X. destruct (T cmds) as (d' & E' & (P & A & _ & F)). rewrite E in E'. injection E' as <-.
    apply (plain_computes sp db cmds d x P) in X. rewrite A in X. cbn [exec] in X. congruence.
  Qed.
End Defects.

(** ** bin *)
Lemma bin_code : forall env f x o v u, env_rt env <> Require -> f = FAField x \/ (exists e, f = FAAlias e x) -> bin_span o = Some (mkTimeSpan v u) ->
  render_pyspark env [CBin f o] = Ok ("spark.table('main').withColumn('" ++ x ++ "', F.window(F.col('n'), " ++ dq ++ dec v ++ " " ++ u ++ dq
    ++ "),).withColumn('" ++ x ++ "', F.col('" ++ x ++ ".start'),)")%string.
Proof.
  intros env f x o v u R F B.
  assert (T : transform_pipeline env [CBin f o] =
    Ok (Some (DWithColumn (DWithColumn (DSource "main") x (c_func "window" [pcol "n"; pylit_str (span_text (mkTimeSpan v u))])) x (CNamed (x ++ ".start")%string)))).
  { unfold transform_pipeline. cbn [run_commands transform_command]. unfold bind, t_bin. rewrite B.
    assert (N : foa_name f = x) by (destruct F as [-> | (e & ->)]; reflexivity). rewrite N.
    destruct (env_rt env); try congruence; reflexivity. }
  unfold render_pyspark. rewrite T. cbn [rbind dataframes render_dfs map join].
  unfold span_text, pylit_str. cbn [ts_value ts_scale]. cbn.
  repeat (rewrite ?ParserFacts.append_assoc_s; cbn [append]). reflexivity.
Qed.

(** ** Commands that are translated alike *)
Lemma alike : forall env a b p q, (forall s st, transform_command env a s st = transform_command env b s st) ->
  render_pyspark env (p ++ a :: q) = render_pyspark env (p ++ b :: q).
Proof.
  intros env a b p q H. unfold render_pyspark, transform_pipeline.
  assert (K : forall s st, run_commands (transform_command env) (p ++ a :: q) s st = run_commands (transform_command env) (p ++ b :: q) s st).
  { induction p as [|c p IH]; intros s st; cbn [app run_commands]; unfold bind; [ now rewrite H | ].
    destruct (transform_command env c s st) as [st' [s'| |]]; [ apply IH | reflexivity.. ]. }
  now rewrite K.
Qed.
Lemma fields_minus_alike : forall env l p q, render_pyspark env (p ++ CFields true l :: q) = render_pyspark env (p ++ CFields false l :: q).
Proof. intros. now apply alike. Qed.
Lemma fillnull_alike : forall env v l p q, env_rt env = Disallow ->
  render_pyspark env (p ++ CFillNull v l :: q) = render_pyspark env (p ++ CFillNull v None :: q).
Proof. intros env v l p q R. apply alike. intros s st. cbn [transform_command]. now rewrite R. Qed.

(** ** Negative counts *)
Lemma negative_u64 : forall n, (- 2 ^ 63 <= n < 0)%Z -> as_u64 n = (2 ^ 64 + n)%Z.
Proof. intros n H. unfold as_u64. symmetry. apply Z.mod_unique_pos with (q := (-1)%Z); lia. Qed.
Lemma head_negative : forall env n keeplast null, env_rt env <> Require -> (- 2 ^ 63 <= n < 0)%Z ->
  render_pyspark env [CHead (ELeaf (LConstant (KInt n))) keeplast null] = Ok ("spark.table('main').limit(" ++ dec (2 ^ 64 + n) ++ ",)")%string.
Proof.
  intros env n k z R H. rewrite <- (negative_u64 n H).
  unfold render_pyspark, transform_pipeline. cbn [run_commands transform_command]. unfold bind, t_head. cbn [head_limit rbind].
  generalize (as_u64 n) as m. intro m.
  destruct (env_rt env); try congruence; reflexivity.
Qed.
Lemma sort_negative : forall env n sign x desc, env_rt env <> Require -> (- 2 ^ 63 <= n < 0)%Z -> sign = None \/ sign = Some "+"%string \/ sign = Some "-"%string ->
  exists order, render_pyspark env [CSort [(sign, ELeaf (LConstant (KField x)))] n desc]
    = Ok ("spark.table('main').orderBy(F.col('" ++ x ++ "')." ++ order ++ "(),).limit(" ++ dec (2 ^ 64 + n) ++ ",)")%string.
Proof.
  intros env n sign x desc R H S. rewrite <- (negative_u64 n H). exists (match desc, sign with true, Some "-" => "asc" | true, _ => "desc" | _, Some "-" => "desc" | _, _ => "asc" end)%string.
  unfold render_pyspark, transform_pipeline. cbn [run_commands transform_command]. unfold bind, t_sort.
  destruct (n =? 0)%Z eqn:Z; [ lia | ]. generalize (as_u64 n) as m. intro m.
  destruct (env_rt env); try congruence; destruct S as [-> | [-> | ->]]; destruct desc; cbn;
    repeat (rewrite ?ParserFacts.append_assoc_s; cbn [append]); reflexivity.
Qed.

(** ** Names of the columns of stats *)
Lemma distinct_keys_in : forall l seen k, In k (distinct_keys seen l) -> In k l.
Proof.
  induction l as [|x l IH]; intros seen k H; [ exact H | ]. cbn [distinct_keys] in H.
  destruct (existsb (vals_eqb x) seen); [ right; now apply (IH seen) | ]. destruct H as [-> | H]; [ now left | right; now apply (IH (x :: seen)) ].
Qed.
Lemma all_some_forall : forall {A B} (f : A -> option B) (P : B -> Prop) l out, all_some (map f l) = Some out ->
  (forall a b, In a l -> f a = Some b -> P b) -> Forall P out.
Proof.
  intros A B f P. induction l as [|a l IH]; intros out H F; cbn in H; [ injection H as <-; constructor | ].
  destruct (f a) as [b|] eqn:E; [ | discriminate ]. destruct (all_some (map f l)) as [bs|] eqn:Es; [ | discriminate ].
  injection H as <-. constructor; [ apply (F a); [ now left | exact E ] | ]. apply IH; [ reflexivity | ]. intros x b' Hx. apply F. now right.
Qed.
Lemma named_all : forall {A B} (n : A -> string) (g : A -> option B) l out, all_some (map (fun a => option_map (pair (n a)) (g a)) l) = Some out ->
  map fst out = map n l.
Proof.
  intros A B n g. induction l as [|a l IH]; intros out H; cbn in H; [ injection H as <-; reflexivity | ].
  destruct (g a) as [b|]; [ | discriminate ]. cbn in H.
  destruct (all_some (map (fun a => option_map (pair (n a)) (g a)) l)) as [bs|] eqn:Es; [ | discriminate ].
  injection H as <-. cbn. f_equal. now apply IH.
Qed.
Lemma combine_names : forall (l : list string) (k : list Val), length k = length l -> map fst (combine l k) = l.
Proof. induction l as [|x l IH]; intros [|v k] H; try discriminate; [ reflexivity | ]. cbn. f_equal. apply IH. now injection H. Qed.
Lemma stats_names : forall sp calls by_ keys rows out,
  stats_rows sp (map (fun c => ECall (fst c) (snd c)) calls) by_ rows = Some out -> by_names by_ = Some keys ->
  Forall (fun r => map fst r = keys ++ map fst calls) out.
Proof.
  intros sp calls by_ keys rows out H K. unfold stats_rows in H. rewrite K in H.
  destruct (all_some (map aggregation (map (fun c => ECall (fst c) (snd c)) calls))) as [aggs|] eqn:Ea; [ | discriminate ].
  assert (N : map (fun a => fst (fst a)) aggs = map fst calls).
  { clear - Ea. revert aggs Ea. induction calls as [|[f args] calls IH]; intros aggs H; cbn in H; [ injection H as <-; reflexivity | ].
    destruct (stat_of f) as [g|]; [ | discriminate ]. cbn in H.
    destruct (all_some (map aggregation (map (fun c => ECall (fst c) (snd c)) calls))) as [as'|]; [ | discriminate ].
    injection H as <-. cbn. f_equal. now apply IH. }
  eapply all_some_forall; [ exact H | ]. intros k r Hk E. cbn beta in E.
  match type of E with option_map _ ?x = _ => destruct x as [vs|] eqn:Ev; [ | discriminate ] end.
  injection E as <-. rewrite map_app. f_equal.
  - apply combine_names. destruct keys as [|x keys]; [ destruct Hk as [<- | []]; reflexivity | ].
    apply distinct_keys_in in Hk. apply in_map_iff in Hk. destruct Hk as (r & <- & _). unfold key_of. apply map_length.
  - rewrite <- N. exact (named_all _ _ _ _ Ev).
Qed.
Lemma stats_columns : forall env sp db, env_rt env = Disallow -> walks_sets env ->
  forall p rows o calls by_ keys out, covered sp db p rows ->
  let funcs := map (fun c => ECall (fst c) (snd c)) calls in plain1 (CStats o funcs by_) = true ->
  by_names by_ = Some keys -> stats_rows sp funcs by_ rows = Some out ->
  gives env sp db (p ++ [CStats o funcs by_]) (OFrame None out) /\ Forall (fun r => map fst r = keys ++ map fst calls) out.
Proof.
  intros env sp db R W p rows o calls by_ keys out C funcs P K E. split; [ now apply (stats_gives env sp db R W p rows) | ].
  now apply (stats_names sp calls by_ keys rows).
Qed.

(** ** Boolean constants *)
Lemma bool_code : forall env x b, env_rt env = Disallow ->
  render_pyspark env [CEval [(x, ebool b)]] = Ok ("spark.table('main').withColumn('" ++ x ++ "', F.lit(" ++ (if b then "true" else "false") ++ "),)")%string.
Proof.
  intros env x b R. unfold render_pyspark, transform_pipeline. cbn [run_commands transform_command].
  rewrite R. destruct b; reflexivity.
Qed.
Lemma bool_where : forall env x o b, env_rt env <> Require ->
  render_pyspark env [CWhere (EBinary (ELeaf (LConstant (KField x))) (cmp_text o) (ebool b))]
  = Ok ("spark.table('main').where((F.col('" ++ x ++ "') " ++ written_op o ++ " F.lit(" ++ (if b then "true" else "false") ++ ")),)")%string.
Proof.
  intros env x o b R. unfold render_pyspark, transform_pipeline. cbn [run_commands transform_command].
  unfold bind, t_where. destruct (env_rt env) eqn:E; try congruence; destruct b, o; cbn;
    repeat (rewrite ?ParserFacts.append_assoc_s; cbn [append]); reflexivity.
Qed.

(** ** Words and NOT in where *)
Lemma not_glued : forall w f o v, same_word w "NOT" -> field_name f -> ~ starts_with_not f -> ~ is_time_modifier f -> value_wf v ->
  parse ("where " ++ w ++ f ++ cmp_text o ++ value_text v)
  = Some (Ok [CWhere (EUnary "NOT" (EBinary (ELeaf (LConstant (KField f))) (cmp_text o) (value_meaning v)))]).
Proof.
  intros w f o v Hw Hf Hn Ht Hv.
  assert (S : term_spells (TmCmp f o v) (f ++ cmp_text o ++ value_text v)%string).
  { exact (T_cmp f o v "" "" I I (or_intror Ht)). }
  exact (WhereFacts.glued_not w (TmCmp f o v) _ Hw (conj Hf (conj Hn Hv)) S).
Qed.
Lemma where_word : forall env sp db x o y rows, env_rt env = Disallow -> walks_sets env -> db "main"%string = Some rows ->
  field_name x -> ~ starts_with_not x -> ~ is_time_modifier x -> field_name y -> ~ truth_value y ->
  text_gives env sp db ("where " ++ x ++ cmp_text o ++ y)
    (OFrame None (filter (fun r => match cell x r with SNull => false | v => sp_cmp sp (written_op o) v (SStr y) end) rows)).
Proof.
  intros env sp db x o y rows R W D Hx Hn Ht Hy Hv.
  assert (S : cond_spells [[TmCmp x o (VWord y)]] (x ++ cmp_text o ++ y)%string).
  { apply C_one, G_one. exact (T_cmp x o (VWord y) "" "" I I (or_intror Ht)). }
  assert (Wf : cond_wf [[TmCmp x o (VWord y)]]) by (cbn; repeat split; auto; discriminate).
  assert (Q : cond_quotable [[TmCmp x o (VWord y)]]) by (cbn; tauto).
  assert (K : forall r, In r rows -> cond_known sp r [[TmCmp x o (VWord y)]]) by (intros; cbn; tauto).
  pose proof (where_text env sp db _ _ rows R W Wf S Q D K) as G.
  erewrite filter_ext; [ exact G | ]. intro r. unfold cond_true, cond_truth. cbn [map term_truth written_value].
  destruct (cell x r); try reflexivity; cbn; destruct (sp_cmp sp (written_op o) _ (SStr y)); reflexivity.
Qed.
Lemma between_empty : forall f m, field_name f -> ~ starts_with_not f -> ~ is_time_modifier f -> well_quoted false m -> all_chars (fun c => c <> "*"%char) m ->
  parse ("where " ++ f ++ "=" ++ in_quotes "" ++ m ++ in_quotes "") = Some (Ok [CWhere (EBinary (ELeaf (LConstant (KField f))) "=" (ELeaf (LConstant (KStr (in_quotes m)))))]).
Proof. intros. apply WhereFacts.empty_strings; auto. now apply no_char. Qed.
Lemma no_modifier_by : forall w, forallb (fun k => negb (String.eqb (lower w) (lower k))) time_modifiers = true -> ~ is_time_modifier w.
Proof.
  intros w H (k & Hk & S). rewrite forallb_forall in H. specialize (H k Hk). apply negb_true_iff in H. revert S. now apply same_word_by.
Qed.
(** ** Expressions in where *)
Lemma call_compared : forall n args ss o b1 b2 t st, wf (TCall n args) -> ~ starts_with_not n -> writes_args args ss ->
  binds o = 6 -> spaces b1 -> spaces b2 -> wf t -> writes 6 t st ->
  let e := ((n ++ "(" ++ commas ss ++ ")") ++ b1 ++ op_text o ++ b2 ++ st)%string in
  parse ("eval x=" ++ e) = Some (Ok [CEval [("x"%string, EBinary (meaning (TCall n args)) (op_text o) (meaning t))]]) /\
  parse ("where " ++ e) = Some Err.
Proof.
  intros n args ss o b1 b2 t st Hc Hn Ha Ho H1 H2 Ht Hw e. split.
  - apply (parse_eval1 "x" (TBin o (TCall n args) t)); [ now apply field_by | now split | ].
    apply (writes_le 6); try lia. rewrite <- Ho. apply W_tight.
    + split; [ exact H1 | ]. split; [ exact H2 | ]. split; [ intros ->; discriminate Ho | ]. now right; left.
    + apply (writes_le 2); [ rewrite Ho; cbn; lia | rewrite Ho; cbn; lia | now apply W_call ].
    + now rewrite Ho.
  - subst e. assert (exists k y, op_text o = String k y /\ WhereFacts.op_char k) as (k & y & -> & Hk).
    { unfold WhereFacts.op_char. destruct o; try discriminate Ho; cbn [op_text]; do 2 eexists; (split; [ reflexivity | cbn; tauto ]). }
    apply (WhereFacts.where_rest [[TmCall n args]] (n ++ "(" ++ commas ss ++ ")")%string b1 k (y ++ b2 ++ st)%string); auto.
    + cbn [cond_wf term_wf]. split; [ discriminate | ]. repeat split; try discriminate; try exact Hn; apply Hc.
    + apply C_one, G_one. now apply T_call.
    + right. split; [ exact H1 | ]. exists (n ++ "(" ++ commas ss)%string. now rewrite !ParserFacts.append_assoc_s.
Qed.
Lemma sum_compared : forall f o y b1 b2 b3 b4 t st, field_name f -> ~ starts_with_not f -> field_name y -> ~ truth_value y ->
  blanks b1 -> spaces b2 -> blanks b3 -> spaces b4 -> wf t -> writes 4 t st ->
  let e := (f ++ b1 ++ cmp_text o ++ b2 ++ y ++ b3 ++ "+" ++ b4 ++ st)%string in
  parse ("eval x=" ++ e) = Some (Ok [CEval [("x"%string, EBinary (ELeaf (LConstant (KField f))) (cmp_text o) (EBinary (ELeaf (LConstant (KField y))) "+" (meaning t)))]]) /\
  parse ("where " ++ e) = Some Err.
Proof.
  intros f o y b1 b2 b3 b4 t st Hf Hn Hy Hv H1 H2 H3 H4 Ht Hw e. split.
  - set (o' := match o with CEqEq => OEqEq | CEq => OEq | CNe => ONe | CLe => OLe | CLt => OLt | CGe => OGe | CGt => OGt end).
    assert (Ho : binds o' = 6) by now destruct o. assert (Eo : cmp_text o = op_text o') by now destruct o.
    assert (W : writes 9 (TBin o' (TField f) (TBin OAdd (TField y) t)) e).
    { apply (writes_le 6); try lia. subst e. rewrite Eo. rewrite <- Ho at 1. apply W_tight.
      - split; [ apply H1 | ]. split; [ exact H2 | ]. split; [ intros X; rewrite X in Ho; discriminate Ho | ]. now right; left.
      - apply (writes_le 2); [ rewrite Ho; cbn; lia | rewrite Ho; cbn; lia | constructor ].
      - rewrite Ho. apply (writes_le 4); try lia. change 4 with (binds OAdd). change "+"%string with (op_text OAdd). apply W_tight.
        + split; [ apply H3 | ]. split; [ exact H4 | ]. split; [ discriminate | ]. now right; right; left.
        + apply (writes_le 2); [ cbn; lia | cbn; lia | constructor ].
        + exact Hw. }
    assert (Wf : wf (TBin o' (TField f) (TBin OAdd (TField y) t))) by (cbn [wf]; auto).
    pose proof (parse_eval1 "x" _ _ ltac:(now apply field_by) Wf W) as P. cbn [meaning] in P. rewrite <- Eo in P. exact P.
  - pose proof (WhereFacts.where_rest [[TmCmp f o (VWord y)]] (f ++ b1 ++ cmp_text o ++ b2 ++ y)%string b3 "+" (b4 ++ st)%string) as P.
    subst e. rewrite !ParserFacts.append_assoc_s in P. apply P.
    + cbn. repeat split; auto; discriminate.
    + apply C_one, G_one. exact (T_cmp f o (VWord y) b1 b2 (proj2 H1) H2 (or_introl H1)).
    + now left.
    + unfold WhereFacts.op_char. cbn. tauto.
Qed.
