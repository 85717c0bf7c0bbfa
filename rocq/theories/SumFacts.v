(** Facts: a stats command with a sum, a list or the count of a field cannot be run with the library. *)
From Verif Require Import Str SplAst PyAst Functions Transpile Render Commands SpecPipe PipeFacts AllowFacts TreeFacts NamesFacts ShapeFacts ScopeFacts
  StatementFacts ComposeFacts SpecPy SpecCol SpecFrame FrameFacts ProgramFacts SpecText SpecSpark SpecRows SpecCommands SpecResult RowFacts ValueFacts
  SearchFacts CommandFacts RunFacts ResultFacts Runtime RuntimeSteps RuntimeCalls RuntimeRuns SpecCall CallFacts SpecAfter AfterFacts CallMore UnboundFacts.
Open Scope string_scope.
Open Scope list_scope.

Definition missing (f : string) (args : list Expr) : Prop := f = "sum" \/ f = "list" \/ (f = "count" /\ args <> []).
Definition sum_tree (f : string) (a : list PExpr) : Py := snd (rt_prog (RExpr (PCol (CFunctionCall ("functions.stats." ++ f) a)))).
Lemma missing_tree : forall f args a, missing f args -> length a = length args -> (forall s g, lv (sum_tree f a) <> Some (VStats s g)) /\
  exists h l, sum_tree f a = PCall h l [].
Proof.
  intros f args a M L.
  assert (T : sum_tree f a = PCall (PAttr (PAttr (PName "functions") "stats") f) (map pexpr_tree a) []) by (destruct M as [->|[->|[-> _]]]; reflexivity).
  split; [ | rewrite T; eauto ]. intros s g. rewrite T. cbn [lv lib_function]. change (String.eqb "functions" "functions") with true. cbv iota.
  destruct (all_some (map lv (map pexpr_tree a))) as [vs|] eqn:A; [ | discriminate ].
  change (String.eqb "stats" "eval") with false. change (String.eqb "stats" "stats") with true. cbv iota.
  destruct M as [->|[->|[-> N]]].
  - unfold stats_call. cbn [lookup_in stats_columns String.eqb Ascii.eqb Bool.eqb]. destruct (trees vs); discriminate.
  - unfold stats_call. cbn [lookup_in stats_columns String.eqb Ascii.eqb Bool.eqb]. destruct (trees vs); discriminate.
  - destruct vs as [|v vs].
    + exfalso. destruct a as [|x a]; [ destruct args; [ now elim N | discriminate L ] | ]. cbn [map all_some] in A. destruct (lv (pexpr_tree x)); [ | discriminate A ].
      destruct (all_some (map lv (map pexpr_tree a))); discriminate A.
    + unfold stats_call. destruct (trees (v :: vs)); discriminate.
Qed.
Lemma all_some_in : forall A B (f : A -> option B) l out x, all_some (map f l) = Some out -> In x l -> exists y, f x = Some y.
Proof.
  intros A B f. induction l as [|z l IH]; intros out x E I; [ destruct I | ]. cbn [map all_some] in E. destruct (f z) eqn:Z; [ | discriminate E ].
  destruct (all_some (map f l)) eqn:Y; [ | discriminate E ]. destruct I as [<-|I]; [ eauto | exact (IH _ _ eq_refl I) ].
Qed.
Lemma lookup_here : forall A k (t : A) l, In (k, t) l -> distinct (map fst l) = true -> lookup_in k l = Some t.
Proof.
  intros A k t. induction l as [|[k' u] l IH]; intros I D; [ destruct I | ]. cbn [map fst distinct lookup_in] in *. apply andb_true_iff in D. destruct D as [D1 D2].
  destruct I as [E|I]; [ injection E as -> ->; now rewrite String.eqb_refl | ]. destruct (String.eqb_spec k k') as [->|_]; [ | auto ].
  apply negb_true_iff in D1. exfalso. assert (str_in k' (map fst l) = true) by (apply str_in_iff; apply in_map_iff; exists (k', t); auto). congruence.
Qed.
Lemma stats_refuses : forall sp df args kw k t h l, In (k, t) kw -> distinct (map fst kw) = true -> t = PCall h l [] ->
  (forall s g, lv t <> Some (VStats s g)) -> run_stats sp df args kw = None.
Proof.
  intros sp df args kw k t h l I D T N. unfold run_stats. destruct (str_in _ _); [ reflexivity | ].
  destruct df as [o|]; [ destruct o; try reflexivity | reflexivity ]; (destruct args; [ | reflexivity ]).
  destruct (String.eqb_spec k "by") as [->|K].
  - unfold keyword. rewrite (lookup_here _ _ _ _ I D), T. reflexivity.
  - destruct (by_columns _); [ | reflexivity ]. destruct (stats_functions_of (others ["by"] kw)) as [fs|] eqn:F; [ | reflexivity ].
    exfalso. unfold stats_functions_of in F. destruct (all_some_in _ _ _ _ _ (k, t) F) as [y Y].
    + unfold others. apply filter_In. split; [ exact I | ]. cbn [fst str_in existsb]. unfold str_in. cbn [existsb]. apply String.eqb_neq in K. now rewrite K.
    + cbn [fst snd] in Y. destruct (lv t) as [v|] eqn:E; [ | discriminate Y ]. destruct v; try discriminate Y. now apply (N sorts agg).
Qed.

Definition is_call_of (e : Expr) (f : string) (args : list Expr) : Prop := e = ECall f args \/ exists n, e = EAlias (ECall f args) n.
Lemma agg_call : forall rt e f args kv, is_call_of e f args -> transform_stats_runtime_expr rt e = Ok kv ->
  exists a, snd kv = RExpr (PCol (CFunctionCall ("functions.stats." ++ f) a)) /\ length a = length args.
Proof.
  intros rt e f args kv C E.
  assert (X : exists al, (let? a := rtraverse (to_spark_expr rt) args in Ok (al, RExpr (PCol (CFunctionCall ("functions.stats." ++ f) a)))) = Ok kv)
    by (destruct C as [->|[n ->]]; eexists; exact E).
  destruct X as [al X]. apply rbind_inv in X. destruct X as (a & A & X). injection X as <-. exists a. split; [ reflexivity | ].
  clear -A. revert a A. induction args as [|x args IH]; intros a A; [ injection A as <-; reflexivity | ].
  rewrite rtraverse_cons in A. apply rbind_inv in A. destruct A as (b & _ & A). apply rbind_inv in A. destruct A as (l & L & A). injection A as <-. cbn [length]. f_equal. now apply IH.
Qed.
Lemma aggs_calls : forall rt e f args l kw, is_call_of e f args -> In e l -> rtraverse (transform_stats_runtime_expr rt) l = Ok kw ->
  exists k a, In (k, RExpr (PCol (CFunctionCall ("functions.stats." ++ f) a))) kw /\ length a = length args.
Proof.
  intros rt e f args l. induction l as [|x l IH]; intros kw C I E; [ destruct I | ]. rewrite rtraverse_cons in E.
  apply rbind_inv in E. destruct E as ([k r] & E1 & E). apply rbind_inv in E. destruct E as (l' & E2 & E). injection E as <-. destruct I as [->|I].
  - destruct (agg_call _ _ _ _ _ C E1) as (a & R & L). cbn [snd] in R. subst r. exists k, a. split; [ now left | exact L ].
  - destruct (IH _ C I E2) as (k' & a & J & L). exists k', a. split; [ now right | exact L ].
Qed.
Lemma missing_fails : forall sp db ct env p o funcs by_ q d e f args, env_rt env <> Disallow -> In e funcs -> is_call_of e f args -> missing f args ->
  (forall c, In c q -> ~ starts_over c) -> transform_pipeline env (p ++ CStats o funcs by_ :: q) = Ok (Some d) -> plain_df d = true ->
  forall x, ~ runs sp db ct (code_to_string (render_df d)) x.
Proof.
  intros sp db ct env p o funcs by_ q d e f args R Ie Ce M S H P x Rn.
  replace (p ++ CStats o funcs by_ :: q) with ((p ++ [CStats o funcs by_]) ++ q) in H by (rewrite <- app_assoc; reflexivity).
  assert (X : exists n s kw k a, transform_pipeline env (p ++ [CStats o funcs by_]) = Ok (Some (DRuntime n s "stats" [] kw)) /\
     In (k, RExpr (PCol (CFunctionCall ("functions.stats." ++ f) a))) kw /\ length a = length args).
  { unfold transform_pipeline in *. destruct (run_commands _ ((p ++ _) ++ q) None _) as [st r] eqn:E. cbn in H. subst r.
    apply StatementFacts.run_app in E. destruct E as (t1 & s1 & E1 & _). rewrite E1. cbn [snd]. apply run_app_ok in E1. destruct E1 as (st1 & s & _ & E).
    destruct (handed env (CStats o funcs by_) s st1 s1 t1 R E) as (n & g & ar & kw & ->). cbn [transform_command] in E.
    apply both_inv' in E; [ | apply quiet_bind; intro; apply quiet_runtime ]. destruct E as (d' & Ed & [[_ E]|E]); injection Ed as <-.
    - apply bind_inv in E. destruct E as (s2 & kv & E2 & E). apply lift_inv in E2. destruct E2 as [_ E2]. apply runtime_made in E. destruct E as [E _]. injection E as -> -> -> ->.
      destruct (aggs_calls _ _ _ _ _ _ Ce Ie E2) as (k & a & J & L). do 5 eexists. split; [ reflexivity | ]. split; [ apply in_or_app; right; exact J | exact L ].
    - apply lift_inv in E. destruct E as [_ E]. unfold t_stats_standalone in E. apply rbind_inv in E. destruct E as ([d1 ag] & _ & E). discriminate E. }
  destruct X as (n & s & kw & k & a & X & J & L). destruct (compose_keeps env _ q _ _ X S H) as (d' & Ed & I). injection Ed as <-.
  destruct (missing_tree f args a M L) as [N (h & l & T)].
  apply (runs_iff sp db ct d x P) in Rn. unfold lib_exec in Rn.
  destruct (all_some _) as [q'|] eqn:A; [ | discriminate Rn ]. destruct (lib _) as [r|]; [ | discriminate Rn ].
  destruct (call_assigned n s "stats" [] kw d P I) as [D [t [_ Tt]]]. destruct (carried_out _ _ _ _ _ _ _ A Tt) as [t' [_ T']].
  rewrite (exec_stops sp db ct _ _ _ T') in Rn; [ discriminate Rn | ]. intro vars. apply refused_call. intros df args'.
  unfold library. cbn [String.eqb Ascii.eqb Bool.eqb]. cbv iota. apply (stats_refuses sp df args' _ k (sum_tree f a) h l); [ | | exact T | exact N ].
  - apply in_map_iff. exists (k, RExpr (PCol (CFunctionCall ("functions.stats." ++ f) a))). split; [ reflexivity | exact J ].
  - rewrite map_map. exact D.
Qed.
