(** Facts: an eval command with a function that the library cannot compute. *)
From Verif Require Import Str SplAst PyAst Functions Transpile Render Commands SpecPipe PipeFacts AllowFacts TreeFacts NamesFacts ShapeFacts ScopeFacts
  StatementFacts ComposeFacts SpecPy SpecCol SpecFrame FrameFacts ProgramFacts SpecText SpecSpark SpecRows SpecCommands SpecResult RowFacts ValueFacts
  SearchFacts CommandFacts RunFacts ResultFacts Runtime RuntimeSteps RuntimeCalls RuntimeRuns SpecCall CallFacts SpecAfter AfterFacts CallMore UnboundFacts SumFacts
  SpecLacks.
Open Scope string_scope.
Open Scope list_scope.

Definition eval_tree (f : string) (a : list PExpr) : Py := snd (rt_prog (RExpr (PCol (CFunctionCall ("functions.eval." ++ runtime_eval_name f) a)))).
Lemma lacks_none : forall f a, In f (not_implemented ++ always_raises) -> lib_expr (eval_tree f a) = None.
Proof.
  intros f a H.
  assert (T : eval_tree f a = PCall (PAttr (PAttr (PName "functions") "eval") (runtime_eval_name f)) (map pexpr_tree a) []).
  { cbn [not_implemented always_raises app In] in H. repeat (destruct H as [<-|H]; [ reflexivity | ]). destruct H. }
  unfold lib_expr. rewrite T. cbn [lv lib_function]. change (String.eqb "functions" "functions") with true. cbv iota.
  destruct (all_some (map lv (map pexpr_tree a))) as [vs|]; [ | reflexivity ].
  change (String.eqb "eval" "eval") with true. cbv iota.
  cbn [not_implemented always_raises app In] in H.
  repeat (destruct H as [<-|H]; [ first [ reflexivity | unfold eval_call; cbn; destruct (trees vs) as [[|x l]|]; try reflexivity; destruct (Nat.odd (length l)); reflexivity ] | ]). destruct H.
Qed.
Lemma eval_refuses : forall sp df args kw k f a, In (k, eval_tree f a) kw -> In f (not_implemented ++ always_raises) -> run_eval sp df args kw = None.
Proof.
  intros sp df args kw k f a I H. unfold run_eval. destruct (str_in _ _); [ reflexivity | ].
  assert (N : named_exprs kw = None).
  { destruct (named_exprs kw) as [l|] eqn:E; [ | reflexivity ]. unfold named_exprs in E. destruct (all_some_in _ _ _ _ _ _ E I) as [y Y].
    cbn [fst snd] in Y. rewrite (lacks_none f a H) in Y. discriminate Y. }
  rewrite N. destruct df as [o|]; [ destruct o | ]; try reflexivity; destruct args; reflexivity.
Qed.
Lemma lacks_other : forall f, In f (not_implemented ++ always_raises) -> String.eqb f "cidrmatch" = false.
Proof. intros f H. cbn [not_implemented always_raises app In] in H. repeat (destruct H as [<-|H]; [ reflexivity | ]). destruct H. Qed.
Definition translates (rt : Rt) (args : list Expr) : Prop := Forall (fun a => exists x, to_spark_expr rt a = Ok x) args.
Lemma call_runtime : forall rt f args c, String.eqb f "cidrmatch" = false -> rt = Require \/ (rt = Allow /\ translates rt args) ->
  eval_column rt (ECall f args) = Ok c -> exists a, c = CFunctionCall ("functions.eval." ++ runtime_eval_name f) a.
Proof.
  intros rt f args c Ef R E. unfold eval_column in E. cbn [to_spark_expr] in E. apply rbind_inv in E. destruct E as (x & E & Ex).
  set (l := map (fun a => (a, to_spark_expr rt a)) args) in *.
  assert (X : exists y, eval_fn_runtime f l = Ok y /\ x = PCol y).
  { destruct (eval_fn rt f l) as [y| |] eqn:F; try discriminate E. injection E as <-. exists y. split; [ | reflexivity ]. destruct R as [->|[-> T]]; [ exact F | ].
    cbn [eval_fn] in F. unfold eval_fn_runtime in *. rewrite Ef in *. unfold map_args in *.
    assert (M : exists z, rtraverse arg_expr l = Ok z).
    { subst l. clear -T. induction T as [|a args [x X] T [z IH]]; [ now exists [] | ]. cbn [map]. rewrite rtraverse_cons.
      replace (arg_expr (a, to_spark_expr Allow a)) with (Ok (pe_unaliased x)) by (unfold arg_expr; cbn [snd]; now rewrite X). cbn [rbind].
      eexists. etransitivity; [ exact (f_equal (fun r => rbind r (fun l' => Ok (pe_unaliased x :: l'))) IH) | reflexivity ]. }
    destruct M as [z M]. rewrite M in *. exact F. }
  destruct X as (y & F & ->). injection Ex as <-. unfold eval_fn_runtime in F. rewrite Ef in F. apply rbind_inv in F. destruct F as (a & _ & F). injection F as <-. eauto.
Qed.
Lemma evals_calls : forall rt f args n l kw, In f (not_implemented ++ always_raises) -> rt = Require \/ (rt = Allow /\ translates rt args) ->
  In (n, ECall f args) l -> rtraverse (fun fe : string * Expr => let? c := eval_column rt (snd fe) in Ok (fst fe, RExpr (PCol (cl_unaliased c)))) l = Ok kw ->
  exists a, In (n, RExpr (PCol (CFunctionCall ("functions.eval." ++ runtime_eval_name f) a))) kw.
Proof.
  intros rt f args n l. induction l as [|y l IH]; intros kw H R I E; [ destruct I | ]. rewrite rtraverse_cons in E.
  apply rbind_inv in E. destruct E as ([k r] & E1 & E). apply rbind_inv in E. destruct E as (l' & E2 & E). injection E as <-. destruct I as [->|I].
  - cbn [fst snd] in E1. apply rbind_inv in E1. destruct E1 as (c & C & E1). destruct (call_runtime _ _ _ _ (lacks_other f H) R C) as [a ->]. injection E1 as <- <-. exists a. now left.
  - destruct (IH _ H R I E2) as (a & J). exists a. now right.
Qed.
Lemma lacks_fails : forall sp db ct env p l q d n f args,
  In (n, ECall f args) l -> In f (not_implemented ++ always_raises) ->
  env_rt env = Require \/ (env_rt env = Allow /\ Forall (fun a => exists x, to_spark_expr (env_rt env) a = Ok x) args) ->
  (forall c, In c q -> ~ starts_over c) -> transform_pipeline env (p ++ CEval l :: q) = Ok (Some d) -> plain_df d = true ->
  forall x, ~ runs sp db ct (code_to_string (render_df d)) x.
Proof.
  intros sp db ct env p l q d n0 f args Ie Hf Rt S H P x Rn.
  assert (R : env_rt env <> Disallow) by (destruct Rt as [E|[E _]]; rewrite E; discriminate).
  replace (p ++ CEval l :: q) with ((p ++ [CEval l]) ++ q) in H by (rewrite <- app_assoc; reflexivity).
  assert (X : exists n s kw a, transform_pipeline env (p ++ [CEval l]) = Ok (Some (DRuntime n s "eval" [] kw)) /\
     In (n0, RExpr (PCol (CFunctionCall ("functions.eval." ++ runtime_eval_name f) a))) kw).
  { unfold transform_pipeline in *. destruct (run_commands _ ((p ++ _) ++ q) None _) as [st r] eqn:E. cbn in H. subst r.
    apply StatementFacts.run_app in E. destruct E as (t1 & s1 & E1 & _). rewrite E1. cbn [snd]. apply run_app_ok in E1. destruct E1 as (st1 & s & _ & E).
    destruct (handed env (CEval l) s st1 s1 t1 R E) as (n & g & ar & kw & ->). cbn [transform_command] in E.
    apply both_inv' in E; [ | apply quiet_bind; intro; apply quiet_runtime ]. destruct E as (d' & Ed & [[_ E]|E]); injection Ed as <-.
    - apply bind_inv in E. destruct E as (s2 & kv & E2 & E). apply lift_inv in E2. destruct E2 as [_ E2]. apply runtime_made in E. destruct E as [E _]. injection E as -> -> -> ->.
      destruct (evals_calls _ _ _ _ _ _ Hf Rt Ie E2) as (a & J). do 4 eexists. split; [ reflexivity | exact J ].
    - apply lift_inv in E. destruct E as [_ E]. exfalso. clear -E Ie.
      assert (G : forall l d0 d1, t_eval_go (env_rt env) l d0 = Ok d1 -> l <> [] -> exists a b c, d1 = DWithColumn a b c).
      { clear. induction l as [|[m e] l IH]; intros d0 d1 E N; [ now elim N | ]. cbn [t_eval_go] in E. apply rbind_inv in E. destruct E as (c & _ & E).
        destruct l as [|y l]; [ injection E as <-; unfold d_with_column; eauto | ]. apply (IH _ _ E). discriminate. }
      destruct l; [ destruct Ie | ]. destruct (G _ _ _ E ltac:(discriminate)) as (? & ? & ? & Z). discriminate Z. }
  destruct X as (n & s & kw & a & X & J). destruct (compose_keeps env _ q _ _ X S H) as (d' & Ed & I). injection Ed as <-.
  apply (runs_iff sp db ct d x P) in Rn. unfold lib_exec in Rn.
  destruct (all_some _) as [q'|] eqn:A; [ | discriminate Rn ]. destruct (lib _) as [r|]; [ | discriminate Rn ].
  destruct (call_assigned n s "eval" [] kw d P I) as [D [t [_ Tt]]]. destruct (carried_out _ _ _ _ _ _ _ A Tt) as [t' [_ T']].
  rewrite (exec_stops sp db ct _ _ _ T') in Rn; [ discriminate Rn | ]. intro vars. apply refused_call. intros df args'.
  unfold library. cbn [String.eqb Ascii.eqb Bool.eqb]. cbv iota. apply (eval_refuses sp df args' _ n0 f a); [ | exact Hf ].
  apply in_map_iff. exists (n0, RExpr (PCol (CFunctionCall ("functions.eval." ++ runtime_eval_name f) a))). split; [ reflexivity | exact J ].
Qed.
