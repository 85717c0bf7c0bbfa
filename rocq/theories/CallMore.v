(** Facts: a command whose names clash is turned into a call that does not bind, whatever
    comes before and after it. *)
From Coq Require Import Lia.
From Verif Require Import Str SplAst PyAst Functions Transpile Render Commands SpecPipe PipeFacts AllowFacts TreeFacts ShapeFacts ComposeFacts SpecCall SpecAfter CallFacts.
Open Scope string_scope.
Open Scope list_scope.

Lemma evals_runtime : forall rt l d x, t_eval_go rt l d = Ok x ->
  exists kw, rtraverse (fun fe : string * Expr => let? c := eval_column rt (snd fe) in Ok (fst fe, RExpr (PCol (cl_unaliased c)))) l = Ok kw.
Proof.
  intros rt l. induction l as [|[n e] l IH]; intros d x H; [ now exists [] | ]. cbn [t_eval_go] in H.
  apply rbind_inv in H. destruct H as (c & E & H). destruct (IH _ _ H) as [kw K]. rewrite rtraverse_cons. cbn [fst snd]. rewrite E. cbn [rbind]. rewrite K. cbn [rbind]. eauto.
Qed.
Lemma handed : forall env c s st st' s', handed_over (env_rt env) c -> transform_command env c s st = (st', Ok s') ->
  exists n f args kw, s' = Some (DRuntime n s f args kw).
Proof.
  intros env c s st st' s' HO H.
  assert (B : forall (a b : M DataFrame), env_rt env <> Disallow ->
     (forall st1 st2 d, a st1 = (st2, Ok d) -> exists n f args kw, d = DRuntime n s f args kw) ->
     (env_rt env = Allow -> forall st1 st2, a st = (st1, Err) -> forall d, b st1 <> (st2, Ok d)) ->
     bind (select_rt (env_rt env) a b) (fun d => ret (Some d)) st = (st', Ok s') -> exists n f args kw, s' = Some (DRuntime n s f args kw)).
  { intros a b N A X E. apply bind_inv in E. destruct E as (s1 & d & E & R). injection R as <- <-.
    assert (G : exists s0 s2, a s0 = (s2, Ok d)).
    { destruct (env_rt env) eqn:ER; [ now elim N | | cbn [select_rt] in E; eauto ]. cbn [select_rt] in E. unfold or_else in E.
      destruct (a st) as [s2 [y| |]] eqn:Y; [ injection E as <- <-; eauto | | discriminate E ].
      exfalso. exact (X eq_refl _ _ eq_refl _ E). }
    destruct G as (s0 & s2 & G). destruct (A _ _ _ G) as (n & f & args & kw & ->). eauto. }
  assert (D : forall f args kw st1 st2 d, d_runtime s f args kw st1 = (st2, Ok d) -> exists n f args kw, d = DRuntime n s f args kw).
  { intros f args kw st1 st2 d E. apply runtime_made in E. destruct E as [-> _]. eauto. }
  destruct c; cbn [handed_over] in HO; try contradiction; cbn [transform_command] in H.
  - refine (B _ _ HO _ _ H); [ intros ? ? ?; apply D | ]. intros _ st1 st2 E. discriminate E.
  - refine (B _ _ HO _ _ H).
    + intros ? ? ? E. apply bind_inv in E. destruct E as (? & kw & _ & E). exact (D _ _ _ _ _ _ E).
    + intros ER st1 st2 E d F. apply lift_inv in F. destruct F as [_ F]. apply evals_runtime in F. destruct F as [kw K].
      unfold t_eval_runtime in E. rewrite K in E. discriminate E.
  - rewrite HO in H. cbn [select_rt] in H. apply bind_inv in H. destruct H as (s1 & d & E & R). injection R as <- <-.
    apply bind_inv in E. destruct E as (? & kw & _ & E). destruct (D _ _ _ _ _ _ E) as (n & f & args & k & ->). eauto.
  - refine (B _ _ HO _ _ H).
    + intros ? ? ? E. apply bind_inv in E. destruct E as (? & kw & _ & E). exact (D _ _ _ _ _ _ E).
    + intros ER st1 st2 E d F. apply lift_inv in F. destruct F as [_ F]. unfold t_stats_standalone in F. apply rbind_inv in F.
      destruct F as ([d1 a] & F & _). rewrite ER in F. destruct (aggs_runtime _ _ _ F) as [kw K]. unfold t_stats_runtime in E. rewrite ER, K in E. discriminate E.
  - refine (B _ _ HO _ _ H).
    + intros ? ? ? E. unfold t_tstats_runtime in E. do 3 (apply bind_inv in E; destruct E as (? & ? & _ & E)). exact (D _ _ _ _ _ _ E).
    + intros ER st1 st2 NP d F. rewrite ER in F, NP. unfold t_tstats_standalone in F. apply bind_inv in F. destruct F as (s2 & u & E0 & F).
      apply bind_inv in F. destruct F as (s3 & d0 & Ed & F). apply bind_inv in F. destruct F as (s4 & d1 & Ew & F).
      apply lift_inv in Ew. destruct Ew as [_ Ew]. apply bind_inv in F. destruct F as (s5 & [d2 a] & Ea & F).
      apply lift_inv in Ea. destruct Ea as [_ Ea]. destruct (aggs_runtime _ _ _ Ea) as [kw Ek].
      apply lift_inv in E0. destruct E0 as [_ E0]. unfold t_tstats_runtime in NP. rewrite E0 in NP.
      destruct where_condition as [w|]; [ apply rbind_inv in Ew; destruct Ew as (x & Ew & _); rewrite Ew in NP | ];
        unfold bind, lift, rbind in NP; rewrite Ek in NP; discriminate NP.
Qed.
Lemma keyword_one : forall e k k', keyword_of e k -> keyword_of e k' -> k = k'.
Proof.
  intros e k k' H H'. inversion H as [f k0 op r I E1 E2|f op r N O E1]; subst; inversion H' as [f' k0' op' r' I' E1'|f' op' r' N' O' E1']; subst.
  - exact (metadata_fun _ _ _ I I').
  - elim N'. apply in_map_iff. now exists (k', k).
  - elim N. apply in_map_iff. now exists (k, k').
  - reflexivity.
Qed.
Lemma keywords_one : forall c k k', keywords c k -> keywords c k' -> k = k'.
Proof.
  intros c k k' H H'. inversion H as [e l F| | | |]; subst; inversion H' as [e' l' F'| | | |]; subst; try reflexivity.
  f_equal. f_equal. clear H H'. revert l' F'. induction F as [|x y es l Hx F IH]; intros l' F'; inversion F' as [|x' y' es' l2 Hx' F2]; subst; [ reflexivity | ].
  f_equal; [ | now apply IH ]. destruct y, y'; try reflexivity; [ f_equal; exact (keyword_one _ _ _ Hx Hx') | now elim (Hx' s) | now elim (Hx s) ].
Qed.
Lemma clash : forall env p c q d, handed_over (env_rt env) c -> ~ well_named c -> (forall c, In c q -> ~ starts_over c) ->
  transform_pipeline env (p ++ c :: q) = Ok (Some d) ->
  exists n s f args kw, In (DRuntime n s f args kw) (frames d) /\ ~ binds f (1 + length args) (map fst kw).
Proof.
  intros env p c q d HO W N H. replace (p ++ c :: q) with ((p ++ [c]) ++ q) in H by (rewrite <- app_assoc; reflexivity).
  assert (X : exists t, transform_pipeline env (p ++ [c]) = Ok (Some t) /\ exists n s f args kw, t = DRuntime n s f args kw /\ call_of (env_rt env) c f args kw).
  { unfold transform_pipeline in *. destruct (run_commands _ ((p ++ [c]) ++ q) None _) as [st r] eqn:E. cbn in H. subst r.
    apply StatementFacts.run_app in E. destruct E as (t1 & s1 & E1 & E2). rewrite E1. cbn [snd]. apply run_app_ok in E1. destruct E1 as (st1 & s & _ & E).
    destruct (handed env c s st1 s1 t1 HO E) as (n & f & args & kw & ->).
    assert (NS : ~ has_subsearch c) by (destruct c; cbn in HO; try contradiction; intro Z; exact Z).
    destruct (cmd_call env c _ _ _ _ NS E) as (d' & Ed & [B|(n' & f' & args' & kw' & Er & C & _)]); injection Ed as <-.
    - exfalso. apply built_call in B. destruct s as [d0|]; [ | discriminate B ]. cbn [d_or_default] in B.
      assert (X : depth d0 = S (depth d0)) by (rewrite B at 1; reflexivity). lia.
    - eexists. split; [ reflexivity | ]. injection Er as <- <- <- <-. exists n, s, f, args, kw. auto. }
  destruct X as (t & E & n & s & f & args & kw & -> & C). destruct (compose_keeps env _ q _ _ E N H) as (d' & Ed & I). injection Ed as <-.
  exists n, s, f, args, kw. split; [ exact I | ]. intro B. apply W. apply (call_binds _ _ _ _ _ C) in B. destruct B as (B1 & B2 & B3). destruct C as [Nm C].
  split; [ intros m ->; now injection Nm as <- | ]. intros kws K.
  assert (K' : keywords c (map fst kw)).
  { destruct c; try discriminate Nm; try (destruct C as [_ C]; exact C); [ now injection Nm as <- | ].
    destruct (carries_keywords _ _ _ _ C) as (l & F & El). rewrite El. now constructor. }
  now rewrite (keywords_one _ _ _ K K').
Qed.
