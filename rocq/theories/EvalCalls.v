(** Proofs for PropsEval.v. *)
From Verif Require Import Str SplAst PyAst Functions Transpile Commands Api SpecPy SpecCol SpecSpark SpecRows SpecCommands SpecResult SpecEffect SpecPipe SpecEval.
From Verif Require Import PipeFacts ValueFacts RunFacts EffectFacts.
Open Scope list_scope.

(** ** A command that never renders, anywhere in a pipeline *)
Section Anywhere.
  Variable env : Env.
  Variable U : Command -> Prop.
  Hypothesis U_never : forall c, U c -> ~ has_subsearch c /\ forall s st st' d, transform_command env c s st <> (st', Ok d).
  Lemma any_err : forall p, Forall (fun c => (exists c', occurs c' [c] /\ U c') ->
      forall s st st' d, transform_command env c s st <> (st', Ok d)) p ->
    (exists c', occurs c' p /\ U c') ->
    forall s st st' d, run_commands (transform_command env) p s st <> (st', Ok d).
  Proof.
    induction p as [|c p IH]; intros F (c' & Ho & Hu) s st st' d H.
    - inversion Ho; subst; contradiction.
    - inversion F as [|? ? F1 F2]; subst. cbn [run_commands] in H. apply bind_inv in H. destruct H as (s1 & a & E1 & E2).
      assert (D : occurs c' [c] \/ occurs c' p).
      { inversion Ho as [? Hi|? o q Hi Hq|? qs q Hi Hq Hc]; subst; destruct Hi as [Hi|Hi]; subst.
        - left. apply OC_here. now left.
        - right. now apply OC_here.
        - left. eapply OC_join; [ now left | exact Hq ].
        - right. eapply OC_join; eauto.
        - left. eapply OC_multisearch; [ now left | exact Hq | exact Hc ].
        - right. eapply OC_multisearch; eauto. }
      destruct D as [D|D].
      + eapply F1; eauto.
      + eapply IH; eauto.
  Qed.
  Lemma any_command : forall c, (exists c', occurs c' [c] /\ U c') -> forall s st st' d, transform_command env c s st <> (st', Ok d).
  Proof.
    induction c using cmd_induct; intros (c' & Ho & Hu) s st st' d HT.
    - assert (Hq : occurs c' p).
      { inversion Ho as [? Hi|? o' q Hi Hq|? qs q Hi Hq Hc]; subst; destruct Hi as [E'|[]]; subst; try discriminate;
          [ destruct (U_never _ Hu) as [N _]; elim N; exact I | injection E' as <- <-; exact Hq ]. }
      cbn [transform_command] in HT. apply only_none in HT. destruct HT as (_ & x & E & _).
      apply bind_inv in E. destruct E as (s1 & [] & _ & E). apply bind_inv in E. destruct E as (s2 & r & E & _).
      eapply (any_err p); eauto.
    - assert (D : exists q, In q ps /\ occurs c' q).
      { inversion Ho as [? Hi|? o' q Hi Hq|? qs q Hi Hq Hc]; subst; destruct Hi as [E'|[]]; subst; try discriminate;
          [ destruct (U_never _ Hu) as [N _]; elim N; exact I | injection E' as <-; exists q; auto ]. }
      cbn [transform_command] in HT. destruct ps as [|p ps]; [ destruct D as (q & [] & _) | ].
      set (l := p :: ps) in *.
      apply only_none in HT. destruct HT as (_ & x & E & _).
      apply bind_inv in E. destruct E as (s1 & r & E & _).
      clear Ho. revert E. generalize (@None DataFrame) as cur. revert st. clearbody l.
      induction l as [|q l IH]; intros st cur E; [ destruct D as (q & [] & _) | ].
      cbn [run_unions] in E. apply bind_inv in E. destruct E as (s2 & r2 & E2 & E3).
      inversion H; subst. destruct D as (q' & [<-|Hi] & Ho).
      + eapply (any_err q); eauto.
      + destruct r2; [ | discriminate ]. eapply IH; eauto.
    - inversion Ho as [? Hi|? o' q Hi Hq|? qs q Hi Hq Hc]; subst; destruct Hi as [E'|[]]; subst.
      + exact (proj2 (U_never _ Hu) _ _ _ _ HT).
      + elim H. exact I.
      + elim H. exact I.
  Qed.
  Lemma any_refused : forall p c, occurs c p -> U c -> forall out, render_pyspark env p <> Ok out.
  Proof.
    intros p c Ho Hu out H. unfold render_pyspark in H. apply rbind_inv in H. destruct H as (d & H & _).
    unfold transform_pipeline in H. destruct (run_commands _ p None _) as [st r] eqn:E. cbn in H. subst r.
    eapply any_err; [ | | exact E ].
    - apply Forall_forall. intros x _. apply any_command.
    - eauto.
  Qed.
End Anywhere.

(** ** The arguments of a translated call *)
Definition argued (a : Arg) : Prop := (exists l, fst a = ELeaf l) \/ exists c, snd a = Ok c.
Lemma argued_expr : forall a x, arg_expr a = Ok x -> argued a.
Proof. intros a x H. right. unfold arg_expr in H. destruct (snd a) as [c| |]; try discriminate H. eauto. Qed.
Lemma argued_str : forall a x, arg_str a = Ok x -> argued a.
Proof. intros [e r] x H. left. unfold arg_str, expr_to_string in H. cbn [fst] in *. destruct e; try discriminate H. eauto. Qed.
Lemma argued_int : forall a x, arg_int a = Ok x -> argued a.
Proof. intros [e r] x H. left. unfold arg_int in H. cbn [fst] in *. destruct e; try discriminate H. eauto. Qed.
Lemma argued_map : forall l x, map_args l = Ok x -> Forall argued l.
Proof.
  intros l. induction l as [|a l IH]; intros x H; [ constructor | ]. unfold map_args in H. rewrite rtraverse_cons in H.
  apply rbind_inv in H. destruct H as (y & Hy & H). apply rbind_inv in H. destruct H as (z & Hz & _).
  constructor; [ exact (argued_expr _ _ Hy) | exact (IH _ Hz) ].
Qed.
Ltac arg_steps H := repeat first
  [ discriminate H
  | match type of H with
    | rbind ?r _ = Ok _ => let x := fresh "x" in let E := fresh "E" in apply rbind_inv in H; destruct H as (x & E & H)
    | match ?l with nil => _ | cons _ _ => _ end = Ok _ => is_var l; destruct l
    end ].
Ltac arg_done := repeat first
  [ match goal with
    | E : map_args ?l = Ok _ |- Forall argued ?l => exact (argued_map _ _ E)
    | E : arg_expr ?a = Ok _ |- argued ?a => exact (argued_expr _ _ E)
    | E : arg_str ?a = Ok _ |- argued ?a => exact (argued_str _ _ E)
    | E : arg_int ?a = Ok _ |- argued ?a => exact (argued_int _ _ E)
    end
  | constructor ].
Definition read_of {A} (f : string) (args : list A) : list A :=
  if String.eqb f "mvindex" then firstn 3 args else if String.eqb f "relative_time" then firstn 2 args else args.
Lemma call_argued : forall name args c, eval_fn_bare name args = Ok c -> Forall argued (read_of name args).
Proof.
  intros name args c H. unfold eval_fn_bare in H. unfold read_of.
  destruct (existsb _ eval_unsupported); [ discriminate H | ].
  destruct (String.eqb name "mvindex") eqn:Mv.
  { apply String.eqb_eq in Mv. subst name. cbn - [ft1 ft2 ft0 ft_map ft_ei ft_es] in H. arg_steps H; cbn [firstn]; arg_done. }
  destruct (String.eqb name "relative_time") eqn:Rt.
  { apply String.eqb_eq in Rt. subst name. cbn - [ft1 ft2 ft0 ft_map ft_ei ft_es convert_time_format] in H. destruct args as [|a [|[e r] rest]]; try discriminate H; cbn [rbind] in H;
    arg_steps H; cbn [firstn]. constructor; [ arg_done | ]. constructor; [ | constructor ].
    left. cbn [fst]. destruct e; try discriminate H. eauto. }
  destruct (assoc name eval_unary); [ unfold ft1 in H; arg_steps H; arg_done | ].
  destruct (assoc name eval_binary); [ unfold ft2 in H; arg_steps H; arg_done | ].
  repeat match type of H with (if ?b then _ else _) = _ => destruct b; [ unfold ft0, ft1, ft2, ft_ei, ft_es, ft_map in H; arg_steps H; arg_done | ] end.
  arg_steps H. arg_done.
Qed.
Lemma read_map : forall A B (g : A -> B) f (l : list A), read_of f (map g l) = map g (read_of f l).
Proof. intros A B g f l. unfold read_of. destruct (String.eqb f "mvindex"); [ | destruct (String.eqb f "relative_time"); [ | reflexivity ] ]; apply firstn_map. Qed.
Definition computes_to (e : Expr) : Prop := (exists l, e = ELeaf l) \/ exists c, to_spark_expr Disallow e = Ok c.
Lemma cidr_leaf : forall l o r c, cidr_case l o r = Some c -> (exists k, l = ELeaf k) /\ exists k, r = ELeaf k.
Proof. intros l o r c H. unfold cidr_case in H. destruct l; try discriminate H. destruct l; try discriminate H. destruct c0; try discriminate H. destruct r; try discriminate H; split; eauto; destruct l; destruct c0; discriminate H. Qed.
Lemma part_computes : forall x e, part x e -> computes_to e -> computes_to x.
Proof.
  intros x e H. induction H as [|l o r H IH|l o r H IH|o r H IH|f args a I H IH]; intros [(k & E)|(c & E)]; try discriminate E; try (left; eauto; fail).
  - right. eauto.
  - apply IH. cbn [to_spark_expr] in E. destruct (cidr_case l (simple_op o) r) eqn:C; [ left; exact (proj1 (cidr_leaf _ _ _ _ C)) | ].
    right. destruct (to_spark_expr Disallow l) as [y| |]; [ eauto | | ];
      destruct r; try discriminate E; destruct l0; try discriminate E; destruct c0; discriminate E.
  - apply IH. cbn [to_spark_expr] in E. destruct (cidr_case l (simple_op o) r) eqn:C; [ left; exact (proj2 (cidr_leaf _ _ _ _ C)) | ].
    destruct r; try (left; eauto; fail); right;
      (destruct (to_spark_expr Disallow l); try discriminate E; cbn [rbind] in E;
       match type of E with rbind ?r _ = _ => destruct r eqn:R; try discriminate E end; eauto).
  - apply IH. cbn [to_spark_expr] in E. destruct (String.eqb o "NOT"); [ | discriminate E ]. right.
    destruct (to_spark_expr Disallow r); try discriminate E. eauto.
  - apply IH. cbn [to_spark_expr] in E. unfold eval_fn in E.
    destruct (eval_fn_bare f (map (fun a => (a, to_spark_expr Disallow a)) args)) as [y| |] eqn:B; try discriminate E.
    apply call_argued in B. rewrite read_map in B. rewrite Forall_map, Forall_forall in B. destruct (B a I) as [(k & L)|(k & L)]; [ left | right ]; eauto.
Qed.
(** A command that computes what cannot be computed *)
Lemma eval_go_all : forall rt l d out, t_eval_go rt l d = Ok out -> forall e, In e (map snd l) -> exists c, to_spark_expr rt e = Ok c.
Proof.
  intros rt l. induction l as [|[n e'] l IH]; intros d out H e I; [ destruct I | ]. cbn [t_eval_go] in H. apply rbind_inv in H. destruct H as (c & C & H).
  destruct I as [<-|I]; [ | exact (IH _ _ H e I) ]. unfold eval_column in C. apply rbind_inv in C. destruct C as (x & X & _). cbn [snd]. eauto.
Qed.
Lemma computed_ok : forall env c s st st' d, env_rt env = Disallow -> transform_command env c s st = (st', Ok d) ->
  forall e, computed_by c e -> exists y, to_spark_expr Disallow e = Ok y.
Proof.
  intros env c s st st' d R H e C. destruct c; try contradiction; cbn [computed_by] in C; cbn [transform_command] in H; rewrite R in H; cbn [select_rt] in H.
  - apply bind_inv in H. destruct H as (s1 & x & E & _). unfold lift in E.
    destruct (t_eval_go Disallow fields (d_or_default s)) as [y| |] eqn:G; try (injection E as _ E; discriminate E).
    exact (eval_go_all _ _ _ _ G e C).
  - subst. apply bind_inv in H. destruct H as (s1 & x & E & _). unfold lift, t_where in E.
    destruct (to_spark_expr Disallow e0); [ eauto | discriminate E.. ].
Qed.
Lemma part_refused : forall env p c e f args, env_rt env = Disallow -> occurs c p -> computed_by c e -> part (ECall f args) e ->
  (forall y, to_spark_expr Disallow (ECall f args) <> Ok y) -> forall out, render_pyspark env p <> Ok out.
Proof.
  intros env p c e f args R O C P N. apply (any_refused env (fun c => computed_by c e)) with (c := c); [ | exact O | exact C ].
  intros c' C'. split; [ destruct c'; intros []; contradiction | ].
  intros s st st' d H. destruct (computed_ok _ _ _ _ _ _ R H e C') as (y & Y).
  destruct (part_computes _ _ P (or_intror (ex_intro _ y Y))) as [(k & K)|(z & Z)]; [ discriminate K | exact (N _ Z) ].
Qed.
Lemma call_none : forall f args, (forall l, length l = length args -> forall c, eval_fn_bare f l <> Ok c) ->
  forall y, to_spark_expr Disallow (ECall f args) <> Ok y.
Proof.
  intros f args H y E. cbn [to_spark_expr] in E. unfold eval_fn in E. specialize (H (map (fun a => (a, to_spark_expr Disallow a)) args) (map_length _ _)).
  destruct (eval_fn_bare f (map (fun a => (a, to_spark_expr Disallow a)) args)) as [x| |]; [ exact (H x eq_refl) | discriminate E.. ].
Qed.
Lemma untranslated_refused : forall env p c e f args, env_rt env = Disallow -> occurs c p -> computed_by c e -> part (ECall f args) e ->
  In f untranslated -> forall out, render_pyspark env p <> Ok out.
Proof.
  intros env p c e f args R O C P I. apply (part_refused env p c e f args R O C P). apply call_none. intros l _ x X.
  assert (K : Forall (fun f => existsb (String.eqb f) eval_unsupported = true) untranslated) by (unfold untranslated; repeat constructor).
  rewrite Forall_forall in K. unfold eval_fn_bare in X. rewrite (K f I) in X. discriminate X.
Qed.
Lemma count_refused : forall env p c e f args ns, env_rt env = Disallow -> occurs c p -> computed_by c e -> part (ECall f args) e ->
  In (f, ns) argument_counts -> ~ In (length args) ns -> forall out, render_pyspark env p <> Ok out.
Proof.
  intros env p c e f args ns R O C P I N. apply (part_refused env p c e f args R O C P). apply call_none. intros l L.
  rewrite <- L in N. clear - I N. revert l N.
  assert (K : Forall (fun fn => forall l : list Arg, ~ In (length l) (snd fn) -> forall c, eval_fn_bare (fst fn) l <> Ok c) argument_counts); [ | rewrite Forall_forall in K; exact (K _ I) ].
  unfold argument_counts. repeat constructor; cbn [fst snd]; intros l N c E; unfold eval_fn_bare in E;
    cbn - [convert_time_format arg_expr arg_int arg_str map_args] in E;
    destruct l as [|a [|b [|d [|g l]]]];
    try (elim N; cbn; tauto); try discriminate E; try (arg_steps E; fail);
    (arg_steps E; match goal with M : map_args _ = Ok [] |- _ => apply map_args_length in M; discriminate M end).
Qed.
(** ** Aggregations *)
Lemma aggregation_argued : forall f args d y, stats_fn_bare f args d = Ok y -> Forall argued args.
Proof.
  intros f args d y H. unfold stats_fn_bare in H. destruct (existsb _ stats_unsupported); [ discriminate H | ].
  assert (K : forall (g : ColumnLike -> DataFrame * ColumnLike) r, rmap g r = Ok y -> exists z, r = Ok z) by (intros g [z| |] E; try discriminate E; eauto).
  assert (F1 : forall n b z, ft1 n args b = Ok z -> Forall argued args) by (intros n b z E; unfold ft1 in E; arg_steps E; arg_done).
  assert (Fm : forall n b z, ft_map n args b = Ok z -> Forall argued args) by (intros n b z E; unfold ft_map in E; arg_steps E; arg_done).
  destruct (assoc f stats_unary); [ destruct (K _ _ H) as (z & Z); eauto | ].
  repeat match type of H with (if ?b then _ else _) = _ => destruct b; [ destruct (K _ _ H) as (z & Z); unfold stats_perc in Z; eauto; fail | ] end.
  arg_steps H. arg_done.
Qed.
Lemma aggregated_ok : forall l d x, transform_stats_exprs Disallow d l = Ok x -> forall e f args, In e l ->
  (e = ECall f args \/ exists n, e = EAlias (ECall f args) n) -> exists d' y, stats_fn_bare f (with_args Disallow args) d' = Ok y.
Proof.
  induction l as [|e' l IH]; intros d x H e f args He Hf; [ destruct He | ]. cbn [transform_stats_exprs] in H.
  apply rbind_inv in H. destruct H as ([d1 c1] & H1 & H). apply rbind_inv in H. destruct H as ([d2 c2] & H2 & _).
  destruct He as [->|He]; [ | exact (IH _ _ H2 e f args He Hf) ].
  assert (S : forall d x, stats_fn Disallow (ECall f args) d = Ok x -> exists d' y, stats_fn_bare f (with_args Disallow args) d' = Ok y).
  { intros d0 x0 E. unfold stats_fn in E. cbn [expr_unaliased_with_name] in E. apply rbind_inv in E. destruct E as ([d3 c3] & E & _). eauto. }
  unfold transform_stats_expr in H1.
  destruct Hf as [-> |(n & ->)]; cbn [expr_unaliased_with_name fst] in H1; apply rbind_inv in H1; destruct H1 as ([d3 c3] & H1 & _); eauto.
Qed.
Lemma aggregates_ok : forall env c s st st' d f args, env_rt env = Disallow -> transform_command env c s st = (st', Ok d) -> aggregates c f args ->
  exists d' y, stats_fn_bare f (with_args Disallow args) d' = Ok y.
Proof.
  intros env c s st st' d f args R H (e & He & C). destruct c; try contradiction; cbn [transform_command] in H; rewrite R in H; cbn [select_rt] in H.
  - apply bind_inv in H. destruct H as (s1 & x & E & _). unfold lift, t_stats_standalone in E.
    match type of E with (_, ?r) = _ => destruct r as [y| |] eqn:Y; [ | injection E as _ E; discriminate E .. ] end.
    apply rbind_inv in Y. destruct Y as (z & Z & _). exact (aggregated_ok _ _ _ Z e f args C He).
  - apply bind_inv in H. destruct H as (s1 & x & E & _). unfold t_tstats_standalone in E.
    apply bind_inv in E. destruct E as (s2 & ? & _ & E). apply bind_inv in E. destruct E as (s3 & d1 & _ & E).
    apply bind_inv in E. destruct E as (s4 & d2 & _ & E). apply bind_inv in E. destruct E as (s5 & [d3 aggs] & E & _).
    unfold lift in E. destruct (transform_stats_exprs Disallow d2 exprs) as [z| |] eqn:Z; [ | injection E as _ E; discriminate E .. ].
    exact (aggregated_ok _ _ _ Z e f args C He).
Qed.
Lemma aggregation_none : forall env p c f args, env_rt env = Disallow -> occurs c p -> aggregates c f args ->
  (forall d y, stats_fn_bare f (with_args Disallow args) d <> Ok y) -> forall out, render_pyspark env p <> Ok out.
Proof.
  intros env p c f args R O A N. apply (any_refused env (fun c => aggregates c f args)) with (c := c); [ | exact O | exact A ].
  intros c' (e & He & C'). split; [ destruct c'; intros []; contradiction | ].
  intros s st st' d H. destruct (aggregates_ok _ _ _ _ _ _ f args R H (ex_intro _ e (conj He C'))) as (d' & y & Y). exact (N _ _ Y).
Qed.
Lemma aggregation_refused : forall env p c f args, env_rt env = Disallow -> occurs c p -> aggregates c f args -> In f untranslated_aggregations ->
  forall out, render_pyspark env p <> Ok out.
Proof.
  intros env p c f args R O A I. apply (aggregation_none env p c f args R O A). intros d y Y.
  assert (K : Forall (fun f => existsb (String.eqb f) stats_unsupported = true) untranslated_aggregations) by (unfold untranslated_aggregations; repeat constructor).
  rewrite Forall_forall in K. unfold stats_fn_bare in Y. rewrite (K f I) in Y. discriminate Y.
Qed.
Lemma aggregated_part_refused : forall env p c f args a g xs, env_rt env = Disallow -> occurs c p -> aggregates c f args ->
  In a args -> part (ECall g xs) a -> In g untranslated -> forall out, render_pyspark env p <> Ok out.
Proof.
  intros env p c f args a g xs R O A Ia P I. apply (aggregation_none env p c f args R O A). intros d y Y.
  apply aggregation_argued in Y. unfold with_args in Y. rewrite Forall_map, Forall_forall in Y. specialize (Y a Ia).
  assert (computes_to a) as C by (destruct Y as [(k & L)|(k & L)]; [ left | right ]; eauto).
  destruct (part_computes _ _ P C) as [(k & K)|(z & Z)]; [ discriminate K | ]. revert Z. apply call_none. intros l _ x X.
  assert (K : Forall (fun f => existsb (String.eqb f) eval_unsupported = true) untranslated) by (unfold untranslated; repeat constructor).
  rewrite Forall_forall in K. unfold eval_fn_bare in X. rewrite (K g I) in X. discriminate X.
Qed.
Lemma aggregation_count_refused : forall env p c f args ns, env_rt env = Disallow -> occurs c p -> aggregates c f args ->
  In (f, ns) aggregation_counts -> ~ In (length args) ns -> forall out, render_pyspark env p <> Ok out.
Proof.
  intros env p c f args ns R O A I N. apply (aggregation_none env p c f args R O A).
  assert (L : length (with_args Disallow args) = length args) by apply map_length. rewrite <- L in N. revert N. generalize (with_args Disallow args). clear - I.
  assert (K : Forall (fun fn => forall l : list Arg, ~ In (length l) (snd fn) -> forall d c, stats_fn_bare (fst fn) l d <> Ok c) aggregation_counts); [ | rewrite Forall_forall in K; exact (K _ I) ].
  unfold aggregation_counts. repeat constructor; cbn [fst snd]; intros l N d c E; unfold stats_fn_bare in E; cbn - [map_args arg_expr] in E;
    destruct l as [|a [|b l]]; try (elim N; cbn; tauto); try discriminate E.
  unfold ft_map in E. destruct (map_args (a :: b :: l)) as [x| |] eqn:M; try discriminate E. apply map_args_length in M.
  destruct x as [|? [|? ?]]; discriminate.
Qed.
(** ** The value of a call *)
Lemma call_gives : forall env sp db, env_rt env = Disallow -> walks_sets env ->
  forall p rows x f args (values : Row -> list Val) (result : Row -> Val), covered sp db p rows ->
  plain_name_text x = true -> plain_expr true (ECall f args) = true ->
  (forall r, In r rows -> Forall2 (fun a v => ev sp r a = Some v) args (values r) /\ apply_fn sp f (values r) = Some (result r)) ->
  gives env sp db (p ++ [CEval [(x, ECall f args)]]) (OFrame None (map (fun r => set_cell x (result r) r) rows)).
Proof.
  intros env sp db R W p rows x f args values result C Px Pe H. apply (eval_gives env sp db R W p rows); auto.
  clear C Px Pe. induction rows as [|r rows IH]; [ constructor | ]. cbn [map]. constructor; [ | apply IH; intros r' I; apply H; now right ].
  destruct (H r (or_introl eq_refl)) as [F A]. apply (AOne sp x _ (result r)); [ | constructor ]. cbn [ev].
  assert (E : all_some (map (ev sp r) args) = Some (values r)).
  { clear - F. induction F as [|a v args vs E F IH]; [ reflexivity | ]. cbn [map all_some]. now rewrite E, IH. }
  now rewrite E.
Qed.
(** ** Calls of documented functions can be written *)
From Verif Require Import SpecText SpecExpr ExprFacts LogicFacts EvalFacts CmdParser.
Lemma documented_plain : forall f, In f documented -> ~ In f ["in"; "like"; "lookup"]%string -> plain_ident f /\ ~ same_word f "TERM".
Proof.
  intros f I N.
  assert (K : forallb (fun f => str_in f ["in"; "like"; "lookup"]%string || ident_b f && negb (String.eqb (lower f) (lower "TERM"))) documented = true)
    by (vm_compute; reflexivity).
  rewrite forallb_forall in K. specialize (K f I). apply orb_true_iff in K. destruct K as [K|K].
  - apply existsb_exists in K. destruct K as (y & Hy & E). apply String.eqb_eq in E. subst y. contradiction.
  - apply andb_true_iff in K. destruct K as [K1 K2]. apply negb_true_iff in K2. split; [ now apply ident_by | now apply same_word_by ].
Qed.
Lemma documented_read : forall f x args, In f documented -> ~ In f ["in"; "like"; "lookup"]%string -> field_name x ->
  Forall (fun a => wf (fst a) /\ writes 9 (fst a) (snd a)) args ->
  parse ("eval " ++ x ++ "=" ++ f ++ "(" ++ commas (map snd args) ++ ")")%string
  = Some (Ok [CEval [(x, ECall f (map (fun a => meaning (fst a)) args))]]).
Proof.
  intros f x args I N Px F. destruct (documented_plain f I N) as [Pf Nt].
  pose proof (parse_eval [(x, (TCall f (map fst args), (f ++ "(" ++ commas (map snd args) ++ ")")%string))]) as H.
  cbn [map fst snd commas meaning] in H. rewrite map_map in H. apply H; [ discriminate | ]. constructor; [ | constructor ].
  cbn [fst snd]. split; [ exact Px | ]. split.
  - cbn [wf]. split; [ exact Pf | ]. split; [ exact Nt | ]. clear - F. induction F as [|a args [W _] F IH]; cbn [map]; [ exact I | exact (conj W IH) ].
  - assert (K : forall k, k <= 9 -> 2 <= k -> writes k (TCall f (map fst args)) (f ++ "(" ++ commas (map snd args) ++ ")")%string).
    { intros k Lk Gk. induction Gk as [|k Gk IH]; [ | apply W_up; [ lia | apply IH; lia ] ].
      apply W_call. clear - F. induction F as [|a args [_ W] F IH]; cbn [map]; constructor; assumption. }
    apply K; lia.
Qed.

(** ** relative_time *)
Lemma word_unit : forall w u, In (w, u) time_words -> plain_unit u = true.
Proof. intros w u H. cbn in H. repeat (destruct H as [H|H]; [ injection H as <- <-; reflexivity | ]). destruct H. Qed.
Lemma specifier_plain : forall s t, specifier s t -> plain_snap s = true.
Proof.
  intros [sp u o] t (a & w & b & _ & Hw & Ha & Hb). cbn [sn_span sn_snap sn_offset] in *. unfold plain_snap, plain_span. cbn [sn_span sn_snap sn_offset].
  rewrite (word_unit _ _ Hw).
  assert (S : forall o b, signed_span o b -> plain_unit (ts_scale o) = true) by (intros ? ? (x & Hx & _); now apply word_unit in Hx).
  assert (F : forall o b, first_span o b -> plain_unit (ts_scale o) = true).
  { intros ? ? [H|(x & Hx & _)]; [ now apply S in H | now apply word_unit in Hx ]. }
  destruct sp as [p|]; [ rewrite (F p a Ha) | ]; (destruct o as [q|]; [ now rewrite (S q b Hb) | reflexivity ]).
Qed.
Lemma relative_text : forall env sp db, env_rt env = Disallow -> walks_sets env ->
  forall x t st s spec rows (value : Row -> Val), db "main"%string = Some rows -> field_name x ->
  wf t -> writes 9 t st -> plain_expr true (meaning t) = true -> specifier s spec ->
  (forall r, In r rows -> ev sp r (meaning t) = Some (value r)) ->
  text_gives env sp db ("eval " ++ x ++ "=relative_time(" ++ st ++ ", " ++ in_quotes spec ++ ")")
    (OFrame None (map (fun r => set_cell x (relative sp r s (value r)) r) rows)).
Proof.
  intros env sp db Hrt Hw x t st s spec rows value D Hx Ht Wt Pt Hs Hv.
  assert (K : forall k, k <= 9 -> 2 <= k -> writes k (TTime s spec) (in_quotes spec)).
  { intros k Lk Gk. induction Gk as [|k Gk IH]; [ apply W_time | apply W_up; [ lia | apply IH; lia ] ]. }
  pose proof (documented_read "relative_time" x [(t, st); (TTime s spec, in_quotes spec)]
    ltac:(cbv; tauto) ltac:(intros [H|[H|[H|[]]]]; discriminate) Hx) as P.
  cbn [map fst snd commas] in P. cbn [append] in *. rewrite !ParserFacts.append_assoc_s in P. 
  assert (F : Forall (fun a => wf (fst a) /\ writes 9 (fst a) (snd a)) [(t, st); (TTime s spec, in_quotes spec)]).
  { constructor; [ exact (conj Ht Wt) | ]. constructor; [ | constructor ]. split; [ exact Hs | apply K; lia ]. }
  specialize (P F).
  apply (ResultFacts.text_frame _ _ _ _ _ _ P). apply (eval_gives env sp db Hrt Hw [] rows).
  - now apply ResultFacts.covered_nil.
  - constructor; [ | constructor ]. cbn [fst snd]. split; [ now apply CodeFacts.ident_name_text | ].
    cbn [meaning plain_expr]. rewrite Pt, (specifier_plain s spec Hs). cbn. now rewrite ?orb_true_r.
  - clear D P. induction rows as [|r rows IH]; [ constructor | ]. cbn [map]. constructor; [ | apply IH; intros r' I; apply Hv; now right ].
    apply (AOne sp x _ (relative sp r s (value r))); [ | constructor ]. cbn [meaning ev map]. rewrite (Hv r (or_introl eq_refl)). reflexivity.
Qed.
