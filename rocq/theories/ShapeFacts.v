(** What one command does to the data frame it is given *)
From Coq Require Import Lia Permutation.
From Verif Require Import Str SplAst PyAst Functions Transpile Render Commands SpecPipe PipeFacts AllowFacts TreeFacts NamesFacts.
Open Scope string_scope.

Definition is_step (d s : DataFrame) : Prop :=
  match d with
  | DSelect s' _ | DWhere s' _ | DGroupBy s' _ | DAggregation s' _
  | DWithColumn s' _ _ | DWithColumnRenamed s' _ _ | DOrderBy s' _ | DLimit s' _ | DTail s' _
  | DAlias s' _ | DArbitraryMethod s' _ _ => s' = s
  | _ => False
  end.
(** [built gen d0 d]: d is d0 with steps on top; if [gen], d may also start from a table of its own *)
Inductive built (gen : Prop) (d0 : DataFrame) : DataFrame -> Prop :=
| B_refl : built gen d0 d0
| B_source : forall n, gen -> built gen d0 (DSource n)
| B_raw : forall n, gen -> built gen d0 (DRawSource n)
| B_step : forall d s, is_step d s -> built gen d0 s -> built gen d0 d
| B_union : forall s n, gen -> built gen d0 s -> built gen d0 (DUnionByName s (DSource n)).
Lemma built_trans : forall (g : Prop) a b c, built g a b -> built g b c -> built g a c.
Proof.
  intros g a b c H1 H2. induction H2; auto.
  - now apply B_source.
  - now apply B_raw.
  - eapply B_step; eauto.
  - now apply B_union.
Qed.
Lemma built_mono : forall (g g' : Prop) a b, (g -> g') -> built g a b -> built g' a b.
Proof.
  intros g g' a b H1 H2. induction H2.
  - apply B_refl.
  - apply B_source; auto.
  - apply B_raw; auto.
  - eapply B_step; eauto.
  - apply B_union; auto.
Qed.
Ltac st1 := eapply B_step; [ reflexivity | ].

Definition plain_arg (r : RuntimeExpr) : Prop :=
  f_lines (frag_rexpr r) = [] /\ exists l, f_expr (frag_rexpr r) = map FText l.
Definition plain_args (args : list RuntimeExpr) (kw : list (string * RuntimeExpr)) : Prop :=
  Forall plain_arg args /\ Forall (fun kv => plain_arg (snd kv)) kw.
Definition df_name (st : St) : string := "df_" ++ dec_nat (st_df st).

(** A search that names an index, and a command that starts from a table of its own *)
Definition picks_index (e : Expr) : Prop := exists i l c, split_conditions e true [] = Ok (i :: l, c).
Definition restarts (c : Command) : Prop :=
  match c with CMakeResults _ => True | CSearch e => picks_index e | _ => False end.

Definition shaped (rt : Rt) (c : Command) (s : tstate) (st st' : St) (d : DataFrame) : Prop :=
  (built (restarts c \/ s = None) (d_or_default s) d /\ st_df st' = st_df st)
  \/ (rt <> Disallow /\ has_runtime c /\ exists f args kw,
        built False (DRuntime (df_name st) s f args kw) d /\ plain_args args kw /\ st_df st' = S (st_df st)).

Lemma plain_expr : forall e, plain_arg (RExpr e).
Proof. intro e. split; [ reflexivity | ]. exists [render_pexpr e]. reflexivity. Qed.
Lemma join_text : forall sep ls, exists l, frag_join sep (map (map FText) ls) = map FText l.
Proof.
  intros sep. induction ls as [|x [|y ls] [l E]].
  - now exists [].
  - now exists x.
  - cbn [map frag_join] in *. rewrite E. exists (x ++ sep :: l)%list. now rewrite map_app.
Qed.
Lemma plain_list : forall l, Forall plain_arg l -> plain_arg (RList l).
Proof.
  intros l H. split; [ reflexivity | ].
  assert (X : exists ls, map (fun x => f_expr (frag_rexpr x)) l = map (map FText) ls).
  { induction H as [|x l [_ [t Hx]] Hl [ls IH]]; [ now exists [] | ]. exists (t :: ls). cbn [map]. now rewrite Hx, IH. }
  destruct X as [ls X]. destruct (join_text ", " ls) as [t T]. cbn [frag_rexpr f_expr]. rewrite X, T.
  exists ("[ " :: t ++ [" ]"])%list. cbn [map]. now rewrite map_app.
Qed.
Lemma plain_dict : forall l, Forall (fun kv => plain_arg (snd kv)) l -> plain_arg (RDict l).
Proof.
  intros l H. split; [ reflexivity | ].
  assert (X : exists ls, map (fun kv : string * RuntimeExpr => FText (dq ++ fst kv ++ dq ++ ": ") :: f_expr (frag_rexpr (snd kv))) l = map (map FText) ls).
  { induction H as [|x l [_ [t Hx]] Hl [ls IH]]; [ now exists [] | ]. exists ((dq ++ fst x ++ dq ++ ": ")%string :: t :: ls)%list || eexists (_ :: ls). cbn [map]. rewrite Hx, IH.
    change (FText (dq ++ fst x ++ dq ++ ": ") :: map FText t) with (map FText ((dq ++ fst x ++ dq ++ ": ")%string :: t)). reflexivity. }
  destruct X as [ls X]. destruct (join_text ", " ls) as [t T]. cbn [frag_rexpr f_expr]. rewrite X, T.
  exists ("{ " :: t ++ [" }"])%list. cbn [map]. now rewrite map_app.
Qed.
Lemma plain_by : forall b, Forall (fun kv => plain_arg (snd kv)) (by_runtime b).
Proof.
  intros [l|]; cbn [by_runtime]; constructor; [ | constructor ]. apply plain_list. apply Forall_forall. intros x Hx.
  apply in_map_iff in Hx. destruct Hx as (f & <- & _). unfold transform_by_field. destruct (msf_span f); apply plain_expr.
Qed.
Lemma runtime_made : forall s f args kw st st' d, d_runtime s f args kw st = (st', Ok d) ->
  d = DRuntime (df_name st) s f args kw /\ st_df st' = S (st_df st).
Proof. intros s f args kw st st' d E. injection E as <- <-. split; reflexivity. Qed.
Lemma lift_inv : forall A (r : res A) st st' a, lift r st = (st', Ok a) -> st' = st /\ r = Ok a.
Proof. intros A r st st' a E. injection E as <- <-. auto. Qed.

Lemma stats_bare_built : forall g name args d p, stats_fn_bare name args d = Ok p -> built g d (fst p).
Proof.
  intros g name args d [d' c] H. unfold stats_fn_bare in H. destruct (existsb _ _); [ discriminate | ].
  assert (K : forall r : res ColumnLike, rmap (fun c => (d, c)) r = Ok (d', c) -> built g d d').
  { intros [x| | ] E; try discriminate. injection E as <- <-. apply B_refl. }
  assert (S : forall r : res ColumnLike, rmap (fun c => (order_by_time d, c)) r = Ok (d', c) -> built g d d').
  { intros [x| | ] E; try discriminate. injection E as <- <-. st1. apply B_refl. }
  cbn [fst].
  repeat match type of H with
  | match ?o with Some _ => _ | None => _ end = _ => destruct o; [ now apply K in H | ]
  | (if ?b then _ else _) = _ => destruct b; [ first [ now apply K in H | now apply S in H ] | ]
  end.
  apply rbind_inv in H. destruct H as (l & _ & H). injection H as <- <-. apply B_refl.
Qed.
Lemma stats_fn_built : forall g rt e d p, stats_fn rt e d = Ok p -> built g d (fst p).
Proof.
  intros g rt e d p H. unfold stats_fn in H. destruct (expr_unaliased_with_name e) as [e' o].
  destruct e'; try discriminate. apply rbind_inv in H. destruct H as ([d' c] & H & E). injection E as <-. cbn [fst].
  assert (R : forall q, stats_fn_runtime name (with_args rt args) d = Ok q -> built g d (fst q)).
  { intros q Hq. unfold stats_fn_runtime in Hq. apply rbind_inv in Hq. destruct Hq as (l & _ & Hq). injection Hq as <-. apply B_refl. }
  destruct rt.
  - exact (stats_bare_built g _ _ _ _ H).
  - destruct (stats_fn_runtime _ _ _) eqn:E; cbn [ror_else] in H; [ | | discriminate ].
    + injection H as ->. apply (R _ eq_refl).
    + exact (stats_bare_built g _ _ _ _ H).
  - apply (R _ H).
Qed.
Lemma stats_exprs_built : forall g rt l d p, transform_stats_exprs rt d l = Ok p -> built g d (fst p).
Proof.
  intros g rt. induction l as [|e l IH]; intros d p H; cbn [transform_stats_exprs] in H.
  - injection H as <-. apply B_refl.
  - apply rbind_inv in H. destruct H as ([d' c] & H1 & H). apply rbind_inv in H. destruct H as ([d'' cs] & H2 & H). injection H as <-.
    unfold transform_stats_expr in H1. destruct (expr_unaliased_with_name e) as [e' o]. destruct e'; try discriminate.
    apply rbind_inv in H1. destruct H1 as ([d1 c1] & H1 & E). injection E as <- <-.
    eapply built_trans; [ exact (stats_fn_built g _ _ _ _ H1) | exact (IH _ _ H2) ].
Qed.
Lemma eval_go_built : forall g rt l d d', t_eval_go rt l d = Ok d' -> built g d d'.
Proof.
  intros g rt. induction l as [|[n e] l IH]; intros d d' H; cbn [t_eval_go] in H; [ injection H as <-; apply B_refl | ].
  apply rbind_inv in H. destruct H as (c & _ & H). eapply built_trans; [ | exact (IH _ _ H) ]. st1. apply B_refl.
Qed.
Lemma convert_built : forall g tf l d d', t_convert_go tf l d = Ok d' -> built g d d'.
Proof.
  intros g tf. induction l as [|c l IH]; intros d d' H; cbn [t_convert_go] in H; [ injection H as <-; apply B_refl | ].
  apply rbind_inv in H. destruct H as (r & _ & H). eapply built_trans; [ | exact (IH _ _ H) ]. st1. apply B_refl.
Qed.
Lemma rename_built : forall g l d d', t_rename_go l d = Ok d' -> built g d d'.
Proof.
  intros g. induction l as [|[e n] l IH]; intros d d' H; cbn [t_rename_go] in H; [ injection H as <-; apply B_refl | ].
  destruct e as [[[]| | |]| | | | | | | | |]; try discriminate. eapply built_trans; [ | exact (IH _ _ H) ]. st1. apply B_refl.
Qed.
Lemma index_union_built : forall (g : Prop) d0 l d, g -> index_union l = Some d -> built g d0 d.
Proof.
  intros g d0 [|i l] d G E; [ discriminate | ]. cbn in E. injection E as <-.
  assert (X : forall l d, built g d0 d -> built g d0 (fold_left (fun d x => DUnionByName d (DSource x)) l d)).
  { clear -G. induction l as [|x l IH]; intros d Hd; cbn [fold_left]; auto. apply IH. now apply B_union. }
  apply X. now apply B_source.
Qed.
(** A runtime translation that fails takes no name *)
Definition quiet (r : M DataFrame) : Prop := forall st st' e, r st = (st', e) -> (forall d, e <> Ok d) -> st' = st.
Lemma quiet_unimpl : quiet unimplemented.
Proof. intros st st' e E _. now injection E as <- <-. Qed.
Lemma quiet_runtime : forall s f a k, quiet (d_runtime s f a k).
Proof. intros s f a k st st' e E H. injection E as <- <-. elim (H _ eq_refl). Qed.
Lemma quiet_bind : forall A (r : res A) f, (forall a, quiet (f a)) -> quiet (do x <- lift r; f x).
Proof.
  intros A [a| | ] f H st st' e E N; cbn in E; [ eapply H; eauto | now injection E as <- <- | now injection E as <- <- ].
Qed.
Lemma both_inv' : forall rt r m st st' s', quiet r -> (do d <- select_rt rt r m; ret (Some d)) st = (st', Ok s') ->
  exists d, s' = Some d /\ ((rt <> Disallow /\ r st = (st', Ok d)) \/ m st = (st', Ok d)).
Proof.
  intros rt r m st st' s' Q H. apply bind_inv in H. destruct H as (s1 & d & H & E). injection E as -> <-.
  exists d. split; auto. destruct rt; cbn [select_rt] in H; auto.
  - unfold or_else in H. destruct (r st) as [s2 [a| | ]] eqn:E; try discriminate.
    + injection H as -> ->. left. split; [ discriminate | first [ exact E | reflexivity ] ].
    + right. assert (N : forall d, @Err DataFrame <> Ok d) by (intros x X; discriminate X). pose proof (Q _ _ _ E N). subst. exact H.
  - left. split; [ discriminate | exact H ].
Qed.
Lemma only_inv : forall rt m st st' s', (do d <- select_rt rt unimplemented (lift m); ret (Some d)) st = (st', Ok s') ->
  exists d, s' = Some d /\ st' = st /\ m = Ok d.
Proof.
  intros rt m st st' s' H. apply both_inv' in H; [ | apply quiet_unimpl ]. destruct H as (d & -> & [[_ H]|H]); [ discriminate | ].
  apply lift_inv in H. destruct H. eauto.
Qed.
Lemma cmd_shape : forall env c s st st' s', ~ has_subsearch c -> transform_command env c s st = (st', Ok s') ->
  exists d, s' = Some d /\ shaped (env_rt env) c s st st' d.
Proof.
  intros env c s st st' s' NS H.
  assert (LEFT : forall m, (do d <- select_rt (env_rt env) unimplemented (lift m); ret (Some d)) st = (st', Ok s') ->
     (forall d, m = Ok d -> built (restarts c \/ s = None) (d_or_default s) d) ->
     exists d, s' = Some d /\ shaped (env_rt env) c s st st' d).
  { intros m E B. apply only_inv in E. destruct E as (d & -> & -> & E). exists d. split; auto. left. split; auto. }
  destruct c; cbn in NS; try (elim NS; exact I); cbn [transform_command] in H;
    try (unfold lift in H; discriminate); try (apply (LEFT _ H); intros d E; clear H LEFT).
  - injection E as <-. st1. apply B_refl.
  - injection E as <-. st1. destruct (bin_span o); [ st1 | ]; apply B_refl.
  - exact (convert_built _ _ _ _ _ E).
  - apply both_inv' in H; [ | apply quiet_runtime ]. destruct H as (d & -> & [[R H]|H]); exists d; split; auto.
    + apply runtime_made in H. destruct H as [-> H]. right. split; auto. split; [ exact I | ]. eexists _, _, _.
      split; [ apply B_refl | split; [ | exact H ] ]. split; [ constructor | ].
      repeat (apply Forall_cons; [ apply plain_expr | ]). constructor.
    + apply lift_inv in H. destruct H as [-> H]. left. split; auto.
      unfold t_datamodel_standalone in H. apply rbind_inv in H. destruct H as (_ & _ & H).
      destruct s as [d0|], (dm_data_model_name c), (dm_dataset_name c); try discriminate; injection H as <-; try (apply B_source; tauto). apply B_refl.
  - apply both_inv' in H; [ | apply quiet_bind; intro; apply quiet_runtime ]. destruct H as (d & -> & [[R H]|H]); exists d; split; auto.
    + apply bind_inv in H. destruct H as (s1 & kw & E1 & H). apply lift_inv in E1. destruct E1 as [-> E1].
      apply runtime_made in H. destruct H as [-> H]. right. split; auto. split; [ exact I | ]. eexists _, _, _.
      split; [ apply B_refl | split; [ | exact H ] ]. split; [ constructor | ].
      eapply (post_trav _ _ (fun kv => plain_arg (snd kv)) _ _ _ _ E1). Unshelve. apply Forall_forall. intros x _.
      eapply post_bind; [ apply post_any | ]. intros y _. apply post_ok. apply plain_expr.
    + apply lift_inv in H. destruct H as [-> H]. left. split; auto. exact (eval_go_built _ _ _ _ _ H).
  - injection E as <-. st1. apply B_refl.
  - apply both_inv' in H; [ | apply quiet_runtime ]. destruct H as (d & -> & [[R H]|H]); exists d; split; auto.
    + apply runtime_made in H. destruct H as [-> H]. right. split; auto. split; [ exact I | ]. eexists _, _, _.
      split; [ apply B_refl | split; [ | exact H ] ]. split; [ constructor | ].
      apply Forall_cons; [ apply plain_expr | ]. apply Forall_cons; [ | constructor ]. cbn [snd]. destruct fields; [ | apply plain_expr ].
      apply plain_list. apply Forall_forall. intros x Hx. apply in_map_iff in Hx. destruct Hx as (f & <- & _). apply plain_expr.
    + apply lift_inv in H. destruct H as [-> H]. left. split; auto. injection H as <-. st1. apply B_refl.
  - unfold t_head in E. apply rbind_inv in E. destruct E as (n & _ & E). injection E as <-. st1. apply B_refl.
  - unfold t_lookup in E. apply rbind_inv in E. destruct E as (n & _ & E). injection E as <-. st1. apply B_refl.
  - unfold t_makeresults in E. injection E as <-.
    destruct (mr_annotate c); repeat (st1; try (apply B_raw; left; exact I)).
  - unfold t_toprare in E. apply rbind_inv in E. destruct E as (n & _ & E). injection E as <-.
    destruct (tr_n c =? 0)%Z; [ | st1 ]; (st1; destruct (tr_show_percent c); [ st1 | ]; st1; st1; apply B_refl).
  - unfold t_regex in E. apply rbind_inv in E. destruct E as ([f i] & _ & E). injection E as <-. st1. apply B_refl.
  - exact (rename_built _ _ _ _ E).
  - unfold t_rex in E. apply rbind_inv in E. destruct E as (_ & _ & E). apply rbind_inv in E. destruct E as (_ & _ & E).
    apply rbind_inv in E. destruct E as (g & _ & E). injection E as <-. 
    match goal with |- built ?G ?d0 (fold_left ?F g ?d0) => assert (X : forall d, built G d0 d -> built G d0 (fold_left F g d)) end.
    { induction g as [|x g IH]; intros d Hd; cbn [fold_left]; auto. apply IH. eapply B_step; [ reflexivity | exact Hd ]. }
    apply X. apply B_refl.
  - apply both_inv' in H; [ | apply quiet_bind; intro; apply quiet_runtime ]. destruct H as (d & -> & [[R H]|H]); exists d; split; auto.
    + apply bind_inv in H. destruct H as (s1 & kw & E1 & H). apply lift_inv in E1. destruct E1 as [-> E1].
      apply runtime_made in H. destruct H as [-> H]. right. split; auto. split; [ exact I | ]. eexists _, _, _.
      split; [ apply B_refl | split; [ | exact H ] ].
      assert (F : Forall (fun x => match x with inl r => plain_arg r | inr kv => plain_arg (snd kv) end) kw).
      { eapply (post_trav _ _ (fun x => match x with inl r => plain_arg r | inr kv => plain_arg (snd kv) end) _ _ _ _ E1). Unshelve.
        apply Forall_forall. intros x _. unfold search_runtime_arg.
        assert (Dp : post (fun x => match x with inl r => plain_arg r | inr kv => plain_arg (snd kv) end)
          (let? y := to_spark_expr (env_rt env) x in Ok (@inl RuntimeExpr (string * RuntimeExpr) (RExpr y)))).
        { eapply post_bind; [ apply post_any | ]. intros y _. apply post_ok. apply plain_expr. }
        destruct x as [| |l o r| | | | | | |]; try exact Dp. destruct l as [[[]| | |]| | | | | | | | |]; try exact Dp.
        destruct (assoc s0 search_special).
        - eapply post_bind; [ apply post_any | ]. intros _ _.
          destruct r as [[[]| | |]| | | | | | | | |]; try perr; apply post_ok; apply plain_expr.
        - destruct (is_eq_op o); [ | exact Dp ]. eapply post_bind; [ apply post_any | ]. intros y _. apply post_ok. apply plain_expr. }
      clear E1 LEFT. split; induction F as [|[a|a] l Ha F IH]; cbn [lefts rights]; auto.
    + left. unfold t_search_standalone in H. apply bind_inv in H. destruct H as (s1 & [ind cond] & E1 & H).
      apply lift_inv in E1. destruct E1 as [-> E1]. apply bind_inv in H. destruct H as (s2 & d0 & E2 & H).
      assert (X : built (restarts (CSearch e) \/ s = None) (d_or_default s) d0 /\ st_df s2 = st_df st).
      { destruct ind as [|i ind]; [ injection E2 as <- <-; split; [ apply B_refl | reflexivity ] | ].
        apply bind_inv in E2. destruct E2 as (s3 & ord & E3 & E2). injection E3 as <- <-.
        destruct (index_union _) eqn:U; [ | discriminate ]. injection E2 as <- <-. split; [ | reflexivity ].
        eapply index_union_built; eauto. left. exists i, ind, cond. exact E1. }
      destruct X as [X1 X2]. destruct cond as [c|]; [ | injection H as <- <-; auto ].
      apply bind_inv in H. destruct H as (s4 & x & E4 & H). apply lift_inv in E4. destruct E4 as [-> E4]. injection H as <- <-.
      split; auto. st1. exact X1.
  - injection E as <-. st1. apply B_refl.
  - unfold t_sort in E. apply rbind_inv in E. destruct E as (k & _ & E). injection E as <-. destruct (_ =? 0)%Z; [ | st1 ]; st1; apply B_refl.
  - apply both_inv' in H; [ | apply quiet_bind; intro; apply quiet_runtime ]. destruct H as (d & -> & [[R H]|H]); exists d; split; auto.
    + apply bind_inv in H. destruct H as (s1 & kw & E1 & H). apply lift_inv in E1. destruct E1 as [-> E1].
      apply runtime_made in H. destruct H as [-> H]. right. split; auto. split; [ exact I | ]. eexists _, _, _.
      split; [ apply B_refl | split; [ | exact H ] ]. split; [ constructor | ]. apply Forall_app. split; [ apply plain_by | ].
      eapply (post_trav _ _ (fun kv => plain_arg (snd kv)) _ _ _ _ E1). Unshelve. apply Forall_forall. intros x _.
      unfold transform_stats_runtime_expr. destruct (expr_unaliased_with_name x) as [e' n]. destruct e'; try perr.
      eapply post_bind; [ apply post_any | ]. intros y _. apply post_ok. apply plain_expr.
    + apply lift_inv in H. destruct H as [-> H]. left. split; auto. unfold t_stats_standalone in H.
      apply rbind_inv in H. destruct H as ([d1 a] & E1 & H). injection H as <-. st1. st1. exact (stats_exprs_built _ _ _ _ _ E1).
  - injection E as <-. st1. apply B_refl.
  - injection E as <-. st1. apply B_refl.
  - unfold t_toprare in E. apply rbind_inv in E. destruct E as (n & _ & E). injection E as <-.
    destruct (tr_n c =? 0)%Z; [ | st1 ]; (st1; destruct (tr_show_percent c); [ st1 | ]; st1; st1; apply B_refl).
  - apply both_inv' in H; [ | apply quiet_bind; intro; apply quiet_bind; intro; apply quiet_bind; intro; apply quiet_runtime ].
    destruct H as (d & -> & [[R H]|H]); exists d; split; auto.
    + unfold t_tstats_runtime in H. apply bind_inv in H. destruct H as (s1 & u & E0 & H). apply lift_inv in E0. destruct E0 as [-> _].
      apply bind_inv in H. destruct H as (s1 & w & Ew & H). apply lift_inv in Ew. destruct Ew as [-> Ew].
      apply bind_inv in H. destruct H as (s1 & kw & E1 & H). apply lift_inv in E1. destruct E1 as [-> E1].
      apply runtime_made in H. destruct H as [-> H]. right. split; auto. split; [ exact I | ]. eexists _, _, _.
      split; [ apply B_refl | split; [ | exact H ] ]. split; [ constructor | ]. repeat (apply Forall_app; split).
      * constructor; [ | constructor ]. apply plain_dict. repeat (apply Forall_cons; [ apply plain_expr | ]). constructor.
      * destruct (tst_fill_null_value o); constructor; [ apply plain_expr | constructor ].
      * destruct where_condition; [ | injection Ew as <-; constructor ]. apply rbind_inv in Ew. destruct Ew as (x & _ & Ew). injection Ew as <-.
        constructor; [ apply plain_expr | constructor ].
      * apply plain_by.
      * eapply (post_trav _ _ (fun kv => plain_arg (snd kv)) _ _ _ _ E1). Unshelve. apply Forall_forall. intros x _.
        unfold transform_stats_runtime_expr. destruct (expr_unaliased_with_name x) as [e' n]. destruct e'; try perr.
        eapply post_bind; [ apply post_any | ]. intros y _. apply post_ok. apply plain_expr.
    + unfold t_tstats_standalone in H. apply bind_inv in H. destruct H as (s1 & u & E0 & H). apply lift_inv in E0. destruct E0 as [-> _].
      apply bind_inv in H. destruct H as (s1 & d0 & Ed & H).
      assert (T : forall g, built g d0 d /\ st' = s1).
      { intro g. apply bind_inv in H. destruct H as (s2 & d1 & E1 & H). apply lift_inv in E1. destruct E1 as [-> E1].
        apply bind_inv in H. destruct H as (s2 & [d2 a] & E2 & H). apply lift_inv in E2. destruct E2 as [-> E2].
        apply bind_inv in H. destruct H as (s2 & cols & E3 & H). apply lift_inv in E3. destruct E3 as [-> E3]. injection H as <- <-.
        split; auto. st1. st1. eapply built_trans; [ | exact (stats_exprs_built _ _ _ _ _ E2) ].
        destruct where_condition; [ | injection E1 as <-; apply B_refl ]. apply rbind_inv in E1. destruct E1 as (x & _ & E1).
        injection E1 as <-. st1. apply B_refl. }
      assert (Ed' : (env_rt env <> Disallow /\ t_datamodel_runtime (mkDataModel datamodel nodename (Some "search") false (tst_allow_old_summaries o) (tst_summaries_only o)) s st = (s1, Ok d0))
         \/ (s1 = st /\ t_datamodel_standalone (mkDataModel datamodel nodename (Some "search") false (tst_allow_old_summaries o) (tst_summaries_only o)) s = Ok d0)).
      { unfold t_datamodel in Ed. destruct (env_rt env); cbn [select_rt] in Ed.
        - apply lift_inv in Ed. tauto.
        - left. split; [ discriminate | ]. unfold or_else in Ed. cbn in Ed. exact Ed.
        - left. split; [ discriminate | exact Ed ]. }
      destruct Ed' as [[R E]|[-> E]].
      * apply runtime_made in E. destruct E as [E X]. subst d0. destruct (T False) as [B ->]. right. split; auto. split; [ exact I | ].
        eexists _, _, _. split; [ exact B | split; [ | exact X ] ]. split; [ constructor | ].
        repeat (apply Forall_cons; [ apply plain_expr | ]). constructor.
      * left. destruct (T (restarts (CTStats o exprs datamodel nodename where_condition by_fields by_prefix) \/ s = None)) as [B ->]. split; auto.
        eapply built_trans; [ | exact B ]. unfold t_datamodel_standalone in E. apply rbind_inv in E. destruct E as (_ & _ & E).
        destruct s as [d1|], datamodel, nodename; cbn in E; try discriminate; injection E as <-; try (apply B_source; tauto). apply B_refl.
  - unfold t_where in E. apply rbind_inv in E. destruct E as (k & _ & E). injection E as <-. st1. apply B_refl.
Qed.
