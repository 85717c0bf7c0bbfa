(** The calls of the runtime library in generated data frames *)
From Coq Require Import Lia.
From Verif Require Import Str SplAst PyAst Functions Transpile Render Commands SpecPipe PipeFacts AllowFacts TreeFacts ShapeFacts SpecCall.
Open Scope list_scope.
Open Scope string_scope.

(** ** Conditions of a search *)
Lemma conjuncts_same : forall e, break_down_ands e = conjuncts e.
Proof. reflexivity. Qed.
Lemma eq_op_iff : forall op, is_eq_op op = true <-> is_equality op.
Proof.
  intro op. unfold is_eq_op, is_equality. rewrite orb_true_iff, !String.eqb_eq. tauto.
Qed.
Lemma assoc_none : forall A (l : list (string * A)) k, assoc k l = None <-> ~ In k (map fst l).
Proof.
  intros A l k. induction l as [|[k' a] l IH]; cbn [assoc map fst In]; [ tauto | ].
  destruct (String.eqb_spec k k') as [->|N].
  - split; [ discriminate | intro H; elim H; now left ].
  - rewrite IH. split; [ intros H [X|X]; [ congruence | tauto ] | tauto ].
Qed.
Lemma assoc_in_list : forall A (l : list (string * A)) k a, assoc k l = Some a -> In (k, a) l.
Proof.
  intros A l k a. induction l as [|[k' b] l IH]; cbn [assoc]; [ discriminate | ].
  destruct (String.eqb_spec k k') as [->|N]; intro H; [ injection H as ->; now left | right; auto ].
Qed.
Lemma special_same : search_special = metadata. Proof. reflexivity. Qed.
Lemma metadata_fun : forall f k k', In (f, k) metadata -> In (f, k') metadata -> k = k'.
Proof.
  intros f k k'. unfold metadata. cbn [In]. intros H H'.
  repeat (destruct H as [H|H]; [ injection H as <- <-; repeat (destruct H' as [H'|H']; [ first [ discriminate H' | now injection H' as <- ] | ]); contradiction | ]).
  contradiction.
Qed.
Definition not_compared (e : Expr) : Prop :=
  match e with EBinary (ELeaf (LConstant (KField _))) _ _ => False | _ => True end.
Lemma not_compared_keyword : forall e k, not_compared e -> ~ keyword_of e k.
Proof. intros e k H K. inversion K; subst; exact H. Qed.
Section Args.
  Variable rt : Rt.
  Notation column := (fun e x => to_spark_expr rt e = Ok x).
  Lemma arg_carries : forall e a l args kw, search_runtime_arg rt e = Ok a -> carries column l args kw ->
    carries column (e :: l) (lefts [a] ++ args) (rights [a] ++ kw).
  Proof.
    intros e a l args kw H C.
    assert (P : (forall k, ~ keyword_of e k) -> (let? x := to_spark_expr rt e in Ok (@inl RuntimeExpr (string * RuntimeExpr) (RExpr x))) = Ok a ->
       carries column (e :: l) (lefts [a] ++ args) (rights [a] ++ kw)).
    { intros N E. apply rbind_inv in E. destruct E as (x & E & X). injection X as <-. cbn [lefts rights app].
      apply Ca_condition; auto. }
    assert (Q : not_compared e -> (let? x := to_spark_expr rt e in Ok (@inl RuntimeExpr (string * RuntimeExpr) (RExpr x))) = Ok a ->
       carries column (e :: l) (lefts [a] ++ args) (rights [a] ++ kw)).
    { intros N. apply P. intro k. now apply not_compared_keyword. }
    unfold search_runtime_arg in H. destruct e as [| |x o r| | | | | | |]; try (apply Q; [ exact I | exact H ]).
    destruct x as [[[]| | |]| | | | | | | | |]; try (apply Q; [ exact I | exact H ]).
    rewrite special_same in H. destruct (assoc s metadata) as [k|] eqn:A.
    - apply assoc_in_list in A. apply rbind_inv in H. destruct H as ([] & E & H). unfold ensure in E.
      destruct (is_eq_op o) eqn:O; [ | discriminate E ]. apply eq_op_iff in O.
      destruct r as [[[]| | |]| | | | | | | | |]; try discriminate H; injection H as <-; cbn [lefts rights app];
        eapply Ca_metadata; eauto.
    - apply assoc_none in A. destruct (is_eq_op o) eqn:O.
      + apply eq_op_iff in O. apply rbind_inv in H. destruct H as (x & E & H). injection H as <-. cbn [lefts rights app].
        now apply Ca_equal.
      + apply P; [ | exact H ]. intros k K. inversion K as [f k0 op r0 HI E1 E2|f op r0 HN HE E1]; subst.
        * apply A. apply in_map_iff. now exists (s, k).
        * apply eq_op_iff in HE. congruence.
  Qed.
  Lemma args_carry : forall es l, rtraverse (search_runtime_arg rt) es = Ok l -> carries column es (lefts l) (rights l).
  Proof.
    induction es as [|e es IH]; intros l H.
    - injection H as <-. constructor.
    - rewrite rtraverse_cons in H. apply rbind_inv in H. destruct H as (a & E & H). apply rbind_inv in H. destruct H as (l' & E' & H).
      injection H as <-. pose proof (arg_carries e a es _ _ E (IH _ E')) as C. destruct a; exact C.
  Qed.
End Args.
(** The keywords of a call that carries a search *)
Lemma carries_keywords : forall column es args kw, carries column es args kw ->
  exists l, Forall2 (fun c k => match k with Some n => keyword_of c n | None => forall n, ~ keyword_of c n end) es l /\
    map fst kw = List.concat (map (fun k => match k with Some n => [n] | None => [] end) l).
Proof.
  induction 1 as [|e x l args kw N _ _ (k & F & E)|f op r x l args kw M O _ _ (k & F & E)|f k0 op v c l args kw I0 O V _ (k & F & E)].
  - exists []. split; [ constructor | reflexivity ].
  - exists (None :: k). split; [ now constructor | exact E ].
  - exists (Some f :: k). split; [ constructor; [ now apply K_field | exact F ] | cbn; now rewrite E ].
  - exists (Some k0 :: k). split; [ constructor; [ now apply (K_metadata f) | exact F ] | cbn; now rewrite E ].
Qed.

(** ** The call a command is translated to *)
Definition rt_name (c : Command) : option string :=
  match c with
  | CSearch _ => Some "search" | CEval _ => Some "eval" | CFillNull _ _ => Some "fill_null"
  | CStats _ _ _ => Some "stats" | CTStats _ _ _ _ _ _ _ => Some "tstats" | CDataModel _ => Some "data_model"
  | _ => None
  end.
Definition model_keywords : list string :=
  [ "data_model_name"; "dataset_name"; "search_mode"; "strict_fields"; "allow_old_summaries"; "summaries_only" ].
Definition call_of (rt : Rt) (c : Command) (f : string) (args : list RuntimeExpr) (kw : list (string * RuntimeExpr)) : Prop :=
  rt_name c = Some f /\
  match c with
  | CSearch e => carries (fun e x => to_spark_expr rt e = Ok x) (conjuncts e) args kw
  | CDataModel _ => args = [] /\ map fst kw = model_keywords
  | _ => args = [] /\ keywords c (map fst kw)
  end.
Definition no_frames (args : list RuntimeExpr) (kw : list (string * RuntimeExpr)) : Prop :=
  List.concat (map rt_frames args) = [] /\ List.concat (map (fun kv => rt_frames (snd kv)) kw) = [].
Lemma carries_frames : forall column es args kw, carries column es args kw -> no_frames args kw.
Proof. induction 1 as [|? ? ? ? ? ? ? ? [A B]|? ? ? ? ? ? ? ? ? ? ? [A B]|? ? ? ? ? ? ? ? ? ? ? ? [A B]]; split; cbn; auto. Qed.
Lemma trav_inv : forall A B (P : A -> B -> Prop) (f : A -> res B) l l', (forall a b, f a = Ok b -> P a b) ->
  rtraverse f l = Ok l' -> Forall2 P l l'.
Proof.
  intros A B P f l. induction l as [|a l IH]; intros l' H E; [ injection E as <-; constructor | ].
  rewrite rtraverse_cons in E. apply rbind_inv in E. destruct E as (b & E1 & E). apply rbind_inv in E. destruct E as (l2 & E2 & E).
  injection E as <-. constructor; auto.
Qed.
Lemma stats_arg : forall rt e kv, transform_stats_runtime_expr rt e = Ok kv -> fst kv = label e /\ rt_frames (snd kv) = [].
Proof.
  intros rt e kv H. unfold transform_stats_runtime_expr in H.
  assert (L : forall f args a, fst (expr_unaliased_with_name e) = ECall f args ->
     match snd (expr_unaliased_with_name e) with Some n => n | None => f end = a -> a = label e).
  { intros f args a X <-. destruct e as [| | | | | | | |e n|]; try discriminate X; cbn [expr_unaliased_with_name fst snd] in *; try discriminate X.
    - injection X as <- <-. reflexivity.
    - reflexivity. }
  destruct (expr_unaliased_with_name e) as [e' o]. cbn [fst snd] in L. destruct e'; try discriminate H.
  apply rbind_inv in H. destruct H as (l & _ & H). injection H as <-. cbn [fst snd rt_frames]. split; [ | reflexivity ].
  now apply (L name args).
Qed.
Lemma stats_args : forall rt l kw, rtraverse (transform_stats_runtime_expr rt) l = Ok kw ->
  map fst kw = map label l /\ List.concat (map (fun kv => rt_frames (snd kv)) kw) = [].
Proof.
  intros rt l kw H. apply (trav_inv _ _ (fun e kv => fst kv = label e /\ rt_frames (snd kv) = [])) in H; [ | apply stats_arg ].
  induction H as [|e kv l kw [A B] F [C D]]; [ auto | ]. cbn. now rewrite A, B, C, D.
Qed.
Lemma by_args : forall b, map fst (by_runtime b) = by_keyword b /\ List.concat (map (fun kv => rt_frames (snd kv)) (by_runtime b)) = [].
Proof.
  intros [l|]; [ | auto ]. split; [ reflexivity | ]. cbn. rewrite app_nil_r.
  induction l as [|f l IH]; [ reflexivity | ]. cbn. rewrite IH. unfold transform_by_field. destruct (msf_span f); reflexivity.
Qed.
Lemma eval_args : forall rt l kw, rtraverse (fun fe : string * Expr => let? c := eval_column rt (snd fe) in Ok (fst fe, RExpr (PCol (cl_unaliased c)))) l = Ok kw ->
  map fst kw = map fst l /\ List.concat (map (fun kv => rt_frames (snd kv)) kw) = [].
Proof.
  intros rt l kw H. apply (trav_inv _ _ (fun (fe : string * Expr) kv => fst kv = fst fe /\ rt_frames (snd kv) = [])) in H.
  - induction H as [|e kv l kw [A B] F [C D]]; [ auto | ]. cbn. now rewrite A, B, C, D.
  - intros a b E. apply rbind_inv in E. destruct E as (c & _ & E). now injection E as <-.
Qed.

(** A standalone aggregation that is accepted has translatable arguments, so that the runtime
    version is accepted too *)
Lemma args_ok : forall rt args l, map_args (with_args rt args) = Ok l -> exists l', rtraverse (to_spark_expr rt) args = Ok l'.
Proof.
  intros rt. induction args as [|a args IH]; intros l H; [ now exists [] | ].
  unfold map_args in *. cbn [with_args map] in H. rewrite rtraverse_cons in H. apply rbind_inv in H. destruct H as (x & E & H).
  apply rbind_inv in H. destruct H as (l1 & E1 & _). destruct (IH _ E1) as [l2 E2].
  unfold arg_expr in E. cbn [snd] in E. destruct (to_spark_expr rt a) as [y| |] eqn:Ey; try discriminate E.
  exists (y :: l2). rewrite rtraverse_cons, Ey. cbn [rbind]. now rewrite E2.
Qed.
Lemma ft1_args : forall n args body c, ft1 n args body = Ok c -> exists l, map_args args = Ok l.
Proof.
  intros n [|a [|]] body c H; try discriminate H. cbn [ft1] in H. apply rbind_inv in H. destruct H as (x & E & _).
  exists [x]. unfold map_args. rewrite rtraverse_cons, E. reflexivity.
Qed.
Lemma ft_map_args : forall n args body c, ft_map n args body = Ok c -> exists l, map_args args = Ok l.
Proof. intros n args body c H. apply rbind_inv in H. destruct H as (x & E & _). eauto. Qed.
Lemma bare_args : forall name args d p, stats_fn_bare name args d = Ok p -> exists l, map_args args = Ok l.
Proof.
  intros name args d p H. unfold stats_fn_bare in H. destruct (existsb _ _); [ discriminate H | ].
  assert (K : forall (r : res ColumnLike) (g : ColumnLike -> DataFrame * ColumnLike), rmap g r = Ok p -> exists c, r = Ok c)
    by (intros [x| |] g E; try discriminate E; eauto).
  repeat match type of H with
  | match ?o with Some _ => _ | None => _ end = _ => destruct o
  | (if ?b then _ else _) = _ => destruct b
  end;
  try (apply K in H; destruct H as [c H]; first [ exact (ft1_args _ _ _ _ H) | exact (ft_map_args _ _ _ _ H) ]).
  apply rbind_inv in H. destruct H as (l & E & _). eauto.
Qed.
Lemma agg_runtime : forall e d p, transform_stats_expr Allow d e = Ok p -> exists kv, transform_stats_runtime_expr Allow e = Ok kv.
Proof.
  intros e d p H. unfold transform_stats_expr in H. unfold transform_stats_runtime_expr. unfold stats_fn in H.
  destruct (expr_unaliased_with_name e) as [e' o] eqn:E. destruct e'; try discriminate H.
  apply rbind_inv in H. destruct H as (q & H & _). apply rbind_inv in H. destruct H as (q' & H & _).
  assert (X : exists l, map_args (with_args Allow args) = Ok l).
  { unfold stats_fn_runtime in H. destruct (map_args (with_args Allow args)) as [l| |] eqn:M; [ eauto | | ].
    - cbn [rbind ror_else] in H. destruct (bare_args _ _ _ _ H) as [l X]. congruence.
    - cbn [rbind ror_else] in H. discriminate H. }
  destruct X as [l X]. destruct (args_ok _ _ _ X) as [l' E']. rewrite E'. cbn [rbind]. eauto.
Qed.
Lemma aggs_runtime : forall l d p, transform_stats_exprs Allow d l = Ok p -> exists kw, rtraverse (transform_stats_runtime_expr Allow) l = Ok kw.
Proof.
  induction l as [|e l IH]; intros d p H; [ now exists [] | ]. cbn [transform_stats_exprs] in H.
  apply rbind_inv in H. destruct H as ([d1 c] & H1 & H). apply rbind_inv in H. destruct H as ([d2 cs] & H2 & _).
  destruct (agg_runtime _ _ _ H1) as [kv E]. destruct (IH _ _ H2) as [kw E']. exists (kv :: kw).
  rewrite rtraverse_cons, E. cbn [rbind]. now rewrite E'.
Qed.

Definition outcome (rt : Rt) (c : Command) (s : tstate) (d : DataFrame) : Prop :=
  built True (d_or_default s) d \/
  (exists n f args kw, d = DRuntime n s f args kw /\ call_of rt c f args kw /\ no_frames args kw).
Lemma cmd_call : forall env c s st st' s', ~ has_subsearch c -> transform_command env c s st = (st', Ok s') ->
  exists d, s' = Some d /\ outcome (env_rt env) c s d.
Proof.
  intros env c s st st' s' NS H. destruct (cmd_shape env c s st st' s' NS H) as (d & -> & [[B _]|(R & RT & f & args & kw & B & P & E)]).
  { exists d. split; [ reflexivity | left ]. now apply (built_mono (restarts c \/ s = None)). }
  exists d. split; [ reflexivity | ]. clear f args kw B P E.
  assert (OK : forall n f args kw, d = DRuntime n s f args kw -> call_of (env_rt env) c f args kw -> no_frames args kw -> outcome (env_rt env) c s d)
    by (intros; right; eauto 8).
  assert (ST : forall g (m : res DataFrame), lift m st = (st', Ok d) -> (forall d, m = Ok d -> built g (d_or_default s) d) -> outcome (env_rt env) c s d).
  { intros g m E K. apply lift_inv in E. destruct E as [_ E]. left. now apply (built_mono g), K. }
  destruct c; cbn in RT; try contradiction; cbn [transform_command] in H.
  - apply both_inv' in H; [ | apply quiet_runtime ]. destruct H as (d' & E & [[_ H]|H]); injection E as <-.
    + apply runtime_made in H. destruct H as [-> _]. eapply OK; [ reflexivity | split; [ reflexivity | split; reflexivity ] | split; reflexivity ].
    + apply (ST True _ H). intros x Ex. unfold t_datamodel_standalone in Ex. apply rbind_inv in Ex. destruct Ex as (_ & _ & Ex).
      destruct s as [d0|], (dm_data_model_name c), (dm_dataset_name c); try discriminate; injection Ex as <-; try (apply B_source; exact I). apply B_refl.
  - apply both_inv' in H; [ | apply quiet_bind; intro; apply quiet_runtime ]. destruct H as (d' & E & [[_ H]|H]); injection E as <-.
    + apply bind_inv in H. destruct H as (s1 & kw & E1 & H). apply lift_inv in E1. destruct E1 as [_ E1].
      apply runtime_made in H. destruct H as [-> _]. apply eval_args in E1. destruct E1 as [K F].
      eapply OK; [ reflexivity | split; [ reflexivity | split; [ reflexivity | rewrite K; constructor ] ] | split; [ reflexivity | exact F ] ].
    + apply (ST True _ H). intros x Ex. now apply (eval_go_built True) in Ex.
  - apply both_inv' in H; [ | apply quiet_runtime ]. destruct H as (d' & E & [[_ H]|H]); injection E as <-.
    + apply runtime_made in H. destruct H as [-> _].
      eapply OK; [ reflexivity | split; [ reflexivity | split; [ reflexivity | constructor ] ] | split; [ reflexivity | ] ].
      cbn. destruct fields as [l|]; [ | reflexivity ]. rewrite app_nil_r. clear. induction l as [|y l IH]; [ reflexivity | exact IH ].
    + apply (ST True _ H). intros x Ex. injection Ex as <-. st1. apply B_refl.
  - apply both_inv' in H; [ | apply quiet_bind; intro; apply quiet_runtime ]. destruct H as (d' & E & [[_ H]|H]); injection E as <-.
    + apply bind_inv in H. destruct H as (s1 & l & E1 & H). apply lift_inv in E1. destruct E1 as [_ E1]. rewrite conjuncts_same in E1.
      apply runtime_made in H. destruct H as [-> _]. apply args_carry in E1.
      eapply OK; [ reflexivity | split; [ reflexivity | exact E1 ] | now apply carries_frames in E1 ].
    + left. unfold t_search_standalone in H. apply bind_inv in H. destruct H as (s1 & [ind cond] & E1 & H).
      apply bind_inv in H. destruct H as (s2 & d0 & E2 & H).
      assert (X : built True (d_or_default s) d0).
      { destruct ind as [|i ind]; [ injection E2 as <- <-; apply B_refl | ].
        apply bind_inv in E2. destruct E2 as (s3 & ord & E3 & E2).
        destruct (index_union _) eqn:U; [ | discriminate ]. injection E2 as <- <-.
        eapply index_union_built; eauto. }
      destruct cond as [c|]; [ | injection H as <- <-; auto ].
      apply bind_inv in H. destruct H as (s4 & x & E4 & H). injection H as <- <-. st1. exact X.
  - apply both_inv' in H; [ | apply quiet_bind; intro; apply quiet_runtime ]. destruct H as (d' & E & [[_ H]|H]); injection E as <-.
    + apply bind_inv in H. destruct H as (s1 & kw & E1 & H). apply lift_inv in E1. destruct E1 as [_ E1].
      apply runtime_made in H. destruct H as [-> _]. apply stats_args in E1. destruct E1 as [K F]. destruct (by_args by_) as [K2 F2].
      eapply OK; [ reflexivity | split; [ reflexivity | split; [ reflexivity | ] ] | split; [ reflexivity | ] ].
      * rewrite map_app, K, K2. constructor.
      * rewrite map_app, concat_app, F, F2. reflexivity.
    + apply (ST True _ H). intros x Ex. unfold t_stats_standalone in Ex.
      apply rbind_inv in Ex. destruct Ex as ([d1 a] & E1 & Ex). injection Ex as <-. st1. st1. exact (stats_exprs_built _ _ _ _ _ E1).
  - (* the standalone version would be reached only when the runtime version is refused *)
    apply bind_inv in H. destruct H as (s1 & dd & H & E'). injection E' as <- <-.
    assert (RTC : forall st st' d, t_tstats_runtime (env_rt env) o exprs datamodel nodename where_condition by_fields s st = (st', Ok d) ->
       exists n kw, d = DRuntime n s "tstats" [] kw /\ keywords (CTStats o exprs datamodel nodename where_condition by_fields by_prefix) (map fst kw) /\ no_frames [] kw).
    { clear. intros st st' d H. unfold t_tstats_runtime in H. apply bind_inv in H. destruct H as (s1 & u & E0 & H).
      apply bind_inv in H. destruct H as (s2 & w & Ew & H). apply lift_inv in Ew. destruct Ew as [_ Ew].
      apply bind_inv in H. destruct H as (s3 & kw & E1 & H). apply lift_inv in E1. destruct E1 as [_ E1].
      apply runtime_made in H. destruct H as [-> _]. apply stats_args in E1. destruct E1 as [K F]. destruct (by_args by_fields) as [K2 F2].
      assert (W : map fst w = match where_condition with Some _ => ["where"] | None => [] end /\ List.concat (map (fun kv => rt_frames (snd kv)) w) = []).
      { destruct where_condition; [ apply rbind_inv in Ew; destruct Ew as (x & _ & Ew) | ]; injection Ew as <-; split; reflexivity. }
      destruct W as [W1 W2]. eexists _, _. split; [ reflexivity | ]. split; [ | split; [ reflexivity | ] ].
      - rewrite !map_app, W1, K, K2. destruct (tst_fill_null_value o) eqn:V;
          match goal with |- keywords ?c ?l => assert (X : keywords c l); [ | exact X ] end;
          pose proof (KW_tstats o exprs datamodel nodename where_condition by_fields by_prefix) as X; rewrite V in X; exact X.
      - rewrite !map_app, !concat_app, F, F2, W2. destruct (tst_fill_null_value o); reflexivity. }
    assert (K : exists st2, t_tstats_runtime (env_rt env) o exprs datamodel nodename where_condition by_fields s st = (st2, Ok dd)).
    { destruct (env_rt env) eqn:ER; [ now elim R | | eauto ]. cbn [select_rt] in H. unfold or_else in H.
      destruct (t_tstats_runtime Allow o exprs datamodel nodename where_condition by_fields s st) as [st2 [y| |]] eqn:NP;
        [ injection H as -> ->; eauto | | discriminate H ].
      exfalso. unfold t_tstats_standalone in H. apply bind_inv in H. destruct H as (s2 & u & E0 & H).
      apply bind_inv in H. destruct H as (s3 & d0 & Ed & H). apply bind_inv in H. destruct H as (s4 & d1 & Ew & H).
      apply lift_inv in Ew. destruct Ew as [_ Ew]. apply bind_inv in H. destruct H as (s5 & [d2 a] & Ea & H).
      apply lift_inv in Ea. destruct Ea as [_ Ea]. destruct (aggs_runtime _ _ _ Ea) as [kw Ek].
      apply lift_inv in E0. destruct E0 as [_ E0]. unfold t_tstats_runtime in NP. rewrite E0 in NP.
      destruct where_condition as [w|]; [ apply rbind_inv in Ew; destruct Ew as (x & Ew & _); rewrite Ew in NP | ];
        unfold bind, lift, rbind in NP; rewrite Ek in NP; discriminate NP. }
    destruct K as [st2 K]. destruct (RTC _ _ _ K) as (n & kw & E & K2 & F).
    eapply OK; [ exact E | split; [ reflexivity | split; [ reflexivity | exact K2 ] ] | exact F ].
Qed.

(** ** Every call in a generated data frame *)
Definition calls_from (rt : Rt) (p : list Command) (d : DataFrame) : Prop :=
  forall n s f args kw, In (DRuntime n s f args kw) (frames d) -> exists c, occurs c p /\ call_of rt c f args kw.
Definition CF (rt : Rt) (p : list Command) (s : tstate) : Prop := forall d, s = Some d -> calls_from rt p d.
Lemma occurs_left : forall c p q, occurs c p -> occurs c (p ++ q).
Proof.
  intros c p q H. inversion H; subst; [ apply OC_here | eapply OC_join | eapply OC_multisearch ]; eauto using in_or_app.
Qed.
Lemma occurs_right : forall c p q, occurs c q -> occurs c (p ++ q).
Proof.
  intros c p q H. inversion H; subst; [ apply OC_here | eapply OC_join | eapply OC_multisearch ]; eauto using in_or_app.
Qed.
Lemma CF_mono : forall rt p q d, (forall c, occurs c p -> occurs c q) -> calls_from rt p d -> calls_from rt q d.
Proof. intros rt p q d M H n s f args kw I0. destruct (H _ _ _ _ _ I0) as (c & O & C). eauto. Qed.
Lemma calls_built : forall rt p g d0 d, built g d0 d -> calls_from rt p d0 -> calls_from rt p d.
Proof.
  intros rt p g d0 d B H. induction B as [| | |d s E B IH|s n G B IH].
  - exact H.
  - intros ? ? ? ? ? [X|[]]. discriminate X.
  - intros ? ? ? ? ? [X|[]]. discriminate X.
  - intros n s' f args kw I0. destruct d; cbn [is_step] in E; try contradiction; subst; cbn [frames In] in I0;
      (destruct I0 as [X|I0]; [ discriminate X | now apply (IH n s' f args kw) ]).
  - intros n' s' f args kw I0. cbn [frames In] in I0. destruct I0 as [X|I0]; [ discriminate X | ].
    apply in_app_or in I0. destruct I0 as [I0|[X|[]]]; [ now apply (IH n' s' f args kw) | discriminate X ].
Qed.
Lemma calls_source : forall rt p n, calls_from rt p (DSource n).
Proof. intros rt p n ? ? ? ? ? [X|[]]. discriminate X. Qed.
Lemma calls_default : forall rt p s, CF rt p s -> calls_from rt p (d_or_default s).
Proof. intros rt p [d|] H; [ now apply H | apply calls_source ]. Qed.
Definition CC (env : Env) (c : Command) : Prop := forall p st st' s s', CF (env_rt env) p s ->
  transform_command env c s st = (st', Ok s') -> CF (env_rt env) (p ++ [c]) s'.
Lemma run_calls : forall env q, Forall (CC env) q -> forall p st st' s s', CF (env_rt env) p s ->
  run_commands (transform_command env) q s st = (st', Ok s') -> CF (env_rt env) (p ++ q) s'.
Proof.
  intros env q F. induction F as [|c q Hc Hq IH]; intros p st st' s s' HS H; cbn [run_commands] in H.
  - injection H as <- <-. now rewrite app_nil_r.
  - apply bind_inv in H. destruct H as (s1 & a & E1 & E2). pose proof (IH _ _ _ _ _ (Hc _ _ _ _ _ HS E1) E2) as R.
    now rewrite <- app_assoc in R.
Qed.
Lemma CF_none : forall rt p, CF rt p None. Proof. intros rt p d E. discriminate E. Qed.
Lemma calls_two : forall rt p a b d, frames d = d :: frames a ++ frames b -> (forall n s f x k, d <> DRuntime n s f x k) ->
  calls_from rt p a -> calls_from rt p b -> calls_from rt p d.
Proof.
  intros rt p a b d E N A B n s f args kw I0. rewrite E in I0. destruct I0 as [X|I0]; [ now elim (N n s f args kw) | ].
  apply in_app_or in I0. destruct I0 as [I0|I0]; [ now apply (A n s f args kw) | now apply (B n s f args kw) ].
Qed.
Lemma unions_calls : forall env ps, Forall (Forall (CC env)) ps -> forall q, (forall c p, In p ps -> occurs c p -> occurs c q) ->
  forall st st' cur r, CF (env_rt env) q cur ->
  run_unions (transform_command env) ps cur st = (st', Ok r) -> CF (env_rt env) q r.
Proof.
  intros env ps F q. induction F as [|p ps Hp Hps IH]; intros M st st' cur r HS H; cbn [run_unions] in H.
  - now injection H as <- <-.
  - apply bind_inv in H. destruct H as (s1 & a & E1 & E2).
    pose proof (run_calls env p Hp [] _ _ _ _ (CF_none _ _) E1) as K. cbn [app] in K.
    destruct a as [d|]; [ | discriminate ].
    assert (Kd : calls_from (env_rt env) q d). { apply (CF_mono _ p); [ | now apply K ]. intros c. apply M. now left. }
    eapply IH; [ | | exact E2 ].
    + intros c p' I0. apply M. now right.
    + intros x E. injection E as <-. destruct cur as [c|]; [ | exact Kd ].
      apply (calls_two _ _ c d); [ reflexivity | discriminate | now apply HS | exact Kd ].
Qed.
Lemma cmd_calls : forall env c, CC env c.
Proof.
  intros env. induction c using cmd_induct; intros q st st' s s' HS HT.
  - cbn [transform_command] in HT. apply only_none in HT. destruct HT as (_ & x & E & ->).
    apply bind_inv in E. destruct E as (s1 & u & E0 & E). apply lift_inv in E0. destruct E0 as [-> _].
    apply bind_inv in E. destruct E as (s2 & r & E & EJ). apply lift_inv in EJ. destruct EJ as [-> EJ].
    pose proof (run_calls env p H [] _ _ _ _ (CF_none _ _) E) as K. cbn [app] in K.
    unfold t_join in EJ. destruct r as [r|]; [ | discriminate ]. apply rbind_inv in EJ. destruct EJ as (ty & _ & EJ).
    apply rbind_inv in EJ. destruct EJ as (cd & _ & EJ). injection EJ as <-. intros d Ed. injection Ed as <-.
    eapply calls_two; [ reflexivity | discriminate | | ].
    + eapply (calls_built _ _ False); [ st1; apply B_refl | ]. apply (CF_mono _ q); [ intros; now apply occurs_left | ]. now apply calls_default.
    + eapply (calls_built _ _ False); [ st1; apply B_refl | ]. apply (CF_mono _ p); [ | now apply K ].
      intros c O. apply occurs_right. eapply OC_join; [ now left | exact O ].
  - cbn [transform_command] in HT. destruct ps as [|p ps].
    + assert (X : s' = s) by (destruct (env_rt env); [ now injection HT as <- <- | now injection HT as <- <- | discriminate HT ]).
      subst s'. intros d E. apply (CF_mono _ q); [ intros; now apply occurs_left | now apply HS ].
    + apply only_none in HT. destruct HT as (_ & x & E & ->). apply bind_inv in E. destruct E as (s1 & r & E & E2).
      destruct r as [d|]; [ | discriminate ]. injection E2 as -> ->.
      eapply (unions_calls env (p :: ps) H); [ | apply CF_none | exact E ].
      intros c p' I0 O. apply occurs_right. eapply OC_multisearch; [ now left | exact I0 | exact O ].
  - destruct (cmd_call env c s st st' s' H HT) as (d & -> & [B|(n & f & args & kw & -> & C & [F1 F2])]); intros x Ex; injection Ex as <-.
    + apply (CF_mono _ q); [ intros; now apply occurs_left | ]. apply (calls_built _ _ _ _ _ B). now apply calls_default.
    + intros n' s2 f' args' kw' I0. cbn [frames] in I0. rewrite F1, F2 in I0. cbn [app] in I0. rewrite app_nil_r in I0.
      destruct I0 as [X|I0].
      * injection X as <- <- <- <- <-. exists c. split; [ apply occurs_right; apply OC_here; now left | exact C ].
      * destruct s as [d|]; [ | contradiction ]. destruct (HS d eq_refl _ _ _ _ _ I0) as (c' & O & C'). exists c'. split; [ now apply occurs_left | exact C' ].
Qed.
Lemma pipeline_calls : forall env p d, transform_pipeline env p = Ok (Some d) -> calls_from (env_rt env) p d.
Proof.
  intros env p d H. unfold transform_pipeline in H. destruct (run_commands _ p None _) as [st r] eqn:E. cbn in H. subst r.
  assert (F : Forall (CC env) p) by (apply Forall_forall; intros; apply cmd_calls).
  exact (run_calls env p F [] _ _ _ _ (CF_none _ _) E d eq_refl).
Qed.

(** ** Binding *)
Lemma skip_one : forall A n (a : A), skipn (S n) [a] = [].
Proof. intros A [|n] a; reflexivity. Qed.
Lemma signature_one : forall f sg sg', In (f, sg) signatures -> In (f, sg') signatures -> sg = sg'.
Proof.
  intros f sg sg' H H'. unfold signatures in *. cbn [In] in *.
  repeat (destruct H as [H|H]; [ injection H as <- <-;
    repeat (destruct H' as [H'|H']; [ first [ discriminate H' | now injection H' as <- ] | ]); contradiction | ]).
  contradiction.
Qed.
(** A function whose first parameter is df, the others having defaults and further names being taken *)
Lemma open_binds : forall f b more only n kws, In (f, mkSignature [("df", b)] more only true) signatures ->
  (n = 0 \/ more = true) -> forallb snd only = true -> ~ In "df" (map fst only) ->
  (binds f (S n) kws <-> NoDup kws /\ ~ In "df" kws).
Proof.
  intros f b more only n kws I0 M D X. split.
  - intros (sg & I1 & N & _ & K & _). rewrite (signature_one _ _ _ I1 I0) in *. split; [ exact N | ]. intro Hd.
    destruct (K _ Hd) as [H|[H|[_ H]]].
    + cbn [sg_params] in H. rewrite skip_one in H. exact H.
    + now apply X.
    + apply H. now left.
  - intros [N Nd]. eexists. split; [ exact I0 | ]. split; [ exact N | ]. split; [ | split ].
    + destruct M as [->|M]; [ left; cbn; lia | now right ].
    + intros k Hk. right. right. split; [ reflexivity | ]. intros [E|[]]. cbn in E. congruence.
    + intros p [H|H]; [ cbn [sg_params] in H; rewrite skip_one in H; contradiction | ]. left.
      rewrite forallb_forall in D. now apply D.
Qed.
Ltac one_of := first [ left; reflexivity | right; one_of ].
Lemma call_binds : forall rt c f args kw, call_of rt c f args kw ->
  (binds f (S (length args)) (map fst kw) <-> f <> "data_model" /\ NoDup (map fst kw) /\ ~ In "df" (map fst kw)).
Proof.
  intros rt c f args kw [N C].
  assert (O : forall b more only, In (f, mkSignature [("df", b)] more only true) signatures ->
    (length args = 0 \/ more = true) -> forallb snd only = true -> ~ In "df" (map fst only) -> f <> "data_model" ->
    (binds f (S (length args)) (map fst kw) <-> f <> "data_model" /\ NoDup (map fst kw) /\ ~ In "df" (map fst kw))).
  { intros b more only I0 M D X F. rewrite (open_binds f b more only _ _ I0 M D X). tauto. }
  assert (df_not : forall l, existsb (String.eqb "df") l = false -> ~ In "df" l).
  { intros l H I0. assert (Y : existsb (String.eqb "df") l = true); [ | congruence ].
    apply existsb_exists. exists "df". split; [ exact I0 | apply String.eqb_refl ]. }
  destruct c; try discriminate N; injection N as <-; try destruct C as [-> C]; cbn [length].
  - split; [ | intros [H _]; now elim H ]. intros (sg & I1 & _ & _ & K & _). exfalso.
    unfold signatures in I1. cbn [In] in I1. repeat (destruct I1 as [I1|I1]; [ try discriminate I1 | ]); [ | contradiction ].
    injection I1 as <-. rewrite C in K. destruct (K "data_model_name") as [H|[H|[H _]]]; [ now left | | contradiction H | discriminate H ].
    cbn in H. repeat (destruct H as [H|H]; [ discriminate H | ]). contradiction.
  - eapply O; [ unfold signatures; one_of | now left | reflexivity | now apply df_not | discriminate ].
  - inversion C as [| |v l E1 E2| |]; subst. split.
    + intros _. split; [ discriminate | ]. split; [ repeat constructor; cbn; intuition discriminate | cbn; intuition discriminate ].
    + intros (_ & ND & _). eexists. split; [ unfold signatures; one_of | ]. split; [ exact ND | ]. split; [ left; cbn; lia | ]. split.
      * intros k Hk. left. exact Hk.
      * intros p [H|[]]. cbn in H. destruct H as [<-|[<-|[]]]; [ right; now left | now left ].
  - eapply O; [ unfold signatures; one_of | now right | reflexivity | now apply df_not | discriminate ].
  - eapply O; [ unfold signatures; one_of | now left | reflexivity | now apply df_not | discriminate ].
  - eapply O; [ unfold signatures; one_of | now left | reflexivity | now apply df_not | discriminate ].
Qed.
Lemma calls_that_bind : forall env p d n s f args kw, transform_pipeline env p = Ok (Some d) ->
  In (DRuntime n s f args kw) (frames d) ->
  (binds f (S (length args)) (map fst kw) <-> f <> "data_model" /\ NoDup (map fst kw) /\ ~ In "df" (map fst kw)).
Proof.
  intros env p d n s f args kw H I0. destruct (pipeline_calls _ _ _ H _ _ _ _ _ I0) as (c & _ & C). exact (call_binds _ _ _ _ _ C).
Qed.
Lemma well_named_calls : forall env p d n s f args kw, (forall c, occurs c p -> well_named c) ->
  transform_pipeline env p = Ok (Some d) -> In (DRuntime n s f args kw) (frames d) ->
  binds f (S (length args)) (map fst kw).
Proof.
  intros env p d n s f args kw W H I0. destruct (pipeline_calls _ _ _ H _ _ _ _ _ I0) as (c & O & C).
  apply (call_binds _ _ _ _ _ C). destruct (W c O) as [W1 W2]. destruct C as [N C].
  split; [ destruct c; try discriminate N; injection N as <-; try discriminate; now elim (W1 c) | ].
  apply W2. destruct c; try discriminate N; try (destruct C as [_ C]; exact C).
  - now elim (W1 c).
  - destruct (carries_keywords _ _ _ _ C) as (l & F & E). rewrite E. now constructor.
Qed.
Lemma search_carries : forall env p d n s args kw, transform_pipeline env p = Ok (Some d) ->
  In (DRuntime n s "search" args kw) (frames d) ->
  exists e, occurs (CSearch e) p /\ carries (fun e x => to_spark_expr (env_rt env) e = Ok x) (conjuncts e) args kw.
Proof.
  intros env p d n s args kw H I0. destruct (pipeline_calls _ _ _ H _ _ _ _ _ I0) as (c & O & N & C).
  destruct c; try discriminate N. eauto.
Qed.
Lemma built_call : forall g n s f args kw d0, built g d0 (DRuntime n s f args kw) -> d0 = DRuntime n s f args kw.
Proof.
  intros g n s f args kw d0 B. remember (DRuntime n s f args kw) as d eqn:E. destruct B as [|? |? |d s0 S B|]; try discriminate E; [ reflexivity | ].
  subst d. contradiction S.
Qed.
Lemma run_app_ok : forall env p c st st' s', run_commands (transform_command env) (p ++ [c]) None st = (st', Ok s') ->
  exists st1 s, run_commands (transform_command env) p None st = (st1, Ok s) /\ transform_command env c s st1 = (st', Ok s').
Proof.
  intros env p c. generalize (@None DataFrame) as s0. induction p as [|x p IH]; intros s0 st st' s' H; cbn [app run_commands] in H.
  - apply bind_inv in H. destruct H as (s1 & a & E1 & E2). injection E2 as <- <-. exists st, s0. split; [ reflexivity | exact E1 ].
  - apply bind_inv in H. destruct H as (s1 & a & E1 & E2). destruct (IH _ _ _ _ E2) as (st1 & s & R1 & R2).
    exists st1, s. split; [ cbn [run_commands]; unfold bind; now rewrite E1 | exact R2 ].
Qed.
Fixpoint depth (d : DataFrame) : nat :=
  match d with DRuntime _ (Some s) _ _ _ => S (depth s) | _ => 0 end.
Lemma search_call : forall env p e s n f args kw, transform_pipeline env p = Ok s ->
  transform_pipeline env (p ++ [CSearch e])%list = Ok (Some (DRuntime n s f args kw)) ->
  f = "search" /\ carries (fun e x => to_spark_expr (env_rt env) e = Ok x) (conjuncts e) args kw.
Proof.
  intros env p e s n f args kw H1 H2. unfold transform_pipeline in *.
  destruct (run_commands _ (p ++ _)%list None _) as [st' r] eqn:E. cbn in H2. subst r.
  apply run_app_ok in E. destruct E as (st1 & s1 & E1 & E2). rewrite E1 in H1. injection H1 as <-.
  destruct (cmd_call env (CSearch e) _ _ _ _ (fun x => x) E2) as (d & Ed & [B|(n' & f' & args' & kw' & Er & [N C] & _)]); injection Ed as <-.
  - exfalso. apply built_call in B. destruct s1 as [d0|]; [ | discriminate B ]. cbn [d_or_default] in B.
    assert (X : depth d0 = S (depth d0)) by (rewrite B at 1; reflexivity). lia.
  - injection Er as <- <- <- <-. injection N as <-. auto.
Qed.
Lemma model_never_binds : ~ binds "data_model" 1 model_keywords.
Proof.
  intro H. pose (kw := map (fun k => (k, RExpr pylit_none)) model_keywords).
  assert (C : call_of Allow (CDataModel (mkDataModel None None None false false false)) "data_model" [] kw) by (split; [ reflexivity | split; reflexivity ]).
  apply (call_binds _ _ _ _ _ C) in H. now destruct H.
Qed.
