(** Facts: what follows a command whose result cannot be used cannot be run either. *)
From Coq Require Import Lia.
From Verif Require Import Str SplAst PyAst Functions Transpile Render Commands SpecPipe PipeFacts AllowFacts TreeFacts NamesFacts ShapeFacts ScopeFacts
  StatementFacts ComposeFacts SpecPy SpecCol SpecFrame FrameFacts ProgramFacts SpecText SpecSpark SpecRows SpecCommands SpecResult RowFacts ValueFacts
  SearchFacts CommandFacts RunFacts ResultFacts EffectFacts DefectFacts SpecExpr SpecEval DefectMore SpecAfter.
Open Scope list_scope.

Lemma frames_inline : forall d, (forall x, In x (frames d) -> ~ is_runtime x) -> inline d = true.
Proof.
  apply (df_induct (fun d => (forall x, In x (frames d) -> ~ is_runtime x) -> inline d = true) (fun _ => True)); auto.
  - intros n s f l k _ _ _ H. elim (H (DRuntime n s f l k)); [ now left | exact I ].
  - intros d s E IH H. destruct d; try contradiction; subst; cbn [inline]; try (apply IH; intros x I; apply H; cbn [frames]; now right).
    elim (H (DNamed s name)); [ now left | exact I ].
  - intros s o IH _ H. apply IH. intros x I. apply H. cbn [frames]. right. apply in_or_app. now left.
  - intros s o c t IH _ H. apply IH. intros x I. apply H. cbn [frames]. right. apply in_or_app. now left.
Qed.
Lemma inline_prog : forall d, inline d = true -> plain_df d = true -> fst (df_prog d) = [] /\ forall x, snd (df_prog d) <> PName x.
Proof.
  apply (df_induct (fun d => inline d = true -> plain_df d = true -> fst (df_prog d) = [] /\ forall x, snd (df_prog d) <> PName x) (fun _ => True)); auto.
  - intros n _ _. cbn. split; [ reflexivity | discriminate ].
  - intros n _ P. cbn [plain_df] in P. cbn [df_prog fst snd]. unfold raw_tree. destruct (raw_count n); [ | discriminate ]. split; [ reflexivity | discriminate ].
  - intros n s f l k _ _ _ I. discriminate I.
  - intros d s E IH I P. assert (Q : plain_df s = true).
    { destruct d; try contradiction; subst; cbn [plain_df] in P; repeat (apply andb_true_iff in P; destruct P as [P ?]); auto; discriminate. }
    destruct d; try contradiction; subst; cbn [inline] in I; try discriminate I; cbn [df_prog fst snd]; (split; [ now apply IH | discriminate ]).
  - intros s o IH _ I P. cbn [inline plain_df] in *. apply andb_true_iff in P. destruct P as [P _]. apply andb_true_iff in P. destruct P as [P _].
    cbn [df_prog fst snd]. split; [ now apply IH | discriminate ].
  - intros s o c t IH _ I P. cbn [inline plain_df] in *. repeat (apply andb_true_iff in P; destruct P as [P ?]).
    cbn [df_prog fst snd]. split; [ now apply IH | discriminate ].
Qed.

Section After.
  Variables (sp : Spark) (db : string -> option Table) (cmds : string -> option Obj -> list Py -> list (string * Py) -> option Obj).
  Notation value d := (fv sp db cmds [] (snd (df_prog d))).
  (** Nothing can be called on the value *)
  Definition spent (o : option Obj) : Prop := match o with None | Some (ORows _) => True | _ => False end.
  Lemma spent_method : forall d m args k, (forall x, snd (df_prog d) <> PName x) -> spent (value d) ->
    fv sp db cmds [] (PCall (PAttr (snd (df_prog d)) m) args k) = None.
  Proof.
    intros d m args k N S. cbn [SpecSpark.fv]. destruct (snd (df_prog d)) as [n| | | | | | | |] eqn:E; try (destruct (fv sp db cmds [] _) as [[]|]; try contradiction; reflexivity).
    now destruct (N n).
  Qed.
  Lemma spent_argument : forall d m a args k, (m = "join" \/ m = "unionByName")%string -> (forall x, snd (df_prog d) <> PName x) -> spent (fv sp db cmds [] a) ->
    fv sp db cmds [] (PCall (PAttr (snd (df_prog d)) m) (a :: args) k) = None.
  Proof.
    intros d m a args k M N S. cbn [SpecSpark.fv map].
    assert (X : forall o, frame_method sp o m (a :: args) (fv sp db cmds [] a :: map (fv sp db cmds []) args) k = None).
    { intros [al rows|ks rows|rows]; cbn [SpecSpark.frame_method]; [ | destruct M as [-> | ->]; reflexivity | reflexivity ].
      destruct (fv sp db cmds [] a) as [[]|]; try contradiction S; destruct M as [-> | ->]; cbn [String.eqb Ascii.eqb Bool.eqb]; cbv iota;
        destruct k; try reflexivity; destruct args as [|? [|? [|? ?]]]; try reflexivity; cbn [map]; try (destruct p; try reflexivity); try (destruct p0; reflexivity). }
    destruct (snd (df_prog d)) as [n| | | | | | | |] eqn:E; [ now destruct (N n) | .. ];
      (match goal with |- context [match ?v with Some o => frame_method _ o _ _ _ _ | None => None end] => destruct v; [ apply X | reflexivity ] end).
  Qed.
  Variable t : DataFrame.
  Hypothesis St : spent (value t).
  Lemma inside : forall d, inline d = true -> plain_df d = true -> In t (frames d) -> d = t \/ value d = None.
  Proof.
    assert (K : forall d, d = t \/ value d = None -> spent (value d)).
    { intros d [-> | ->]; [ exact St | exact I ]. }
    apply (df_induct (fun d => inline d = true -> plain_df d = true -> In t (frames d) -> d = t \/ value d = None) (fun _ => True)); try (intros; exact I).
    - intros n _ _ [H|[]]. now left.
    - intros n _ _ [H|[]]. now left.
    - intros n s f l k _ _ _ Inl. discriminate Inl.
    - intros d s E IH Inl P H. assert (Q : plain_df s = true).
      { destruct d; try contradiction; subst; cbn [plain_df] in P; repeat (apply andb_true_iff in P; destruct P as [P ?]); auto; discriminate. }
      destruct d; try contradiction; subst; cbn [inline] in Inl; try discriminate Inl; cbn [frames] in H; (destruct H as [H|H]; [ now left | right ]);
        cbn [df_prog snd]; unfold py_method; apply spent_method; try (now apply inline_prog); apply K; now apply IH.
    - intros s o IHs IHo Inl P H. cbn [inline plain_df frames] in *. destruct H as [H|H]; [ now left | right ].
      apply andb_true_iff in P. destruct P as [P Io]. apply andb_true_iff in P. destruct P as [Ps Po]. cbn [df_prog snd]. apply in_app_or in H. destruct H as [H|H].
      + apply spent_method; [ now apply inline_prog | ]. apply K. now apply IHs.
      + apply spent_argument; [ now right | now apply inline_prog | ]. apply K. now apply IHo.
    - intros s o c ty IHs IHo Inl P H. cbn [inline plain_df frames] in *. destruct H as [H|H]; [ now left | right ].
      apply andb_true_iff in P. destruct P as [P _]. apply andb_true_iff in P. destruct P as [P _].
      apply andb_true_iff in P. destruct P as [P Io]. apply andb_true_iff in P. destruct P as [Ps Po]. cbn [df_prog snd]. unfold py_method. apply in_app_or in H. destruct H as [H|H].
      + apply spent_method; [ now apply inline_prog | ]. apply K. now apply IHs.
      + apply spent_argument; [ now left | now apply inline_prog | ]. apply K. now apply IHo.
  Qed.
End After.

(** A pipeline that goes on after p *)
Lemma goes_on : forall env sp db cmds p q t d, env_rt env = Disallow -> transform_pipeline env p = Ok (Some t) ->
  spent (fv sp db cmds [] (snd (df_prog t))) -> (forall c, In c q -> ~ starts_over c) ->
  transform_pipeline env (p ++ q) = Ok (Some d) -> plain_df d = true -> d <> t ->
  forall x, ~ computes sp db cmds (code_to_string (render_df d)) x.
Proof.
  intros env sp db cmds p q t d R E S N K P Ne.
  destruct (compose_keeps env p q t (Some d) E N K) as (d' & X & H). injection X as <-.
  assert (Inl : inline d = true).
  { apply frames_inline. destruct env as [rt ho gr]. cbn in R. subst rt.
    assert (DD : D (fun _ => True) Disallow d).
    { eapply pipeline_D; [ auto | now left | | exact K ]. intros c Hc. apply Forall_forall. auto. }
    unfold D in DD. rewrite Forall_forall in DD. intros x Hx Hr. destruct (DD x Hx) as (_ & _ & Z). now apply Z in Hr. }
  destruct (inside sp db cmds t S d Inl P H) as [G | F]; [ congruence | ].
  intros x X. apply (plain_computes sp db cmds d x P) in X. rewrite (proj1 (inline_prog d Inl P)) in X. cbn [exec] in X. congruence.
Qed.
Lemma after_tail : forall env sp db, env_rt env = Disallow -> walks_sets env ->
  forall p rows n q t d, covered sp db p rows -> (0 <= n)%Z -> (forall c, In c q -> ~ starts_over c) ->
  transform_pipeline env (p ++ [CTail n]) = Ok (Some t) -> transform_pipeline env (p ++ CTail n :: q) = Ok (Some d) -> plain_df d = true -> d <> t ->
  forall cmds x, ~ computes sp db cmds (code_to_string (render_df d)) x.
Proof.
  intros env sp db R W p rows n q t d C H N E K P Ne.
  replace (p ++ CTail n :: q) with ((p ++ [CTail n]) ++ q) in K by (rewrite <- app_assoc; reflexivity).
  assert (S : forall cmds, spent (fv sp db cmds [] (snd (df_prog t)))).
  { intro cmds. destruct (covered_frame env sp db R W cmds p rows C transform_state0) as (st' & s & Es & F).
    assert (T : t = DTail (d_or_default s) n).
    { revert E. unfold transform_pipeline. rewrite run_commands_app. unfold bind. rewrite Es. cbn [run_commands]. unfold bind.
      cbn [transform_command]. rewrite R. cbn. intro E. now injection E as <-. }
    subst t. destruct F as (_ & _ & _ & Cb & F). cbn [df_prog snd].
    rewrite (fv_method sp db cmds [] _ _ _ _ Cb F). cbn [SpecSpark.frame_method]. cbn [String.eqb Ascii.eqb Bool.eqb]. cbv iota. unfold int_arg_of, py_int. rewrite lit_dec.
    destruct (n <? 0)%Z eqn:Z; [ lia | exact I ]. }
  intros cmds. exact (goes_on env sp db cmds (p ++ [CTail n]) q t d R E (S cmds) N K P Ne).
Qed.

(** ** Commands that cannot be run *)
Lemma goes_on_dead : forall env sp db cmds p q t d, env_rt env = Disallow -> transform_pipeline env p = Ok (Some t) ->
  fv sp db cmds [] (snd (df_prog t)) = None -> (forall c, In c q -> ~ starts_over c) ->
  transform_pipeline env (p ++ q) = Ok (Some d) -> plain_df d = true ->
  forall x, ~ computes sp db cmds (code_to_string (render_df d)) x.
Proof.
  intros env sp db cmds p q t d R E S N K P.
  destruct (compose_keeps env p q t (Some d) E N K) as (d' & X & H). injection X as <-.
  assert (Inl : inline d = true).
  { apply frames_inline. destruct env as [rt ho gr]. cbn in R. subst rt.
    assert (DD : D (fun _ => True) Disallow d).
    { eapply pipeline_D; [ auto | now left | | exact K ]. intros c Hc. apply Forall_forall. auto. }
    unfold D in DD. rewrite Forall_forall in DD. intros x Hx Hr. destruct (DD x Hx) as (_ & _ & Z). now apply Z in Hr. }
  assert (F : fv sp db cmds [] (snd (df_prog d)) = None).
  { assert (S' : spent (fv sp db cmds [] (snd (df_prog t)))) by (rewrite S; exact I).
    destruct (inside sp db cmds t S' d Inl P H) as [-> | F]; assumption. }
  intros x X. apply (plain_computes sp db cmds d x P) in X. rewrite (proj1 (inline_prog d Inl P)) in X. cbn [exec] in X. congruence.
Qed.
Lemma stuck_by : forall env sp db, env_rt env = Disallow -> walks_sets env -> forall p rows k (f : tstate -> DataFrame), covered sp db p rows ->
  (forall s st, transform_command env k s st = (st, Ok (Some (f s)))) ->
  (forall cmds s, frame_sem sp db cmds [] [] true (d_or_default s) rows -> dead sp db cmds (f s)) -> stuck env sp db p k.
Proof.
  intros env sp db R W p rows k f C T H.
  assert (K : forall cmds, exists s, transform_pipeline env (p ++ [k]) = Ok (Some (f s)) /\ dead sp db cmds (f s)).
  { intro cmds. destruct (covered_frame env sp db R W cmds p rows C transform_state0) as (st' & s & E & F). exists s. split; [ | now apply H ].
    unfold transform_pipeline. rewrite run_commands_app. unfold bind. rewrite E. cbn [run_commands]. unfold bind. now rewrite T. }
  split.
  - destruct (K no_commands) as (s & E & _). exists (code_to_string (render_df (f s))). split; [ unfold render_pyspark; now rewrite E | ].
    intros cmds x X. destruct (K cmds) as (s' & E' & (P & A & _ & F)). rewrite E in E'. injection E' as E'. rewrite E' in X.
    apply (plain_computes sp db cmds _ x P) in X. rewrite A in X. cbn [exec] in X. congruence.
  - intros q d N E P cmds. destruct (K cmds) as (s & E' & (_ & _ & _ & F)).
    replace (p ++ k :: q) with ((p ++ [k]) ++ q) in E by (rewrite <- app_assoc; reflexivity).
    exact (goes_on_dead env sp db cmds _ q _ d R E' F N E P).
Qed.
Lemma bad_aggregation : forall sp keys rows c n, rows <> [] -> (forall g, g <> [] -> agg_val sp g c = None) ->
  aggregate sp keys rows [py_method c "alias" [PStr n]] = None.
Proof.
  intros sp keys rows c n N H. unfold aggregate, py_method. cbn [map all_some out_name]. change (String.eqb "alias" "alias") with true. cbv iota.
  cbn [option_map unalias]. change (String.eqb "alias" "alias") with true. cbv iota zeta.
  destruct rows as [|r rows]; [ congruence | ].
  assert (G : exists k l, match keys with [] => [[]] | _ => distinct_keys [] (map (key_of keys) (r :: rows)) end = k :: l /\ group_rows keys (r :: rows) k <> []).
  { destruct keys as [|x keys].
    - exists [], []. split; [ reflexivity | discriminate ].
    - cbn [map distinct_keys existsb]. do 2 eexists. split; [ reflexivity | ]. unfold group_rows. cbn [filter]. rewrite vals_eqb_refl. discriminate. }
  destruct G as (k & l & -> & G). cbn [map all_some fst snd]. rewrite (H _ G). reflexivity.
Qed.
Lemma grouped : forall sp db cmds d rows keys, frame_sem sp db cmds [] [] true d rows -> forallb (plain_between dquote) keys = true ->
  obj_sem sp db cmds [] [] true (DGroupBy d (map CNName keys)) (OGrouped keys rows).
Proof.
  intros sp db cmds d rows keys D PK. eapply (step_sem sp db cmds [] [] true d); [ exact D | | reflexivity | reflexivity | ].
  - change (plain_df d && forallb plain_con (map CNName keys) = true). rewrite (proj1 D). cbn [andb].
    revert PK. clear. induction keys as [|k keys IH]; [ reflexivity | ]. cbn [map forallb plain_con]. intro H. apply andb_true_iff in H. destruct H as [-> H]. now apply IH.
  - cbn [SpecSpark.frame_method]. cbn [String.eqb Ascii.eqb Bool.eqb]. cbv iota. now rewrite names_items.
Qed.
Lemma by_columns_names : forall by_ keys, by_names by_ = Some keys -> match by_ with Some l => map transform_by_field l | None => [] end = map CNName keys.
Proof.
  intros [l|] keys; cbn [by_names]; [ | intro E; injection E as <-; reflexivity ].
  revert keys. induction l as [|f l IH]; intros keys E; cbn [map all_some] in *; [ injection E as <-; reflexivity | ].
  destruct (msf_span f) eqn:S; [ discriminate | ]. destruct (all_some _) as [ks|] eqn:A; [ | discriminate ]. injection E as <-. cbn [map].
  rewrite (IH ks eq_refl). unfold transform_by_field. rewrite S. reflexivity.
Qed.
Lemma stats_stuck : forall env sp db, env_rt env = Disallow -> walks_sets env -> forall p rows o e by_ keys c n, covered sp db p rows -> rows <> [] ->
  by_names by_ = Some keys -> Forall (fun k => plain_between dquote k = true) keys ->
  (forall d, transform_stats_expr Disallow d e = Ok (d, CAliased (PCol c) n)) -> plain_col (CAliased (PCol c) n) = true ->
  (forall g, g <> [] -> agg_val sp g (col_tree c) = None) -> stuck env sp db p (CStats o [e] by_).
Proof.
  intros env sp db R W p rows o e by_ keys c n C N B PK T PC H.
  apply (stuck_by env sp db R W p rows (CStats o [e] by_) (fun s => DAggregation (DGroupBy (d_or_default s) (map CNName keys)) [CAliased (PCol c) n])); [ exact C | | ].
  - intros s st. cbn [transform_command]. rewrite R. cbn [select_rt]. unfold t_stats_standalone. cbn [transform_stats_exprs]. rewrite T. cbn [rbind].
    rewrite (by_columns_names by_ keys B). reflexivity.
  - intros cmds s D.
    assert (Q : forallb (plain_between dquote) keys = true) by (apply forallb_forall; intros k I; rewrite Forall_forall in PK; now apply PK).
    destruct (grouped sp db cmds _ rows keys D Q) as (P & _ & X & K & F). unfold dead. cbn [df_prog fst snd].
    split; [ | split; [ exact X | split; [ discriminate | ] ] ].
    + change (plain_df (DGroupBy (d_or_default s) (map CNName keys)) && nonempty [CAliased (PCol c) n] && forallb plain_col [CAliased (PCol c) n] = true).
      rewrite P. cbn [forallb]. rewrite PC. reflexivity.
    + rewrite (fv_method sp db cmds [] _ _ _ _ K F). cbn [SpecSpark.frame_method]. change (String.eqb "agg" "agg") with true. cbv iota.
      cbn [map col_tree pexpr_tree]. now rewrite bad_aggregation.
Qed.
Lemma all_some_bad : forall {A B} (f : A -> option B) l, l <> [] -> (forall a, f a = None) -> all_some (map f l) = None.
Proof. intros A B f [|a l] N H; [ congruence | ]. cbn [map all_some]. now rewrite H. Qed.
Lemma range_stuck : forall env sp db, env_rt env = Disallow -> walks_sets env -> forall p rows o e x n by_ keys, covered sp db p rows -> rows <> [] ->
  by_names by_ = Some keys -> Forall (fun k => plain_between dquote k = true) keys -> plain_name_text x = true ->
  (e = ECall "range" [ELeaf (LConstant (KField x))] \/ (e = EAlias (ECall "range" [ELeaf (LConstant (KField x))]) n /\ plain_name_text n = true)) ->
  stuck env sp db p (CStats o [e] by_).
Proof.
  intros env sp db R W p rows o e x n by_ keys C N B PK PX E.
  set (c := CFunctionCall "max" [PCol (CBinaryOp "-" (PCol (CNamed x)) (PCol (CFunctionCall "min" [PCol (CNamed x)])))]).
  assert (H : forall g, g <> [] -> agg_val sp g (col_tree c) = None).
  { intros g G. unfold c. cbn. rewrite all_some_bad; auto. }
  destruct E as [-> | [-> PN]].
  - eapply (stats_stuck env sp db R W p rows o _ by_ keys c "range"); eauto; first [ reflexivity | unfold c; cbn; now rewrite PX ].
  - eapply (stats_stuck env sp db R W p rows o _ by_ keys c n); eauto; first [ reflexivity | unfold c; cbn; now rewrite PX, PN ].
Qed.
(** A name that is no aggregation, of the tool or of Spark *)
Lemma no_part : forall w n, prefix w n = false -> starts_with w n = false.
Proof. intros w n H. unfold starts_with. destruct (strip_prefix w n) as [r|] eqn:E; [ | reflexivity ]. exfalso. revert n H E. induction w as [|a w IH]; intros [|b n] H E; cbn in *; try discriminate. destruct (ascii_dec a b) as [->|K]; [ | destruct (Ascii.eqb a b) eqn:Q; [ now apply Ascii.eqb_eq in Q | discriminate ] ]. rewrite Ascii.eqb_refl in E. eauto. Qed.
Lemma no_aggregation : forall f args d, ~ In f (untranslated_aggregations ++ map fst aggregation_counts ++ ["earliest_time"; "latest_time"]%string) ->
  prefix "exactperc" f = false -> prefix "percentile" f = false -> prefix "upperperc" f = false ->
  stats_fn_bare f args d = rbind (map_args args) (fun l => Ok (d, CAliased (PCol (CFunctionCall f l)) f)).
Proof.
  intros f args d N P1 P2 P3. set (known := (untranslated_aggregations ++ map fst aggregation_counts ++ ["earliest_time"; "latest_time"]%string)) in N.
  assert (K : forall k, In k known -> String.eqb f k = false).
  { intros k Hk. apply String.eqb_neq. intros ->. now apply N. }
  assert (M : forall l, (forall k, In k l -> In k known) -> existsb (String.eqb f) l = false).
  { induction l as [|k l IH]; intros H; [ reflexivity | ]. cbn [existsb]. rewrite (K k), IH; auto; [ intros; apply H; now right | apply H; now left ]. }
  assert (A : forall (l : list (string * string)), (forall k, In k (map fst l) -> In k known) -> assoc f l = None).
  { induction l as [|[k v] l IH]; intros H; [ reflexivity | ]. cbn [assoc]. rewrite (K k), IH; auto; [ intros; apply H; now right | apply H; now left ]. }
  assert (I : forall l, forallb (fun k => existsb (String.eqb k) known) l = true -> forall k, In k l -> In k known).
  { intros l H k Hk. rewrite forallb_forall in H. specialize (H k Hk). apply existsb_exists in H. destruct H as (x & Hx & E). apply String.eqb_eq in E. now subst x. }
  unfold stats_fn_bare.
  rewrite (M stats_unsupported) by (apply I; vm_compute; reflexivity).
  rewrite (A stats_unary) by (apply I; vm_compute; reflexivity).
  rewrite (no_part _ _ P1), (no_part _ _ P2), (no_part _ _ P3).
  repeat (match goal with |- context [String.eqb f ?k] => rewrite (K k) by (apply (I [k]); [ vm_compute; reflexivity | now left ]) end).
  reflexivity.
Qed.
Lemma field_args : forall xs, map_args (with_args Disallow (map (fun x => ELeaf (LConstant (KField x))) xs)) = Ok (map (fun x => PCol (CNamed x)) xs).
Proof.
  unfold map_args, with_args, rtraverse. induction xs as [|x xs IH]; [ reflexivity | ]. cbn [map rsequence]. rewrite IH. reflexivity.
Qed.
Lemma word_plain : forall c, py_word c = true -> negb (Ascii.eqb c squote || py_backslash c || py_break c) = true.
Proof. intros [[] [] [] [] [] [] [] []]; cbn; intro H; first [ reflexivity | discriminate H ]. Qed.
Lemma ident_plain : forall f, py_ident f = true -> plain_name_text f = true.
Proof.
  intros [|c f] H; [ discriminate | ]. cbn [py_ident] in H. apply andb_true_iff in H. destruct H as [H _]. apply andb_true_iff in H. destruct H as [L H].
  unfold plain_name_text, plain_between. cbn [sforall]. rewrite word_plain by (unfold py_word; now rewrite L).
  cbn [andb]. clear L. induction f as [|b f IH]; [ reflexivity | ]. cbn [sforall] in *. apply andb_true_iff in H. destruct H as [Hb H]. rewrite word_plain by exact Hb. now apply IH.
Qed.
Lemma unknown_stuck : forall env sp db, env_rt env = Disallow -> walks_sets env -> forall p rows o e f xs n by_ keys, covered sp db p rows -> rows <> [] ->
  by_names by_ = Some keys -> Forall (fun k => plain_between dquote k = true) keys -> Forall (fun x => plain_name_text x = true) xs ->
  py_ident f = true -> contains "." f = false -> ~ In f (untranslated_aggregations ++ map fst aggregation_counts ++ ["earliest_time"; "latest_time"]%string) ->
  prefix "exactperc" f = false -> prefix "percentile" f = false -> prefix "upperperc" f = false -> ~ In f aggregate_functions ->
  (e = ECall f (map (fun x => ELeaf (LConstant (KField x))) xs) \/
   (e = EAlias (ECall f (map (fun x => ELeaf (LConstant (KField x))) xs)) n /\ plain_name_text n = true)) ->
  stuck env sp db p (CStats o [e] by_).
Proof.
  intros env sp db R W p rows o e f xs n by_ keys C N B PK PX PF D F P1 P2 P3 NA E.
  set (c := CFunctionCall f (map (fun x => PCol (CNamed x)) xs)).
  assert (T : forall d, stats_fn_bare f (with_args Disallow (map (fun x => ELeaf (LConstant (KField x))) xs)) d = Ok (d, CAliased (PCol c) f)).
  { intro d. rewrite no_aggregation by assumption. rewrite field_args. reflexivity. }
  assert (S : str_in f aggregate_functions = false).
  { destruct (str_in f aggregate_functions) eqn:S; [ | reflexivity ]. elim NA. unfold str_in in S. apply existsb_exists in S. destruct S as (y & I & S).
    apply String.eqb_eq in S. now subst. }
  assert (H : forall g, g <> [] -> agg_val sp g (col_tree c) = None).
  { intros g G. unfold c. cbn [col_tree]. rewrite D. destruct xs; [ reflexivity | ]. cbn [map agg_val]. rewrite S. reflexivity. }
  assert (PC : plain_col c = true).
  { unfold c. cbn [plain_col]. rewrite D, PF. cbn [andb]. clear - PX. induction PX as [|x xs H PX IH]; [ reflexivity | ]. cbn. now rewrite H, IH. }
  destruct E as [-> | [-> PN]].
  - apply (stats_stuck env sp db R W p rows o _ by_ keys c f); auto.
    + intro d. unfold transform_stats_expr, stats_fn. unfold expr_unaliased_with_name. cbv beta iota zeta. idtac. rewrite T. reflexivity.
    + cbn [plain_col plain_pexpr receiver]. rewrite PC. now apply ident_plain.
  - apply (stats_stuck env sp db R W p rows o _ by_ keys c n); auto.
    + intro d. unfold transform_stats_expr, stats_fn. cbn [expr_unaliased_with_name fst snd]. rewrite T. reflexivity.
    + cbn [plain_col plain_pexpr receiver]. rewrite PC, PN. reflexivity.
Qed.
Lemma eval_stuck : forall env sp db, env_rt env = Disallow -> walks_sets env -> forall p rows y e c, covered sp db p rows -> rows <> [] -> plain_name_text y = true ->
  eval_column Disallow e = Ok c -> (plain_col (cl_unaliased c) = true) -> (forall r, cv sp r (col_tree (cl_unaliased c)) = None) -> stuck env sp db p (CEval [(y, e)]).
Proof.
  intros env sp db R W p rows y e c C N PY E PC H.
  apply (stuck_by env sp db R W p rows (CEval [(y, e)]) (fun s => d_with_column (d_or_default s) y c)); [ exact C | | ].
  - intros s st. cbn [transform_command]. rewrite R. cbn [select_rt t_eval_go]. rewrite E. reflexivity.
  - intros cmds s (P & _ & X & K & F). unfold dead, d_with_column. cbn [df_prog fst snd].
    split; [ | split; [ exact X | split; [ discriminate | ] ] ].
    + cbn [plain_df]. now rewrite P, PY, PC.
    + rewrite (fv_method sp db cmds [] _ _ _ _ K F). cbn [SpecSpark.frame_method]. cbn [String.eqb Ascii.eqb Bool.eqb]. cbv iota.
      unfold map_rows. rewrite all_some_bad; auto. intro a. now rewrite H.
Qed.
Lemma sum_stuck : forall env sp db, env_rt env = Disallow -> walks_sets env -> forall p rows x y, covered sp db p rows -> rows <> [] ->
  plain_name_text x = true -> plain_name_text y = true -> stuck env sp db p (CEval [(y, ECall "sum" [ELeaf (LConstant (KField x))])]).
Proof.
  intros env sp db R W p rows x y C N PX PY. eapply (eval_stuck env sp db R W p rows); eauto; [ reflexivity | | ].
  - cbn. now rewrite PX.
  - intro r. reflexivity.
Qed.
Lemma ranked_stuck : forall env sp db, env_rt env = Disallow -> walks_sets env -> forall p rows c k, covered sp db p rows -> rows <> [] ->
  k = CTop c \/ k = CRare c -> tr_use_other c = false ->
  Forall (fun f => plain_between dquote f = true) (match tr_by c with Some l => l | None => tr_fields c end) ->
  plain_name_text (tr_count_field c) = true -> plain_name_text (tr_percent_field c) = true -> stuck env sp db p k.
Proof.
  intros env sp db R W p rows c k C N K U PK PC PP.
  assert (Q : forallb (plain_between dquote) (match tr_by c with Some l => l | None => tr_fields c end) = true).
  { apply forallb_forall. intros f I. rewrite Forall_forall in PK. now apply PK. }
  assert (X : exists dir, In dir ["asc"; "desc"]%string /\ forall s st, transform_command env k s st = (st, rmap (@Some DataFrame) (t_toprare dir c s))).
  { destruct K as [-> | ->]; [ exists "desc"%string | exists "asc"%string ]; (split; [ cbn; auto | ]); intros s st; cbn [transform_command]; rewrite R;
      cbn [select_rt]; unfold bind, lift, ret; destruct (t_toprare _ c s); reflexivity. }
  destruct X as (dir & I & X).
  apply (stuck_by env sp db R W p rows k (fun s => match t_toprare dir c s with Ok d => d | _ => DSource "" end)); [ exact C | | ].
  - intros s st. rewrite X. unfold t_toprare. rewrite U. reflexivity.
  - intros cmds s F. destruct (ranked_dead sp db cmds dir c s rows U N Q PC PP I F) as (d & E & D). now rewrite E.
Qed.
