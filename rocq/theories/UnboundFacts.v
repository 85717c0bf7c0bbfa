(** Facts: a program with a call that does not bind cannot be run with the library. *)
From Verif Require Import Str SplAst PyAst Functions Transpile Render Commands SpecPipe PipeFacts AllowFacts TreeFacts NamesFacts ShapeFacts ScopeFacts
  StatementFacts ComposeFacts SpecPy SpecCol SpecFrame FrameFacts ProgramFacts SpecText SpecSpark SpecRows SpecCommands SpecResult RowFacts ValueFacts
  SearchFacts CommandFacts RunFacts ResultFacts Runtime RuntimeSteps RuntimeCalls RuntimeRuns SpecCall CallFacts SpecAfter AfterFacts CallMore.
Open Scope string_scope.
Open Scope list_scope.

Lemma concat_nil : forall A B (g : A -> list B) l, Forall (fun a => g a = []) l -> List.concat (map g l) = [].
Proof. induction 1 as [|a l E _ IH]; [ reflexivity | ]. cbn [map List.concat]. now rewrite E, IH. Qed.
Lemma forall_both : forall A (p : A -> bool) (P : A -> Prop) l, Forall (fun a => p a = true -> P a) l -> forallb p l = true -> Forall P l.
Proof.
  induction 1 as [|a l E _ IH]; intro F; [ constructor | ]. cbn [forallb] in F. apply andb_true_iff in F. destruct F as [F1 F2]. constructor; auto.
Qed.
Lemma plain_source : forall d s, match d with
        | DNamed s' _ | DSelect s' _ | DWhere s' _ | DGroupBy s' _ | DAggregation s' _ | DWithColumn s' _ _ |
          DWithColumnRenamed s' _ _ | DOrderBy s' _ | DLimit s' _ | DTail s' _ | DAlias s' _ | DArbitraryMethod s' _ _ => s' = s
        | _ => False end -> plain_df d = true -> plain_df s = true.
Proof.
  intros d s E P. destruct d; try contradiction; subst; cbn [plain_df] in P; repeat (apply andb_true_iff in P; destruct P as [P ?]); auto.
Qed.
Lemma inline_calls_nothing : forall d, inline d = true -> plain_df d = true -> forall x, In x (frames d) -> ~ is_runtime x.
Proof.
  apply (df_induct (fun d => inline d = true -> plain_df d = true -> forall x, In x (frames d) -> ~ is_runtime x) (fun _ => True)); try (intros; exact I).
  - intros n _ _ x [<-|[]] H. exact H.
  - intros n _ _ x [<-|[]] H. exact H.
  - intros n s f l k _ _ _ Inl. discriminate Inl.
  - intros d s E IH Inl P x H. pose proof (plain_source d s E P) as Q.
    destruct d; try contradiction; subst; cbn [inline] in Inl; try discriminate Inl; cbn [frames] in H; (destruct H as [<-|H]; [ intro R; exact R | now apply IH ]).
  - intros s o IHs IHo Inl P x H. cbn [inline plain_df frames] in *. apply andb_true_iff in P. destruct P as [P Io]. apply andb_true_iff in P. destruct P as [Ps Po].
    destruct H as [<-|H]; [ intro R; exact R | ]. apply in_app_or in H. destruct H as [H|H]; auto.
  - intros s o c ty IHs IHo Inl P x H. cbn [inline plain_df frames] in *. repeat (apply andb_true_iff in P; destruct P as [P ?]).
    destruct H as [<-|H]; [ intro R; exact R | ]. apply in_app_or in H. destruct H as [H|H]; auto.
Qed.

(** The call is one of the program's assignments *)
Definition call_tree (f : string) (t : Py) (args : list RuntimeExpr) (kw : list (string * RuntimeExpr)) : Py :=
  PCall (PAttr (PName "commands") f) (t :: map (fun x => snd (rt_prog x)) args) (map (fun kv => (fst kv, snd (rt_prog (snd kv)))) kw).
Lemma call_assigned : forall n s f args kw d, plain_df d = true -> In (DRuntime n s f args kw) (frames d) ->
  distinct (map fst kw) = true /\ exists t, (t = snd (match s with Some d0 => df_prog d0 | None => ([], PName "None") end) /\ match s with Some d0 => plain_df d0 = true | None => True end) /\ In (n, call_tree f t args kw) (fst (df_prog d)).
Proof.
  intros n s f args kw.
  apply (df_induct (fun d => plain_df d = true -> In (DRuntime n s f args kw) (frames d) ->
             distinct (map fst kw) = true /\ exists t, (t = snd (match s with Some d0 => df_prog d0 | None => ([], PName "None") end) /\ match s with Some d0 => plain_df d0 = true | None => True end) /\ In (n, call_tree f t args kw) (fst (df_prog d)))
           (fun r => plain_rt r = true -> rt_frames r = [])).
  - intros d _ H. discriminate H.
  - reflexivity.
  - intros l F P. cbn [plain_rt rt_frames] in *. apply concat_nil. apply (forall_both _ (fun kv => plain_between dquote (fst kv) && plain_rt (snd kv))); [ | exact P ].
    eapply Forall_impl; [ | exact F ]. intros a H Q. apply andb_true_iff in Q. now apply H.
  - intros l F P. cbn [plain_rt rt_frames] in *. apply concat_nil. now apply (forall_both _ plain_rt).
  - intros g l k Fl Fk P. cbn [plain_rt rt_frames] in *. apply andb_true_iff in P. destruct P as [P _]. apply andb_true_iff in P. destruct P as [P Pk].
    apply andb_true_iff in P. destruct P as [_ Pl]. rewrite (concat_nil _ _ rt_frames l), (concat_nil _ _ (fun kv => rt_frames (snd kv)) k); [ reflexivity | | ].
    + apply (forall_both _ (fun kv => py_ident (fst kv) && plain_rt (snd kv))); [ | exact Pk ]. eapply Forall_impl; [ | exact Fk ].
      intros a H Q. apply andb_true_iff in Q. now apply H.
    + now apply (forall_both _ plain_rt).
  - intros m _ [H|[]]. discriminate H.
  - intros m _ [H|[]]. discriminate H.
  - intros n0 s0 g l k IH Fl Fk P H. cbn [plain_df] in P. apply andb_true_iff in P. destruct P as [P Pd]. apply andb_true_iff in P. destruct P as [P Pk].
    apply andb_true_iff in P. destruct P as [P Pl]. apply andb_true_iff in P. destruct P as [P _]. apply andb_true_iff in P. destruct P as [_ Ps].
    cbn [frames] in H. rewrite (concat_nil _ _ rt_frames l), (concat_nil _ _ (fun kv => rt_frames (snd kv)) k) in H.
    + cbn [df_prog fst]. destruct H as [H|H].
      * injection H as -> -> -> -> ->. split; [ exact Pd | ]. eexists. split; [ | apply in_or_app; right; apply in_or_app; right; apply in_or_app; right; left; reflexivity ].
        split; [ destruct s; reflexivity | ]. destruct s; [ | exact I ]. apply andb_true_iff in Ps. apply Ps.
      * rewrite !app_nil_r in H. destruct s0 as [d0|]; [ | destruct H ]. apply andb_true_iff in Ps. destruct Ps as [_ Ps].
        destruct (IH d0 eq_refl Ps H) as [D [t [Z T]]]. split; [ exact D | ]. exists t. split; [ exact Z | ]. apply in_or_app. now left.
    + apply (forall_both _ (fun kv => py_ident (fst kv) && plain_rt (snd kv))); [ | exact Pk ]. eapply Forall_impl; [ | exact Fk ].
      intros a Ha Q. apply andb_true_iff in Q. now apply Ha.
    + now apply (forall_both _ plain_rt).
  - intros d s0 E IH P H. pose proof (plain_source d s0 E P) as Q.
    assert (X : In (DRuntime n s f args kw) (frames s0)).
    { destruct d; try contradiction; subst; cbn [frames] in H; (destruct H as [H|H]; [ discriminate H | exact H ]). }
    destruct (IH Q X) as [D [t [Z T]]]. split; [ exact D | ]. exists t. split; [ exact Z | ]. destruct d; try contradiction; subst; cbn [df_prog fst]; try exact T. apply in_or_app. now left.
  - intros s0 o IHs IHo P H. cbn [plain_df frames] in *. apply andb_true_iff in P. destruct P as [P Io]. apply andb_true_iff in P. destruct P as [Ps Po].
    destruct H as [H|H]; [ discriminate H | ]. apply in_app_or in H. destruct H as [H|H].
    + cbn [df_prog fst]. auto.
    + now elim (inline_calls_nothing o Io Po _ H).
  - intros s0 o c ty IHs IHo P H. cbn [plain_df frames] in *. apply andb_true_iff in P. destruct P as [P _]. apply andb_true_iff in P. destruct P as [P _].
    apply andb_true_iff in P. destruct P as [P Io]. apply andb_true_iff in P. destruct P as [Ps Po].
    destruct H as [H|H]; [ discriminate H | ]. apply in_app_or in H. destruct H as [H|H].
    + cbn [df_prog fst]. auto.
    + now elim (inline_calls_nothing o Io Po _ H).
Qed.

(** A call the library always refuses *)
Section Refused.
  Variables (sp : Spark) (db : string -> option Table) (ct : Table -> string -> option string).
  Lemma refused : forall f df args kw, f = "data_model" \/ (In "df" (map fst kw) /\ f <> "fill_null") -> library sp db ct f df args kw = None.
  Proof.
    intros f df args kw [-> | [D N]]; [ reflexivity | ]. unfold library.
    assert (S : str_in "df" (map fst kw) = true) by (now apply str_in_iff).
    unfold run_search, run_eval, run_stats, run_tstats, run_data_model. rewrite S.
    destruct (String.eqb_spec f "fill_null"); [ contradiction | ].
    repeat match goal with |- context [if ?b then _ else _] => destruct b; [ reflexivity | ] end. reflexivity.
  Qed.
  Lemma refused_call : forall vars f args kw, (forall df args, library sp db ct f df args kw = None) ->
    fv sp db (library sp db ct) vars (PCall (PAttr (PName "commands") f) args kw) = None.
  Proof.
    intros vars f args kw R. cbn [SpecSpark.fv String.eqb Ascii.eqb Bool.eqb]. cbv iota.
    destruct args as [|a args]; [ reflexivity | ]. cbn [map].
    destruct a; try (match goal with |- context [fv ?a ?b ?c ?v ?t] => destruct (fv a b c v t) end; [ apply R | reflexivity ]).
    destruct (String.eqb _ "None"); [ apply R | ]. match goal with |- context [match ?v with Some x => library _ _ _ _ (Some x) _ _ | None => None end] => destruct v end; [ apply R | reflexivity ].
  Qed.
  Lemma exec_stops : forall n t p, In (n, t) p -> (forall vars, fv sp db (library sp db ct) vars t = None) ->
    forall vars r, exec sp db (library sp db ct) vars p r = None.
  Proof.
    induction p as [|[x u] p IH]; intros H F vars r; [ destruct H | ]. cbn [SpecSpark.exec]. destruct H as [H|H].
    - injection H as -> ->. now rewrite F.
    - destruct (fv sp db (library sp db ct) vars u); [ now apply IH | reflexivity ].
  Qed.
  Lemma carried_out : forall p q n f t args kw, all_some (map (fun xt => Runtime.swap (fst xt, lib (snd xt))) p) = Some q ->
    In (n, PCall (PAttr (PName "commands") f) (t :: args) kw) p -> exists t', lib t = Some t' /\ In (n, PCall (PAttr (PName "commands") f) (t' :: args) kw) q.
  Proof.
    induction p as [|[x u] p IH]; intros q n f t args kw A H; [ destruct H | ]. cbn [map all_some fst snd] in A.
    destruct (Runtime.swap (x, lib u)) as [y|] eqn:Y; [ | discriminate A ].
    destruct (all_some (map (fun xt => Runtime.swap (fst xt, lib (snd xt))) p)) as [q'|] eqn:Q; [ | discriminate A ]. injection A as <-.
    destruct H as [H|H].
    - injection H as -> ->. unfold Runtime.swap, lib in Y. cbn [fst snd lv lib_function is_command String.eqb Ascii.eqb Bool.eqb] in Y. cbv iota in Y.
      destruct (obind (lv t) py_of) as [t'|] eqn:Et; [ | discriminate Y ]. cbn [option_map obind py_of] in Y. injection Y as <-. exists t'. split; [ exact Et | now left ].
    - destruct (IH q' n f t args kw eq_refl H) as [t' [Z T]]. exists t'. split; [ exact Z | now right ].
  Qed.
  Lemma unbound_fails : forall env p d n s f args kw, transform_pipeline env p = Ok (Some d) -> plain_df d = true ->
    In (DRuntime n s f args kw) (frames d) -> ~ binds f (1 + length args) (map fst kw) ->
    forall o, ~ runs sp db ct (code_to_string (render_df d)) o.
  Proof.
    intros env p d n s f args kw H P I B o R. apply (runs_iff sp db ct d o P) in R. unfold lib_exec in R.
    destruct (all_some _) as [q|] eqn:A; [ | discriminate R ]. destruct (lib _) as [r|]; [ | discriminate R ].
    destruct (call_assigned n s f args kw d P I) as [D [t [_ T]]]. destruct (carried_out _ _ _ _ _ _ _ A T) as [t' [_ T']].
    rewrite (exec_stops _ _ _ T') in R; [ discriminate R | ]. intro vars. apply refused_call. intros df args'. apply refused.
    rewrite map_map. cbn [fst].
    destruct (string_dec f "data_model") as [->|Nf]; [ now left | right ].
    apply distinct_nodup in D. split.
    - destruct (in_dec string_dec "df" (map fst kw)) as [Y|N]; [ exact Y | ]. elim B. apply (calls_that_bind env p d n s f args kw H I). auto.
    - intros ->. apply B. apply (calls_that_bind env p d n s "fill_null" args kw H I). split; [ exact Nf | ]. split; [ exact D | ].
      destruct (pipeline_calls _ _ _ H _ _ _ _ _ I) as (c & _ & N & C). destruct c; try discriminate N. destruct C as [_ C]. inversion C as [|  |? ? E| |].
      intros [Y|[Y|[]]]; discriminate Y.
  Qed.
  (** Whatever comes before a command whose names clash, and whatever goes on after it *)
  Lemma clash_fails : forall env p c q d, handed_over (env_rt env) c -> ~ well_named c ->
    (forall c, In c q -> ~ starts_over c) -> transform_pipeline env (p ++ c :: q) = Ok (Some d) -> plain_df d = true ->
    forall o, ~ runs sp db ct (code_to_string (render_df d)) o.
  Proof.
    intros env p c q d Ho W S H P. destruct (clash env p c q d Ho W S H) as (n & s & f & args & kw & I & B).
    exact (unbound_fails env _ d n s f args kw H P I B).
  Qed.
  (** A first call of eval, stats or fill_null *)
  Lemma none_fails : forall d n f args kw, plain_df d = true -> In (DRuntime n None f args kw) (frames d) -> In f ["eval"; "stats"; "fill_null"] ->
    forall o, ~ runs sp db ct (code_to_string (render_df d)) o.
  Proof.
    intros d n f args kw P I K o R. apply (runs_iff sp db ct d o P) in R. unfold lib_exec in R.
    destruct (all_some _) as [q|] eqn:A; [ | discriminate R ]. destruct (lib _) as [r|]; [ | discriminate R ].
    destruct (call_assigned n None f args kw d P I) as [D [t [Z T]]]. destruct Z as [Z _]. cbn [snd] in Z. subst t. destruct (carried_out _ _ _ _ _ _ _ A T) as [t' [Z' T']].
    injection Z' as <-. rewrite (exec_stops _ _ _ T') in R; [ discriminate R | ]. intro vars.
    cbn [SpecSpark.fv String.eqb Ascii.eqb Bool.eqb]. cbv iota.
    destruct K as [<-|[<-|[<-|[]]]]; unfold library; cbn [String.eqb Ascii.eqb Bool.eqb]; cbv iota.
    - unfold run_eval. now destruct (str_in _ _).
    - unfold run_stats. destruct (str_in _ _); [ reflexivity | ]. now repeat match goal with |- context [match ?x with _ => _ end] => destruct x end.
    - unfold run_fill_null. now destruct (others _ _).
  Qed.
  Lemma first_fails : forall env c q d, env_rt env <> Disallow -> match c with CEval _ | CStats _ _ _ | CFillNull _ _ => True | _ => False end ->
    (forall c, In c q -> ~ starts_over c) -> transform_pipeline env (c :: q) = Ok (Some d) -> plain_df d = true ->
    forall o, ~ runs sp db ct (code_to_string (render_df d)) o.
  Proof.
    intros env c q d R C N H P.
    assert (X : exists n f args kw, transform_pipeline env [c] = Ok (Some (DRuntime n None f args kw)) /\ In f ["eval"; "stats"; "fill_null"]).
    { unfold transform_pipeline in *. destruct (run_commands (transform_command env) (c :: q) None transform_state0) as [st r] eqn:E. cbn in H. subst r. cbn [run_commands] in *.
      apply bind_inv in E. destruct E as (s1 & a & E & _). unfold bind. rewrite E. cbn [snd ret].
      assert (Y : exists n f args kw, a = Some (DRuntime n None f args kw)).
      { destruct c; try contradiction; try (now apply (handed env _ None _ _ _) in E).
        cbn [transform_command] in E. destruct (env_rt env); [ now elim R | | ]; cbn in E; injection E as _ <-; eauto. }
      destruct Y as (n & f & args & kw & ->). exists n, f, args, kw. split; [ reflexivity | ].
      assert (NS : ~ has_subsearch c) by (destruct c; try contradiction; intro Z; exact Z).
      destruct (cmd_call env c _ _ _ _ NS E) as (d' & Ed & [B|(n' & f' & args' & kw' & Er & Cc & _)]); injection Ed as <-.
      - apply built_call in B. discriminate B.
      - injection Er as <- <- <- <-. destruct Cc as [Nm _]. destruct c; try contradiction; injection Nm as <-; cbn; auto. }
    destruct X as (n & f & args & kw & X & F). change (c :: q) with ([c] ++ q) in H.
    destruct (compose_keeps env [c] q _ _ X N H) as (d' & Ed & I). injection Ed as <-. now apply (none_fails d n f args kw).
  Qed.
End Refused.
Lemma datamodel_clashes : forall m, ~ well_named (CDataModel m).
Proof. intros m [W _]. now apply (W m). Qed.
Lemma datamodel_fails : forall env sp db ct p m q d, env_rt env <> Disallow -> (forall c, In c q -> ~ starts_over c) ->
  transform_pipeline env (p ++ CDataModel m :: q) = Ok (Some d) -> plain_df d = true ->
  forall o, ~ runs sp db ct (code_to_string (render_df d)) o.
Proof.
  intros env sp db ct p m q d R S H P. exact (clash_fails sp db ct env p (CDataModel m) q d R (datamodel_clashes m) S H P).
Qed.
