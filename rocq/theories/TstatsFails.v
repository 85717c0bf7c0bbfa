(** Facts: tstats commands that the library cannot run. *)
From Verif Require Import Str SplAst PyAst Functions Transpile Render Commands SpecPipe PipeFacts AllowFacts TreeFacts NamesFacts ShapeFacts ScopeFacts
  StatementFacts ComposeFacts SpecPy SpecCol SpecFrame FrameFacts ProgramFacts SpecText SpecSpark SpecRows SpecCommands SpecResult RowFacts ValueFacts
  SearchFacts CommandFacts RunFacts ResultFacts Runtime RuntimeSteps RuntimeCalls RuntimeRuns SpecCall CallFacts SpecAfter AfterFacts CallMore UnboundFacts SumFacts.
Open Scope string_scope.
Open Scope list_scope.

(** The value of a frame is a name other than None or a call of a method *)
Definition framed (t : Py) : Prop :=
  match t with PName x => x <> "None" | PCall f _ _ => lib_function f = None | _ => False end.
Lemma ident_not_none : forall x, py_ident x = true -> x <> "None".
Proof. intros x H ->. discriminate H. Qed.
Lemma framed_method : forall t m args, framed t -> framed (py_method t m args).
Proof. intros t m args F. destruct t; try contradiction; reflexivity. Qed.
Lemma frame_framed : forall d, plain_df d = true -> framed (snd (df_prog d)).
Proof.
  apply (df_induct (fun d => plain_df d = true -> framed (snd (df_prog d))) (fun _ => True)); try (intros; exact I).
  - intros n _. reflexivity.
  - intros n P. cbn [plain_df df_prog snd] in *. unfold raw_tree. destruct (raw_count n); [ reflexivity | discriminate P ].
  - intros n s f l k _ _ _ P. cbn [plain_df df_prog snd] in *. do 5 (apply andb_true_iff in P; destruct P as [P _]). exact (ident_not_none _ P).
  - intros d s E IH P. pose proof (plain_source d s E P) as Q.
    destruct d; try contradiction; subst; cbn [df_prog snd]; try (apply framed_method, IH, Q).
    cbn [plain_df] in P. apply andb_true_iff in P. destruct P as [_ P]. exact (ident_not_none _ P).
  - intros s o IH _ P. cbn [plain_df df_prog snd] in *. apply andb_true_iff in P. destruct P as [P _]. apply andb_true_iff in P. destruct P as [P _].
    specialize (IH P). destruct (snd (df_prog s)); try contradiction; reflexivity.
  - intros s o c t IH _ P. cbn [plain_df df_prog snd] in *. do 4 (apply andb_true_iff in P; destruct P as [P _]). apply framed_method, IH, P.
Qed.
Lemma lib_framed : forall t t', framed t -> lib t = Some t' -> t' <> PName "None".
Proof.
  intros t t' F E. destruct t; try contradiction.
  - unfold lib in E. cbn [lv obind] in E. unfold value_of in E. intros ->. apply F. destruct (lit_val _); cbn [py_of] in E; congruence.
  - cbn [framed] in F. unfold lib in E. cbn [lv] in E. rewrite F in E. intros ->.
    destruct (is_command _).
    + destruct args; [ discriminate E | ]. destruct (obind (lv p) py_of); discriminate E.
    + destruct (obind (lv t) py_of); [ | discriminate E ]. destruct (all_some _); [ | discriminate E ]. destruct (all_some _); discriminate E.
Qed.
Lemma missing_none : forall f args a, missing f args -> length a = length args -> lv (sum_tree f a) = None.
Proof.
  intros f args a M L.
  assert (T : sum_tree f a = PCall (PAttr (PAttr (PName "functions") "stats") f) (map pexpr_tree a) []) by (destruct M as [->|[->|[-> _]]]; reflexivity).
  rewrite T. cbn [lv lib_function]. change (String.eqb "functions" "functions") with true. cbv iota.
  destruct (all_some (map lv (map pexpr_tree a))) as [vs|] eqn:A; [ | reflexivity ].
  change (String.eqb "stats" "eval") with false. change (String.eqb "stats" "stats") with true. cbv iota.
  destruct M as [->|[->|[-> N]]].
  - unfold stats_call. cbn [lookup_in stats_columns String.eqb Ascii.eqb Bool.eqb]. destruct (trees vs); reflexivity.
  - unfold stats_call. cbn [lookup_in stats_columns String.eqb Ascii.eqb Bool.eqb]. destruct (trees vs); reflexivity.
  - destruct vs as [|v vs].
    + exfalso. destruct a as [|x a]; [ destruct args; [ now elim N | discriminate L ] | ]. cbn [map all_some] in A. destruct (lv (pexpr_tree x)); [ | discriminate A ].
      destruct (all_some (map lv (map pexpr_tree a))); discriminate A.
    + unfold stats_call. destruct (trees (v :: vs)); reflexivity.
Qed.

Lemma tstats_no_fallback : forall o l dm nn w b bp s st st1 st2 d, t_tstats_runtime Allow o l dm nn w b s st = (st1, Err) ->
  t_tstats_standalone Allow o l dm nn w b bp s st1 <> (st2, Ok d).
Proof.
  intros o l dm nn w b bp s st st1 st2 d NP F. unfold t_tstats_standalone in F. apply bind_inv in F. destruct F as (s2 & u & E0 & F).
  apply bind_inv in F. destruct F as (s3 & d0 & Ed & F). apply bind_inv in F. destruct F as (s4 & d1 & Ew & F).
  apply lift_inv in Ew. destruct Ew as [_ Ew]. apply bind_inv in F. destruct F as (s5 & [d2 a] & Ea & F).
  apply lift_inv in Ea. destruct Ea as [_ Ea]. destruct (aggs_runtime _ _ _ Ea) as [kw Ek].
  apply lift_inv in E0. destruct E0 as [_ E0]. unfold t_tstats_runtime in NP. rewrite E0 in NP.
  destruct w as [w|]; [ apply rbind_inv in Ew; destruct Ew as (x & Ew & _); rewrite Ew in NP | ];
    unfold bind, lift, rbind in NP; rewrite Ek in NP; discriminate NP.
Qed.

Section Tstats.
  Variables (sp : Spark) (db : string -> option Table) (ct : Table -> string -> option string).
  Definition from_tree (dm nn : option string) : Py := snd (rt_prog (RDict [("datamodel", opt_pylit dm); ("nodename", opt_pylit nn)])).
  (** The three ways a call of tstats fails *)
  Lemma tstats_refuses : forall df args kw dm nn, In ("from_", from_tree dm nn) kw -> distinct (map fst kw) = true ->
    df <> None \/ dm = None \/ (exists k f g a, In (k, sum_tree f a) kw /\ missing f g /\ length a = length g) ->
    run_tstats sp db ct df args kw = None.
  Proof.
    intros df args kw dm nn I D C. unfold run_tstats. destruct (str_in _ _); [ reflexivity | ]. destruct args; [ | reflexivity ].
    unfold keyword at 1. rewrite (lookup_here _ _ _ _ I D).
    destruct (specifier (Some (from_tree dm nn))) as [from|] eqn:S; [ | reflexivity ].
    assert (F : exists m n, from = Some (m, n) /\ dm <> None).
    { destruct dm as [m|]; [ | discriminate S ]. cbn in S. destruct nn; cbn in S; injection S as <-; eexists _, _; split; try reflexivity; discriminate. }
    destruct F as (m & n & -> & N).
    destruct (by_columns (keyword "by" kw)) as [by_|] eqn:B; [ | reflexivity ]. destruct (stats_functions_of _) as [fs|] eqn:Fs; [ | reflexivity ].
    destruct C as [C|[C|(k & f & g & a & J & M & L)]]; [ | contradiction | ].
    - destruct df as [o|]; [ | now elim C ].
      assert (X : match Some o, Some (m, n) with None, Some (m, n) => data_model sp db m n | Some (OFrame _ rows), None => Some rows | _, _ => None end = None) by (destruct o; reflexivity).
      rewrite X. destruct (keyword "fill_null_value" kw) as [v|]; [ destruct v | ]; cbn [obind]; (destruct (keyword "where" kw) as [w|]; [ destruct (lib_expr w) | ]; reflexivity).
    - pose proof (missing_none f g a M L) as Z. destruct (missing_tree f g a M L) as [_ (h & l & T)].
      destruct (str_in k ["fill_null_value"; "from_"; "where"; "by"]) eqn:K.
      + apply str_in_iff in K. destruct K as [<-|[<-|[<-|[<-|[]]]]].
        * assert (E : keyword "fill_null_value" kw = Some (sum_tree f a)) by (unfold keyword; exact (lookup_here _ _ _ _ J D)).
          rewrite E, T. destruct (keyword "where" kw) as [w|]; [ destruct (lib_expr w) | ]; reflexivity.
        * exfalso. pose proof (lookup_here _ _ _ _ I D) as E1. rewrite (lookup_here _ _ _ _ J D), T in E1. discriminate E1.
        * assert (E : keyword "where" kw = Some (sum_tree f a)) by (unfold keyword; exact (lookup_here _ _ _ _ J D)).
          rewrite E. unfold lib_expr. rewrite Z. reflexivity.
        * assert (E : keyword "by" kw = Some (sum_tree f a)) by (unfold keyword; exact (lookup_here _ _ _ _ J D)).
          rewrite E, T in B. discriminate B.
      + exfalso. unfold stats_functions_of in Fs. destruct (all_some_in _ _ _ _ _ (k, sum_tree f a) Fs) as [y Y].
        * unfold others. apply filter_In. split; [ exact J | ]. cbn [fst]. now rewrite K.
        * cbn [fst snd] in Y. rewrite Z in Y. discriminate Y.
  Qed.
  Lemma call_none : forall vars f t args kw, t <> PName "None" -> (forall df args, df <> None -> library sp db ct f df args kw = None) ->
    fv sp db (library sp db ct) vars (PCall (PAttr (PName "commands") f) (t :: args) kw) = None.
  Proof.
    intros vars f t args kw N R. cbn [SpecSpark.fv String.eqb Ascii.eqb Bool.eqb]. cbv iota. cbn [map].
    destruct t; try (match goal with |- context [fv ?a ?b ?c ?v ?t] => destruct (fv a b c v t) end; [ now apply R | reflexivity ]).
    destruct (String.eqb_spec s "None") as [->|_]; [ now elim N | ].
    match goal with |- context [match ?v with Some x => library _ _ _ _ (Some x) _ _ | None => None end] => destruct v end; [ now apply R | reflexivity ].
  Qed.
  Lemma tstats_fails : forall env p s o l dm nn w b bp q d, env_rt env <> Disallow -> transform_pipeline env p = Ok s ->
    s <> None \/ dm = None \/ (exists e f args, In e l /\ is_call_of e f args /\ missing f args) ->
    (forall c, In c q -> ~ starts_over c) -> transform_pipeline env (p ++ CTStats o l dm nn w b bp :: q) = Ok (Some d) -> plain_df d = true ->
    forall x, ~ runs sp db ct (code_to_string (render_df d)) x.
  Proof.
    intros env p s o l dm nn w b bp q d R Hp C S H P x Rn.
    replace (p ++ CTStats o l dm nn w b bp :: q) with ((p ++ [CTStats o l dm nn w b bp]) ++ q) in H by (rewrite <- app_assoc; reflexivity).
    assert (X : exists n kw, transform_pipeline env (p ++ [CTStats o l dm nn w b bp]) = Ok (Some (DRuntime n s "tstats" [] kw)) /\
       In ("from_", RDict [("datamodel", opt_pylit dm); ("nodename", opt_pylit nn)]) kw /\
       (forall e f args, In e l -> is_call_of e f args -> exists k a, In (k, RExpr (PCol (CFunctionCall ("functions.stats." ++ f) a))) kw /\ length a = length args)).
    { unfold transform_pipeline in *. destruct (run_commands _ ((p ++ _) ++ q) None _) as [st r] eqn:E. cbn in H. subst r.
      apply StatementFacts.run_app in E. destruct E as (t1 & s1 & E1 & _). rewrite E1. cbn [snd]. apply run_app_ok in E1. destruct E1 as (st1 & s0 & E0 & E).
      rewrite E0 in Hp. cbn [snd] in Hp. injection Hp as ->.
      destruct (handed env (CTStats o l dm nn w b bp) s st1 s1 t1 R E) as (n & g & ar & kw & ->). cbn [transform_command] in E.
      assert (Y : exists st2 st3, t_tstats_runtime (env_rt env) o l dm nn w b s st2 = (st3, Ok (DRuntime n s g ar kw))).
      { apply bind_inv in E. destruct E as (s2 & d' & E & Rr). injection Rr as <- <-. unfold both, select_rt in E.
        destruct (env_rt env) eqn:ER; [ now elim R | | eauto ]. unfold or_else in E.
        destruct (t_tstats_runtime Allow o l dm nn w b s st1) as [s4 [y| |]] eqn:Y; [ injection E as <- <-; eauto | | discriminate E ].
        exfalso. exact (tstats_no_fallback _ _ _ _ _ _ _ _ _ _ _ _ Y E). }
      destruct Y as (st2 & st3 & Y). unfold t_tstats_runtime in Y.
      apply bind_inv in Y. destruct Y as (? & ? & _ & Y). apply bind_inv in Y. destruct Y as (? & w' & _ & Y). apply bind_inv in Y. destruct Y as (? & kv & K & Y).
      apply lift_inv in K. destruct K as [_ K]. apply runtime_made in Y. destruct Y as [Y _]. injection Y as -> -> -> ->. do 2 eexists. split; [ reflexivity | ].
      split; [ now left | ]. intros e f args I Ce. destruct (aggs_calls _ _ _ _ _ _ Ce I K) as (k & a & J & L). exists k, a. split; [ | exact L ].
      right. do 3 (apply in_or_app; right). exact J. }
    destruct X as (n & kw & X & J & M). destruct (compose_keeps env _ q _ _ X S H) as (d' & Ed & I). injection Ed as <-.
    apply (runs_iff sp db ct d x P) in Rn. unfold lib_exec in Rn.
    destruct (all_some _) as [q'|] eqn:A; [ | discriminate Rn ]. destruct (lib _) as [r|]; [ | discriminate Rn ].
    destruct (call_assigned n s "tstats" [] kw d P I) as [D [t [[Et Ps] Tt]]]. destruct (carried_out _ _ _ _ _ _ _ A Tt) as [t' [Lt T']].
    assert (Jf : In ("from_", from_tree dm nn) (map (fun kv => (fst kv, snd (rt_prog (snd kv)))) kw)).
    { apply in_map_iff. eexists. split; [ | exact J ]. reflexivity. }
    assert (Dd : distinct (map fst (map (fun kv => (fst kv, snd (rt_prog (snd kv)))) kw)) = true) by (rewrite map_map; exact D).
    rewrite (exec_stops sp db ct _ _ _ T') in Rn; [ discriminate Rn | ]. intro vars. destruct C as [C|C].
    - apply call_none.
      + destruct s as [d0|]; [ | now elim C ]. subst t. exact (lib_framed _ _ (frame_framed d0 Ps) Lt).
      + intros df args' N. unfold library. cbn [String.eqb Ascii.eqb Bool.eqb]. cbv iota. apply (tstats_refuses df args' _ dm nn Jf Dd). now left.
    - apply refused_call. intros df args'. unfold library. cbn [String.eqb Ascii.eqb Bool.eqb]. cbv iota.
      apply (tstats_refuses df args' _ dm nn Jf Dd). right. destruct C as [C|(e & f & args & Ie & Ce & Mf)]; [ now left | right ].
      destruct (M e f args Ie Ce) as (k & a & Ja & L). exists k, f, args, a. split; [ | split; assumption ].
      apply in_map_iff. exists (k, RExpr (PCol (CFunctionCall ("functions.stats." ++ f) a))). split; [ reflexivity | exact Ja ].
  Qed.
End Tstats.
