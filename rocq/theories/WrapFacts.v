(** Facts: a where command whose condition uses the result of a library function. *)
From Verif Require Import Str SplAst PyAst Functions Transpile Render Commands SpecPipe PipeFacts AllowFacts TreeFacts NamesFacts ShapeFacts ScopeFacts
  StatementFacts ComposeFacts SpecPy SpecCol SpecFrame FrameFacts ProgramFacts SpecText SpecSpark SpecRows SpecCommands SpecResult RowFacts ValueFacts
  SearchFacts CommandFacts RunFacts ResultFacts Runtime RuntimeSteps RuntimeCalls RuntimeRuns SpecCall CallFacts SpecAfter AfterFacts CallMore UnboundFacts SumFacts
  SpecLacks LacksFacts TstatsFails.
Open Scope string_scope.
Open Scope list_scope.

Definition unusable : list string := wrapped ++ not_implemented ++ always_raises.
Lemma unusable_none : forall f a, In f unusable -> lib (eval_tree f a) = None.
Proof.
  intros f a H. unfold unusable in H.
  assert (T : eval_tree f a = PCall (PAttr (PAttr (PName "functions") "eval") (runtime_eval_name f)) (map pexpr_tree a) []).
  { cbn [wrapped not_implemented always_raises app In] in H. repeat (destruct H as [<-|H]; [ reflexivity | ]). destruct H. }
  unfold lib. rewrite T. cbn [lv lib_function]. change (String.eqb "functions" "functions") with true. cbv iota.
  destruct (all_some (map lv (map pexpr_tree a))) as [vs|]; [ | reflexivity ].
  change (String.eqb "eval" "eval") with true. cbv iota.
  cbn [wrapped not_implemented always_raises app In] in H.
  repeat (destruct H as [<-|H]; [ first [ reflexivity | unfold eval_call, as_expr; cbn -[trees arg_tree Runtime.arg_int Runtime.arg_str py_of_int Z.add Z.sub];
    repeat match goal with
    | |- None = None => reflexivity
    | |- context [match ?x with _ => _ end] => destruct x; cbn -[trees arg_tree Runtime.arg_int Runtime.arg_str py_of_int Z.add Z.sub]
    | |- context [obind (arg_tree ?x) _] => destruct (arg_tree x); cbn -[trees arg_tree Runtime.arg_int Runtime.arg_str py_of_int Z.add Z.sub]
    | |- context [obind (Runtime.arg_int ?x) _] => destruct (Runtime.arg_int x); cbn -[trees arg_tree Runtime.arg_int Runtime.arg_str py_of_int Z.add Z.sub]
    | |- context [obind (Runtime.arg_str ?x) _] => destruct (Runtime.arg_str x); cbn -[trees arg_tree Runtime.arg_int Runtime.arg_str py_of_int Z.add Z.sub]
    end; reflexivity ] | ]). destruct H.
Qed.
Lemma unusable_other : forall f, In f unusable -> String.eqb f "cidrmatch" = false.
Proof. intros f H. unfold unusable in H. cbn [wrapped not_implemented always_raises app In] in H. repeat (destruct H as [<-|H]; [ reflexivity | ]). destruct H. Qed.

Lemma method_none : forall t m args kw, lib t = None -> lib (PCall (PAttr t m) args kw) = None.
Proof.
  intros t m args kw N. unfold lib in *. cbn [lv].
  assert (L : lib_function (PAttr t m) = None).
  { destruct t; try reflexivity. destruct t; try reflexivity. exfalso. cbn in N. unfold value_of in N. destruct (lit_val _); discriminate N. }
  assert (C : is_command (PAttr t m) = false).
  { destruct t; try reflexivity. exfalso. cbn in N. unfold value_of in N. destruct (lit_val _); discriminate N. }
  rewrite L, C, N. reflexivity.
Qed.
Lemma un_none : forall o t, lib t = None -> lib (PUn o t) = None.
Proof. intros o t N. unfold lib in *. cbn [lv]. now rewrite N. Qed.
Lemma bin_left : forall o t u, lib t = None -> lib (PBin o t u) = None.
Proof. intros o t u N. unfold lib in *. cbn [lv]. now rewrite N. Qed.
Lemma bin_right : forall o t u, lib u = None -> lib (PBin o t u) = None.
Proof. intros o t u N. unfold lib in *. cbn [lv]. rewrite N. now destruct (obind (lv t) py_of). Qed.
Lemma first_none : forall t m a args kw, framed t -> lib a = None -> lib (PCall (PAttr t m) (a :: args) kw) = None.
Proof.
  intros t m a args kw F N. unfold lib in *. cbn [lv].
  assert (L : lib_function (PAttr t m) = None) by (destruct t; try contradiction; reflexivity). rewrite L.
  destruct (is_command (PAttr t m)); [ now rewrite N | ]. cbn [map all_some]. rewrite N.
  destruct (obind (option_map _ _) py_of); reflexivity.
Qed.
Definition blocked (p : Prog) : Prop := (exists xt, In xt (fst p) /\ lib (snd xt) = None) \/ lib (snd p) = None.
Lemma step_blocked : forall p m args kw, blocked p -> blocked (fst p, PCall (PAttr (snd p) m) args kw).
Proof. intros p m args kw [H|H]; [ now left | right ]. now apply method_none. Qed.
Lemma where_blocks : forall s e, lib (pexpr_tree e) = None -> forall d, plain_df d = true -> In (DWhere s e) (frames d) -> blocked (df_prog d).
Proof.
  intros s e N.
  assert (In_o : forall o, inline o = true -> plain_df o = true -> blocked (df_prog o) -> lib (snd (df_prog o)) = None).
  { intros o Io Po [(xt & H & _)|H]; [ | exact H ]. destruct (inline_prog o Io Po) as [E _]. rewrite E in H. destruct H. }
  apply (df_induct (fun d => plain_df d = true -> In (DWhere s e) (frames d) -> blocked (df_prog d)) (fun r => plain_rt r = true -> rt_frames r = [])).
  - intros d _ H. discriminate H.
  - reflexivity.
  - intros l F P. cbn [plain_rt rt_frames] in *. apply concat_nil. apply (forall_both _ (fun kv => plain_between dquote (fst kv) && plain_rt (snd kv))); [ | exact P ].
    eapply Forall_impl; [ | exact F ]. intros a H Q. apply andb_true_iff in Q. now apply H.
  - intros l F P. cbn [plain_rt rt_frames] in *. apply concat_nil. now apply (forall_both _ plain_rt).
  - intros g l k Fl Fk P. cbn [plain_rt rt_frames] in *. apply andb_true_iff in P. destruct P as [P _]. apply andb_true_iff in P. destruct P as [P Pk].
    apply andb_true_iff in P. destruct P as [_ Pl]. rewrite (concat_nil _ _ rt_frames l), (concat_nil _ _ (fun kv => rt_frames (snd kv)) k); [ reflexivity | | ].
    + apply (forall_both _ (fun kv => py_ident (fst kv) && plain_rt (snd kv))); [ | exact Pk ]. eapply Forall_impl; [ | exact Fk ].
      intros a H Q. apply andb_true_iff in Q. now apply H.
    + now apply (forall_both _ plain_rt).
  - intros m _ [H|[]]. discriminate H.
  - intros m _ [H|[]]. discriminate H.
  - intros n0 s0 g l k IH Fl Fk P H. cbn [plain_df] in P. apply andb_true_iff in P. destruct P as [P Pd]. apply andb_true_iff in P. destruct P as [P Pk].
    apply andb_true_iff in P. destruct P as [P Pl]. apply andb_true_iff in P. destruct P as [P _]. apply andb_true_iff in P. destruct P as [_ Ps].
    cbn [frames] in H. rewrite (concat_nil _ _ rt_frames l), (concat_nil _ _ (fun kv => rt_frames (snd kv)) k) in H.
    + destruct H as [H|H]; [ discriminate H | ]. rewrite !app_nil_r in H. destruct s0 as [d0|]; [ | destruct H ].
      apply andb_true_iff in Ps. destruct Ps as [_ Ps]. left. cbn [df_prog fst]. destruct (IH d0 eq_refl Ps H) as [(xt & I & X)|X].
      * exists xt. split; [ apply in_or_app; now left | exact X ].
      * eexists. split; [ apply in_or_app; right; apply in_or_app; right; apply in_or_app; right; left; reflexivity | ].
        cbn [snd]. unfold lib in *. cbn [lv lib_function is_command]. change (String.eqb "commands" "commands") with true. cbv iota. now rewrite X.
    + apply (forall_both _ (fun kv => py_ident (fst kv) && plain_rt (snd kv))); [ | exact Pk ]. eapply Forall_impl; [ | exact Fk ].
      intros a Ha Q. apply andb_true_iff in Q. now apply Ha.
    + now apply (forall_both _ plain_rt).
  - intros d s0 E IH P H. pose proof (plain_source d s0 E P) as Q.
    assert (X : d = DWhere s e \/ In (DWhere s e) (frames s0)).
    { destruct d; try contradiction; subst; cbn [frames] in H; (destruct H as [H|H]; [ now left | now right ]). }
    destruct X as [->|X].
    + subst s0. right. cbn [df_prog snd]. apply first_none; [ now apply frame_framed | exact N ].
    + specialize (IH Q X). destruct d; try contradiction; subst; cbn [df_prog]; try (now apply step_blocked).
      destruct IH as [(xt & I & Y)|Y]; left; cbn [fst].
      * exists xt. split; [ apply in_or_app; now left | exact Y ].
      * eexists. split; [ apply in_or_app; right; left; reflexivity | exact Y ].
  - intros s0 o IHs IHo P H. cbn [plain_df frames] in *. apply andb_true_iff in P. destruct P as [P Io]. apply andb_true_iff in P. destruct P as [Ps Po].
    destruct H as [H|H]; [ discriminate H | ]. apply in_app_or in H. cbn [df_prog]. destruct H as [H|H]; [ now apply step_blocked, IHs | ].
    right. cbn [snd]. apply first_none; [ now apply frame_framed | ]. apply In_o; auto.
  - intros s0 o c ty IHs IHo P H. cbn [plain_df frames] in *. apply andb_true_iff in P. destruct P as [P _]. apply andb_true_iff in P. destruct P as [P _].
    apply andb_true_iff in P. destruct P as [P Io]. apply andb_true_iff in P. destruct P as [Ps Po].
    destruct H as [H|H]; [ discriminate H | ]. apply in_app_or in H. cbn [df_prog]. destruct H as [H|H]; [ now apply step_blocked, IHs | ].
    right. cbn [snd]. apply first_none; [ now apply frame_framed | ]. apply In_o; auto.
Qed.

Definition good (rt : Rt) (f : string) (args : list Expr) : Prop :=
  In f (wrapped ++ not_implemented ++ always_raises) /\ (rt = Require \/ (rt = Allow /\ Forall (fun a => exists x, to_spark_expr rt a = Ok x) args)).
Lemma uses_none : forall rt e, uses_call (good rt) e -> forall x, to_spark_expr rt e = Ok x -> lib (pexpr_tree (pe_unaliased x)) = None.
Proof.
  intros rt e H. induction H as [f args [I R]|l op r H IH|l op r H IH|op r H IH]; intros x E.
  - assert (C : exists c, eval_column rt (ECall f args) = Ok c /\ x = PCol c).
    { unfold eval_column. rewrite E. cbn [rbind]. cbn [to_spark_expr] in E. destruct (eval_fn rt f _) as [c| |]; try discriminate E. injection E as <-. eauto. }
    destruct C as (c & C & ->). destruct (call_runtime rt f args c (unusable_other f I) R C) as [a ->]. exact (unusable_none f a I).
  - cbn [to_spark_expr] in E.
    assert (Z : cidr_case l (simple_op op) r = None) by (inversion H; reflexivity). rewrite Z in E.
    assert (D : (exists p, r = ELeaf (LConstant (KWildcard p)) /\ (let? lhs := to_spark_expr rt l in wildcard_cmp lhs (simple_op op) p) = Ok x) \/
                (let? lhs := to_spark_expr rt l in let? rhs := to_spark_expr rt r in Ok (pbin lhs (simple_op op) rhs)) = Ok x).
    { destruct r; try (right; exact E). destruct l0; try (right; exact E). destruct c; try (right; exact E). left. eauto. }
    destruct D as [(p & _ & D)|D]; apply rbind_inv in D; destruct D as (y & Y & D); specialize (IH y Y).
    + unfold wildcard_cmp in D. destruct (_ || _); [ injection D as <-; cbn; now apply method_none | ]. destruct (String.eqb _ "!="); [ | discriminate D ].
      injection D as <-. exact (un_none _ _ (method_none _ _ _ _ IH)).
    + apply rbind_inv in D. destruct D as (z & _ & D). injection D as <-. exact (bin_left _ _ _ IH).
  - cbn [to_spark_expr] in E.
    assert (Z : cidr_case l (simple_op op) r = None) by (inversion H; subst; unfold cidr_case; repeat match goal with |- context [match ?x with _ => _ end] => destruct x end; reflexivity). rewrite Z in E.
    assert (D : (let? lhs := to_spark_expr rt l in let? rhs := to_spark_expr rt r in Ok (pbin lhs (simple_op op) rhs)) = Ok x) by (inversion H; subst; exact E).
    apply rbind_inv in D; destruct D as (y & Y & D). apply rbind_inv in D. destruct D as (z & W & D). specialize (IH z W). injection D as <-. exact (bin_right _ _ _ IH).
  - cbn [to_spark_expr] in E. destruct (String.eqb op "NOT"); [ | discriminate E ]. apply rbind_inv in E. destruct E as (y & Y & E). injection E as <-. specialize (IH y Y).
    exact (un_none _ _ IH).
Qed.
Lemma where_fails : forall sp db ct env p e q d, env_rt env = Allow ->
  uses_call (fun f args => In f (wrapped ++ not_implemented ++ always_raises) /\ Forall (fun a => exists x, to_spark_expr Allow a = Ok x) args) e ->
  (forall c, In c q -> ~ starts_over c) -> transform_pipeline env (p ++ CWhere e :: q) = Ok (Some d) -> plain_df d = true ->
  forall x, ~ runs sp db ct (code_to_string (render_df d)) x.
Proof.
  intros sp db ct env p e q d R U0 S H P x Rn.
  assert (U : uses_call (good Allow) e) by (clear -U0; induction U0 as [f args [I A]| | |]; [ apply UC_call; split; auto | now apply UC_left | now apply UC_right | now apply UC_not ]).
  replace (p ++ CWhere e :: q) with ((p ++ [CWhere e]) ++ q) in H by (rewrite <- app_assoc; reflexivity).
  assert (X : exists s y, transform_pipeline env (p ++ [CWhere e]) = Ok (Some (DWhere s (pe_unaliased y))) /\ to_spark_expr Allow e = Ok y).
  { unfold transform_pipeline in *. destruct (run_commands _ ((p ++ _) ++ q) None _) as [st r] eqn:E. cbn in H. subst r.
    apply StatementFacts.run_app in E. destruct E as (t1 & s1 & E1 & _). rewrite E1. cbn [snd]. apply run_app_ok in E1. destruct E1 as (st1 & s & _ & E).
    cbn [transform_command] in E. unfold t_where in E. rewrite R in E. destruct (to_spark_expr Allow e) as [y| |]; cbn [rbind] in E; [ | discriminate E | discriminate E ].
    exists (d_or_default s), y. split; [ | reflexivity ]. f_equal. cbn in E. injection E as _ <-. reflexivity. }
  destruct X as (s & y & X & Y). destruct (compose_keeps env _ q _ _ X S H) as (d' & Ed & I). injection Ed as <-.
  apply (runs_iff sp db ct d x P) in Rn. unfold lib_exec in Rn.
  destruct (where_blocks s _ (uses_none _ _ U y Y) d P I) as [(xt & J & Z)|Z].
  - destruct (all_some _) as [q'|] eqn:A; [ | discriminate Rn ]. destruct (all_some_in _ _ _ _ _ _ A J) as [w W]. cbn [fst snd] in W. rewrite Z in W. discriminate W.
  - rewrite Z in Rn. destruct (all_some _); discriminate Rn.
Qed.
