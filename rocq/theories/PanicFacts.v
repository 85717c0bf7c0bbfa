(** C58: rendering a parsed query never panics *)
From Coq Require Import Lia Permutation.
From Verif Require Import Str SplAst PyAst Functions Transpile Render Commands Nom Lexer Parser CmdParser Api SpecPipe SpecResult
  PipeFacts AllowFacts ParserFuel.
Open Scope string_scope.

(** ** Standalone parts *)
Lemma np_ensure : forall b, np (ensure b).
Proof. intros []; discriminate. Qed.
Lemma np_u32 : forall s, np (parse_u32 s).
Proof. intro s. unfold parse_u32. repeat match goal with |- np (match ?x with _ => _ end) => destruct x | |- np (let _ := _ in _) => cbv zeta end; discriminate. Qed.
Lemma np_perc : forall a f p n l, Forall np_arg l -> np (stats_perc a f p n l).
Proof. intros. unfold stats_perc. apply np_ft1; auto. intro. apply np_bind; [ apply np_u32 | discriminate ]. Qed.
Lemma np_stats_bare : forall name args d, Forall np_arg args -> np (stats_fn_bare name args d).
Proof.
  intros name args d H. unfold stats_fn_bare.
  destruct (existsb _ _); [ discriminate | ].
  destruct (assoc name stats_unary); [ apply np_map; npa | ].
  repeat match goal with
  | |- np (if ?b then _ else _) => destruct b; [ apply np_map; first [ apply np_perc; assumption | npa ] | ]
  end.
  npa.
Qed.
Lemma np_stats_fn : forall rt e d, np (stats_fn rt e d).
Proof.
  intros rt e d. unfold stats_fn. destruct (expr_unaliased_with_name e) as [e' alias].
  destruct e'; try discriminate.
  pose proof (np_args rt args) as F. fold (with_args rt args) in F.
  assert (R : np (stats_fn_runtime name (with_args rt args) d)).
  { unfold stats_fn_runtime. apply np_bind; [ now apply np_map_args | discriminate ]. }
  apply np_bind; [ | intros []; discriminate ].
  destruct rt; [ now apply np_stats_bare | | exact R ].
  destruct (stats_fn_runtime _ _ _) eqn:E; cbn [ror_else]; [ discriminate | now apply np_stats_bare | now elim R ].
Qed.
Lemma np_stats_exprs : forall rt l d, np (transform_stats_exprs rt d l).
Proof.
  intros rt l. induction l as [|e l IH]; intro d; cbn [transform_stats_exprs]; [ discriminate | ].
  apply np_bind.
  - unfold transform_stats_expr. destruct (expr_unaliased_with_name e) as [e' n]. destruct e'; try discriminate.
    apply np_bind; [ apply np_stats_fn | intros []; discriminate ].
  - intros [d' c]. apply np_bind; [ apply IH | intros []; discriminate ].
Qed.
Lemma np_convert_go : forall tf l d, np (t_convert_go tf l d).
Proof.
  intros tf l. induction l as [|c l IH]; intro d; cbn [t_convert_go]; [ discriminate | ]. apply np_bind; [ | intro; apply IH ].
  unfold convert_fn. repeat match goal with |- np (if ?b then _ else _) => destruct b; [ first [ discriminate | unfold ctime; apply np_bind; [ apply np_ctf | discriminate ] ] | ] end.
  discriminate.
Qed.
Lemma np_eval_go : forall rt l d, np (t_eval_go rt l d).
Proof.
  intros rt l. induction l as [|[n e] l IH]; intro d; cbn [t_eval_go]; [ discriminate | ].
  apply np_bind; [ apply np_eval_column | intro; apply IH ].
Qed.
Lemma np_rename_go : forall l d, np (t_rename_go l d).
Proof.
  induction l as [|[e n] l IH]; intro d; cbn [t_rename_go]; [ discriminate | ].
  destruct e as [[[]| | |]| | | | | | | | |]; solve [ discriminate | apply IH ].
Qed.
Lemma np_head_limit : forall e k, np (head_limit e k).
Proof.
  intros e k. unfold head_limit. destruct e as [[[]| | |]| |l o r| | | | | | |]; try discriminate.
  apply np_bind.
  - repeat match goal with |- np (match ?x with _ => _ end) => destruct x end; discriminate.
  - intros [w le]. destruct le as [[[]| | |]| | | | | | | | |]; try discriminate.
    apply np_bind; [ | discriminate ].
    repeat match goal with |- np (if ?x then _ else _) => destruct x end; discriminate.
Qed.
Lemma np_split : forall e b ind, np (split_conditions e b ind).
Proof.
  intro e. induction e as [l o r IHl IHr| | | |e He] using expr_induct; intros b ind; try discriminate.
  - cbn [split_conditions]. destruct (_ && _)%bool.
    + apply np_bind; [ apply np_ensure | intro ]. apply np_bind; [ apply np_to_string | discriminate ].
    + destruct (_ || _)%bool; [ discriminate | ]. cbv zeta.
      apply np_bind; [ apply IHl | intros [] ]. apply np_bind; [ apply IHr | intros [] ].
      apply np_bind; [ | discriminate ]. unfold combine_sides.
      repeat match goal with |- np (match ?x with _ => _ end) => destruct x end; discriminate.
  - destruct e; try contradiction; discriminate.
Qed.
Lemma np_sort_key : forall d k, np (sort_key d k).
Proof.
  intros d [sg e]. unfold sort_key. cbn [fst snd]. destruct e as [[[]| | |]| | | | | | | | |]; try discriminate.
  apply np_bind; [ | discriminate ]. unfold sort_direction.
  repeat match goal with |- np (match ?x with _ => _ end) => destruct x end; discriminate.
Qed.
Lemma np_join_kind : forall t, np (join_kind t).
Proof. intro t. unfold join_kind. destruct (existsb _ _); discriminate. Qed.
Lemma np_join_condition : forall o, jo_fields o <> [] -> np (join_condition o).
Proof. intros o H. unfold join_condition. destruct (jo_fields o); [ now elim H | discriminate ]. Qed.
Lemma npM_select : forall rt r m, npM r -> npM m -> npM (select_rt rt r m).
Proof.
  intros [] r m H1 H2; cbn [select_rt]; auto. intro st. unfold or_else. specialize (H1 st).
  destruct (r st) as [s1 [a| | ]]; cbn in *; [ discriminate | apply H2 | now elim H1 ].
Qed.
Lemma npM_ret : forall A (a : A), npM (ret a).
Proof. intros A a st. discriminate. Qed.

Section NoPanic.
  Variable env : Env.
  Hypothesis HW : walks_sets env.
  Hypothesis HG : forall r, env_groups env r <> Panic.
  Definition cmd_np (c : Command) : Prop := forall s, npM (transform_command env c s).
  Lemma npM_both : forall r m, npM r -> npM m -> npM (do d <- select_rt (env_rt env) r m; ret (Some d)).
  Proof. intros r m H1 H2. apply npM_bind; [ now apply npM_select | intro; apply npM_ret ]. Qed.
  Lemma npM_only : forall r, np r -> npM (do d <- select_rt (env_rt env) unimplemented (lift r); ret (Some d)).
  Proof. intros r H. apply npM_both; [ apply npM_unimpl | now apply npM_lift ]. Qed.
  Lemma run_np : forall p, Forall cmd_np p -> forall s, npM (run_commands (transform_command env) p s).
  Proof.
    intros p F. induction F as [|c p Hc F IH]; intro s; cbn [run_commands]; [ apply npM_ret | ].
    apply npM_bind; [ apply Hc | intro; apply IH ].
  Qed.
  Lemma unions_np : forall ps, Forall (Forall cmd_np) ps -> forall s, npM (run_unions (transform_command env) ps s).
  Proof.
    intros ps F. induction F as [|p ps Hp F IH]; intro s; cbn [run_unions]; [ apply npM_ret | ].
    apply npM_bind; [ now apply run_np | intros [d|] ]; [ apply IH | apply npM_lift; discriminate ].
  Qed.
  Lemma join_np : forall o p, jo_fields o <> [] -> Forall cmd_np p -> cmd_np (CJoin o p).
  Proof.
    intros o p H F s. cbn [transform_command]. apply npM_both; [ apply npM_unimpl | ].
    apply npM_bind; [ apply npM_lift, np_ensure | intro ]. apply npM_bind; [ now apply run_np | intros [d|] ]; apply npM_lift; [ | discriminate ].
    cbn [t_join]. apply np_bind; [ apply np_join_kind | intro ]. apply np_bind; [ now apply np_join_condition | discriminate ].
  Qed.
  Lemma multisearch_np : forall ps, Forall (Forall cmd_np) ps -> cmd_np (CMultiSearch ps).
  Proof.
    intros ps F s. cbn [transform_command]. destruct ps as [|p ps].
    - destruct (env_rt env); [ apply npM_ret | apply npM_ret | apply npM_lift; discriminate ].
    - apply npM_both; [ apply npM_unimpl | ]. apply npM_bind; [ now apply unions_np | intros [d|] ]; [ apply npM_ret | apply npM_lift; discriminate ].
  Qed.
  Lemma np_all_trav : forall A B (f : A -> res B) l, (forall a, np (f a)) -> np (rtraverse f l).
  Proof. intros. apply np_trav. apply Forall_forall. auto. Qed.
  Lemma search_np : forall e s, npM (t_search_standalone env e s).
  Proof.
    intros e s. unfold t_search_standalone. apply npM_bind; [ apply npM_lift, np_split | intros [ind cond] ].
    apply npM_bind.
    - destruct ind as [|i ind]; [ apply npM_ret | ]. intro st. unfold bind, hash_iter.
      pose proof (HW (st_hash st) (i :: ind)) as P.
      destruct (env_hash_order env (st_hash st) (i :: ind)); [ apply Permutation_sym, Permutation_nil in P; discriminate | discriminate ].
    - intro d. destruct cond; [ | apply npM_ret ]. apply npM_bind; [ apply npM_lift, np_expr | intro; apply npM_ret ].
  Qed.
  Lemma other_np : forall c, ~ has_subsearch c -> cmd_np c.
  Proof.
    intros c H s. destruct c; cbn in H; try (elim H; exact I); cbn [transform_command];
      try (apply npM_lift; discriminate);
      try solve [ apply npM_only; discriminate ].
    - apply npM_only, np_convert_go.
    - apply npM_both; [ apply npM_runtime | apply npM_lift ]. unfold t_datamodel_standalone.
      apply np_bind; [ apply np_ensure | intro ]. repeat match goal with |- np (match ?x with _ => _ end) => destruct x end; discriminate.
    - apply npM_both; [ | apply npM_lift, np_eval_go ].
      apply npM_bind; [ | intro; apply npM_runtime ]. apply npM_lift, np_all_trav. intro.
      apply np_bind; [ apply np_eval_column | discriminate ].
    - apply npM_both; [ apply npM_runtime | apply npM_lift; discriminate ].
    - apply npM_only. unfold t_head. apply np_bind; [ apply np_head_limit | discriminate ].
    - apply npM_only. unfold t_lookup. apply np_bind; [ | discriminate ]. unfold lookup_result.
      apply np_bind; [ apply np_all_trav; intros []; discriminate | intro ].
      apply np_bind; [ | discriminate ]. destruct output as [[kv fs]|]; [ | discriminate ].
      destruct (String.eqb _ _); [ | discriminate ]. apply np_bind; [ apply np_all_trav; intros []; discriminate | discriminate ].
    - apply npM_only. unfold t_toprare. apply np_bind; [ apply np_ensure | discriminate ].
    - apply npM_only. unfold t_regex. apply np_bind; [ | intros []; discriminate ].
      repeat match goal with |- np (match ?x with _ => _ end) => destruct x end; discriminate.
    - apply npM_only, np_rename_go.
    - apply npM_only. unfold t_rex. apply np_bind; [ apply np_ensure | intro ]. apply np_bind; [ apply np_ensure | intro ].
      apply np_bind; [ apply HG | discriminate ].
    - apply npM_both; [ | apply search_np ].
      apply npM_bind; [ | intro; apply npM_runtime ]. apply npM_lift, np_all_trav. apply np_search_arg.
    - apply npM_only. unfold t_sort. apply np_bind; [ apply np_all_trav, np_sort_key | discriminate ].
    - apply npM_both; [ | apply npM_lift ].
      + apply npM_bind; [ | intro; apply npM_runtime ]. apply npM_lift, np_all_trav. apply np_stats_rt.
      + unfold t_stats_standalone. apply np_bind; [ apply np_stats_exprs | intros []; discriminate ].
    - apply npM_only. unfold t_toprare. apply np_bind; [ apply np_ensure | discriminate ].
    - assert (W : forall (f : PExpr -> DataFrame) d, np (match where_condition with Some e => let? x := to_spark_expr (env_rt env) e in Ok (f x) | None => Ok d end)).
      { intros f d. destruct where_condition; [ | discriminate ]. apply np_bind; [ apply np_expr | discriminate ]. }
      apply npM_both.
      + unfold t_tstats_runtime. apply npM_bind; [ apply npM_lift, np_ensure | intro ].
        apply npM_bind; [ apply npM_lift | intro ].
        { destruct where_condition; [ | discriminate ]. apply np_bind; [ apply np_expr | discriminate ]. }
        apply npM_bind; [ | intro; apply npM_runtime ]. apply npM_lift, np_all_trav. apply np_stats_rt.
      + unfold t_tstats_standalone. apply npM_bind; [ apply npM_lift, np_ensure | intro ].
        apply npM_bind.
        { unfold t_datamodel. apply npM_select; [ apply npM_runtime | apply npM_lift ]. unfold t_datamodel_standalone.
          apply np_bind; [ apply np_ensure | intro ]. repeat match goal with |- np (match ?x with _ => _ end) => destruct x end; discriminate. }
        intro d. apply npM_bind; [ apply npM_lift, W | intro ]. apply npM_bind; [ apply npM_lift, np_stats_exprs | intros [] ].
        apply npM_bind; [ | intro; apply npM_ret ]. apply npM_lift.
        repeat match goal with |- np (match ?x with _ => _ end) => destruct x end; discriminate.
    - apply npM_only. unfold t_where. apply np_bind; [ apply np_expr | discriminate ].
  Qed.
End NoPanic.

(** ** What the parser yields *)
Definition yields {A} (Q : A -> Prop) (p : Parser A) : Prop := forall s r a, p s = POk r a -> Q a.
Lemma y_bind : forall A B (Q : B -> Prop) (p : Parser A) f, (forall a, yields Q (f a)) -> yields Q (p_bind p f).
Proof. intros A B Q p f H s r b E. unfold p_bind in E. destruct (p s); try discriminate. eapply H; eauto. Qed.
Lemma y_bind2 : forall A B (R : A -> Prop) (Q : B -> Prop) (p : Parser A) f, yields R p -> (forall a, R a -> yields Q (f a)) -> yields Q (p_bind p f).
Proof. intros A B R Q p f H1 H s r b E. unfold p_bind in E. destruct (p s) eqn:E1; try discriminate. eapply H; eauto. Qed.
Lemma y_ret : forall A (Q : A -> Prop) a, Q a -> yields Q (p_ret a).
Proof. intros A Q a H s r b E. injection E as _ <-. exact H. Qed.
Lemma y_fail : forall A (Q : A -> Prop), yields Q p_fail.
Proof. intros A Q s r a E. discriminate. Qed.
Lemma y_or : forall A (Q : A -> Prop) p q, yields Q p -> yields Q q -> yields Q (p <|> q).
Proof. intros A Q p q H1 H2 s r a E. unfold p_or in E. destruct (p s) eqn:E1; try discriminate; [ injection E as <- <-; eauto | eauto ]. Qed.
Lemma y_map : forall A B (R : A -> Prop) (Q : B -> Prop) f p, yields R p -> (forall a, R a -> Q (f a)) -> yields Q (p_map f p).
Proof. intros. unfold p_map. eapply y_bind2; eauto. intros. apply y_ret. auto. Qed.
Lemma y_top : forall A (p : Parser A), yields (fun _ => True) p.
Proof. intros A p s r a E. exact I. Qed.
Lemma y_preceded : forall A B (Q : B -> Prop) (p : Parser A) q, yields Q q -> yields Q (preceded p q).
Proof. intros. unfold preceded. apply y_bind. auto. Qed.
Lemma y_delimited : forall A B C (Q : B -> Prop) (p : Parser A) q (r : Parser C), yields Q q -> yields Q (delimited p q r).
Proof. intros A B C Q p q r H. unfold delimited. apply y_bind. intro. eapply y_bind2; eauto. intros. apply y_bind. intro. now apply y_ret. Qed.
Lemma y_ws : forall A (Q : A -> Prop) p, yields Q p -> yields Q (ws p).
Proof. intros. now apply y_delimited. Qed.
Lemma y_sep_go : forall A B (Q : A -> Prop) (sep : Parser B) p, yields Q p -> forall n, yields (Forall Q) (sep_go sep p n).
Proof.
  intros A B Q sep p H. induction n as [|n IH]; intros s r l E; cbn [sep_go] in E; [ discriminate | ].
  destruct (sep s) as [r1 b| | | ]; try discriminate.
  - destruct (Nat.eqb _ _); [ discriminate | ]. destruct (p r1) eqn:E1; try discriminate.
    + destruct (sep_go sep p n rest) eqn:E2; try discriminate. injection E as <- <-. constructor; eauto.
    + injection E as <- <-. constructor.
  - injection E as <- <-. constructor.
Qed.
Lemma y_separated0 : forall A B (Q : A -> Prop) (sep : Parser B) p, yields Q p -> yields (Forall Q) (separated_list0 sep p).
Proof.
  intros A B Q sep p H s r l E. unfold separated_list0 in E. destruct (p s) eqn:E1; try discriminate.
  - destruct (sep_go _ _ _ _) eqn:E2; try discriminate. injection E as <- <-. constructor; eauto. eapply y_sep_go; eauto.
  - injection E as <- <-. constructor.
Qed.
Lemma y_separated1 : forall A B (sep : Parser B) (p : Parser A), yields (fun l => l <> []) (separated_list1 sep p).
Proof. intros. unfold separated_list1. apply y_bind. intro. apply y_bind. intro. apply y_ret. discriminate. Qed.
Lemma y_many0_go : forall A (Q : A -> Prop) p, yields Q p -> forall n, yields (Forall Q) (many0_go p n).
Proof.
  intros A Q p H. induction n as [|n IH]; intros s r l E; cbn [many0_go] in E; [ discriminate | ].
  destruct (p s) eqn:E1; try discriminate.
  - destruct (Nat.eqb _ _); [ discriminate | ]. destruct (many0_go p n rest) eqn:E2; try discriminate. injection E as <- <-. constructor; eauto.
  - injection E as <- <-. constructor.
Qed.
Lemma y_verify : forall A (Q : A -> Prop) p f, yields Q p -> yields Q (verify p f).
Proof. intros. unfold verify. eapply y_bind2; eauto. intros. destruct (f a); [ now apply y_ret | apply y_fail ]. Qed.
Lemma y_many2 : forall A (Q : A -> Prop) p, yields Q p -> yields (Forall Q) (many2 p).
Proof. intros. unfold many2. apply y_verify. intros s r l E. eapply y_many0_go; eauto. Qed.
Lemma y_all_consuming : forall A (Q : A -> Prop) p, yields Q p -> yields Q (all_consuming p).
Proof. intros. unfold all_consuming. eapply y_bind2; eauto. intros. apply y_bind. intro. now apply y_ret. Qed.
Lemma y_weaken : forall A (P Q : A -> Prop) p, yields P p -> (forall a, P a -> Q a) -> yields Q p.
Proof. intros A P Q p H1 H2 s r a E. eauto. Qed.

Section Commands.
  Variable Q : Command -> Prop.
  Hypothesis Hother : forall c, ~ has_subsearch c -> Q c.
  Hypothesis Hjoin : forall o p, jo_fields o <> [] -> Forall Q p -> Q (CJoin o p).
  Hypothesis Hmulti : forall ps, Forall (Forall Q) ps -> Q (CMultiSearch ps).
  Variable R : Recs.
  Hypothesis HR : yields Q (r_command R).
  Lemma y_sub : yields (Forall Q) (sub_search R).
  Proof. unfold sub_search. apply y_delimited, y_preceded, y_separated0, HR. Qed.
  Lemma y_cmd : forall n p, yields Q p -> yields Q (cmd n p).
  Proof. intros. unfold cmd. now apply y_preceded. Qed.
  Ltac yo := repeat first
    [ apply y_preceded
    | apply y_ws
    | apply y_bind; intro
    | apply y_ret; apply Hother; exact (fun H : False => H)
    | eapply y_map; [ apply y_top | intros; apply Hother; exact (fun H : False => H) ]
    | apply y_or ].
  Lemma y_command : yields Q (command R).
  Proof.
    unfold command.
    repeat (apply y_or; [ first [ apply y_cmd | apply y_preceded ] | ]).
    all: try unfold p_addtotals, p_bin, p_collect, p_convert, p_datamodel, p_dedup, p_eval, p_eventstats, p_fields, p_fillnull, p_head,
      p_inputlookup, p_lookup, p_makeresults, p_map_cmd, p_mvcombine, p_mvexpand, p_rare, p_top, p_regex, p_rename, p_return,
      p_rex, p_spath, p_search, p_sort, p_stats, p_streamstats, p_table, p_tail, p_where.
    all: match goal with
         | |- yields _ (p_join _) => idtac
         | |- yields _ (p_multisearch _) => idtac
         | |- yields _ _ => yo
         end.
    - destruct (or_default _ _) as [[[[[? ?] ?] ?] ?] ?]. yo.
    - unfold p_join. apply y_bind. intro. eapply y_bind2; [ apply y_separated1 | intros fs Hfs ].
      eapply y_bind2; [ apply y_sub | intros p Hp ]. apply y_ret. now apply Hjoin.
    - unfold p_multisearch. eapply y_map; [ apply y_many2, y_ws, y_sub | apply Hmulti ].
    - destruct (match a1 with None => _ | Some _ => _ end) as [dm node].
      destruct (or_default _ _) as [by_ prefix]. yo.
  Qed.
  Lemma y_pipeline : yields (Forall Q) (pipeline R).
  Proof. unfold pipeline. apply y_preceded, y_all_consuming, y_ws, y_separated0, y_command. Qed.
End Commands.

Section Parse.
  Variable Q : Command -> Prop.
  Hypothesis Hother : forall c, ~ has_subsearch c -> Q c.
  Hypothesis Hjoin : forall o p, jo_fields o <> [] -> Forall Q p -> Q (CJoin o p).
  Hypothesis Hmulti : forall ps, Forall (Forall Q) ps -> Q (CMultiSearch ps).
  Lemma y_level : forall n, yields Q (r_command (level n)).
  Proof.
    induction n as [|n IH].
    - intros s r a E. discriminate.
    - cbn [level next r_command]. now apply y_command.
  Qed.
  Lemma parse_yields : forall text p, parse text = Some (Ok p) -> Forall Q p.
  Proof.
    intros text p H. unfold parse, parse_with in H. destruct (pipeline _ text) as [[|] a| | | ] eqn:E; try discriminate.
    injection H as <-. exact (y_pipeline Q Hother Hjoin Hmulti _ (y_level _) _ _ _ E).
  Qed.
End Parse.

Theorem render_no_panic : forall env text p, walks_sets env -> (forall r, env_groups env r <> Panic) ->
  parse text = Some (Ok p) -> render_pyspark env p <> Panic.
Proof.
  intros env text p HW HG H. assert (F : Forall (cmd_np env) p).
  { apply (parse_yields (cmd_np env)) with text; auto.
    - now apply other_np.
    - apply join_np.
    - apply multisearch_np. }
  unfold render_pyspark. apply np_bind; [ | discriminate ]. exact (run_np env p F None transform_state0).
Qed.
Theorem transpile_no_panic : forall env text, walks_sets env -> (forall r, env_groups env r <> Panic) ->
  transpile env text = Some Err \/ exists code, transpile env text = Some (Ok code).
Proof.
  intros env text HW HG. unfold transpile. destruct (parse_outcome text) as [-> | [p E]]; [ now left | ]. rewrite E.
  cbn [option_map rbind]. pose proof (render_no_panic env text p HW HG E) as N.
  destruct (render_pyspark env p) as [c| | ]; [ right; eauto | now left | now elim N ].
Qed.
