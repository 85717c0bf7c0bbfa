(** C16-C22, C30: properties of whole pipelines *)
From Coq Require Import String List Permutation.
Import ListNotations.
From Verif Require Import Str SplAst PyAst Render Functions Transpile Commands CmdParser Api SpecPipe
  PipeFacts AllowFacts TreeFacts NamesFacts ShapeFacts ScopeFacts StatementFacts ComposeFacts.
Open Scope string_scope.

(** C16: what renders without the runtime renders with it, whatever the order in which hash
    sets are walked in the two runs. *)
Theorem C16_runtime_accepts_more : forall ho ho' gr p out,
  (forall k l, Permutation (ho' k l) l) ->
  render_pyspark (mkEnv Disallow ho gr) p = Ok out ->
  exists out', render_pyspark (mkEnv Allow ho' gr) p = Ok out'.
Proof. exact allow_accepts. Qed.
Print Assumptions C16_runtime_accepts_more.
Example C16_ex : exists out, render_pyspark (env0 Disallow)
  (parsed "search index=a host!=b | stats count as n by src | join src [search index=c | eval z=len(n)] | where n > 3") = Ok out.
Proof. eexists. vm_compute. reflexivity. Qed.

(** C17: with the runtime disallowed the code has no runtime frames, no assignments, and
    calls no function with a dot in its name.  Missing: queries that themselves spell a
    function name with a dot, for which it is false (next theorem). *)
Theorem C17_no_runtime_code_partial : forall ho gr p d,
  (forall c f, occurs c p -> In f (command_calls c) -> contains "." f = false) ->
  transform_pipeline (mkEnv Disallow ho gr) p = Ok (Some d) ->
  (forall x, In x (frames d) -> ~ is_runtime x)
  /\ (forall f, In f (frags d) -> exists s, f = FText s)
  /\ (forall f args, In (CFunctionCall f args) (all_columns d) -> contains "." f = false).
Proof. exact standalone_code. Qed.
Print Assumptions C17_no_runtime_code_partial.
(** The pieces spell the rendered text, so that no piece but plain text means no assignment. *)
Theorem C17_pieces_spell_the_text : forall d, spell (frags d) = code_to_string (render_df d).
Proof. exact spell_frags. Qed.
Print Assumptions C17_pieces_spell_the_text.
Theorem C17_no_runtime_code_refuted : exists s out,
  transpile (env0 Disallow) s = Some (Ok out) /\ contains "functions." out = true.
Proof. exists "stats functions.eval.len as c". eexists. split; vm_compute; reflexivity. Qed.
Print Assumptions C17_no_runtime_code_refuted.
Example C17_ex : exists d,
  transform_pipeline (env0 Disallow) (parsed "index=a | eval x=len(y) | stats count by x") = Ok (Some d)
  /\ (forall c f, occurs c (parsed "index=a | eval x=len(y) | stats count by x") -> In f (command_calls c) -> contains "." f = false).
Proof.
  eexists. split; [ vm_compute; reflexivity | ]. intros c f Hc Hf.
  assert (E : parsed "index=a | eval x=len(y) | stats count by x" = ltac:(let v := eval vm_compute in (parsed "index=a | eval x=len(y) | stats count by x") in exact v)) by (vm_compute; reflexivity).
  rewrite E in Hc. inversion Hc as [? Hi|? o q Hi Hq|? qs q Hi Hq Hd]; subst; cbn in Hi;
    repeat (destruct Hi as [Hi|Hi]; [ try discriminate Hi; subst c; cbn in Hf; repeat (destruct Hf as [Hf|Hf]; [ subst f; reflexivity | ]); contradiction | ]); contradiction.
Qed.

(** C18: each name is assigned once, and used only after the line that assigns it, in every
    mode and at every depth of sub-searches. *)
Theorem C18_names_unique_and_defined_before_use : forall env p d,
  transform_pipeline env p = Ok (Some d) ->
  NoDup (assigned (frags d)) /\ scoped [] [] (frags d).
Proof. exact names_scoped. Qed.
Print Assumptions C18_names_unique_and_defined_before_use.
Example C18_ex : exists d,
  transform_pipeline (env0 Allow) (parsed "search x=1 | eval y=2 | join z [search a=1 | stats count by z] | fillnull") = Ok (Some d)
  /\ assigned (frags d) = ["df_5"; "df_1"; "df_2"; "df_3"; "df_4"].
Proof. eexists. split; vm_compute; reflexivity. Qed.

(** C19: without the runtime, always; with it, when the commands that have a runtime version
    stand together, and each is translated as one call.  Missing: other orders, where it is
    false. *)
Theorem C19_statements_without_runtime : forall ho gr p d,
  transform_pipeline (mkEnv Disallow ho gr) p = Ok (Some d) ->
  statements (frags d) /\ assigned (frags d) = [].
Proof. exact statements_disallow. Qed.
Print Assumptions C19_statements_without_runtime.
Theorem C19_statements_then_expression_partial : forall ho gr A R B d,
  (forall c, occurs c A -> ~ has_runtime c) -> (forall c, occurs c B -> ~ has_runtime c) ->
  (forall c, In c R -> has_runtime c /\
     exists n f args kw, transform_pipeline (mkEnv Allow ho gr) [c] = Ok (Some (DRuntime n None f args kw))) ->
  transform_pipeline (mkEnv Allow ho gr) (A ++ R ++ B)%list = Ok (Some d) ->
  statements (frags d).
Proof. exact statements_allow. Qed.
Print Assumptions C19_statements_then_expression_partial.
Theorem C19_statements_then_expression_refuted : exists s p d,
  parse s = Some (Ok p) /\ transform_pipeline (env0 Allow) p = Ok (Some d) /\ ~ statements (frags d).
Proof.
  exists "search a=1 | head 5 | eval b=1". eexists _, _. split; [ vm_compute; reflexivity | ]. split; [ vm_compute; reflexivity | ].
  intro H. apply statements_stmts in H. vm_compute in H. discriminate.
Qed.
Print Assumptions C19_statements_then_expression_refuted.
(** What the refuting query renders to: an assignment inside the arguments of a call. *)
Example C19_refuted_text : transpile (env0 Allow) "search a=1 | head 5 | eval b=1" = Some (Ok
"df_2 = commands.eval(df_1 = commands.search(None, a=F.lit(1))
df_1.limit(5,), b=F.lit(1))
df_2").
Proof. vm_compute. reflexivity. Qed.
Example C19_ex : exists d c1 c2 c3 c4, parsed "head 5 | eval b=1 | search x=1 | tail 3" = [c1; c2; c3; c4]
  /\ (forall c, occurs c [c1] -> ~ has_runtime c) /\ (forall c, occurs c [c4] -> ~ has_runtime c)
  /\ (forall c, In c [c2; c3] -> has_runtime c /\
     exists n f args kw, transform_pipeline (env0 Allow) [c] = Ok (Some (DRuntime n None f args kw)))
  /\ transform_pipeline (env0 Allow) [c1; c2; c3; c4] = Ok (Some d).
Proof.
  eexists _, _, _, _, _. split; [ vm_compute; reflexivity | ].
  split; [ | split; [ | split ] ].
  - intros c Hc. inversion Hc as [? Hi|? o q Hi Hq|? qs q Hi Hq Hd]; subst; destruct Hi as [Hi|[]]; try discriminate Hi. subst c. auto.
  - intros c Hc. inversion Hc as [? Hi|? o q Hi Hq|? qs q Hi Hq Hd]; subst; destruct Hi as [Hi|[]]; try discriminate Hi. subst c. auto.
  - intros c [Hc|[Hc|[]]]; subst c; (split; [ exact I | ]); eexists _, _, _, _; vm_compute; reflexivity.
  - vm_compute. reflexivity.
Qed.

(** C20: when no command of q starts over (makeresults, multisearch, a search naming an
    index), the frame of p is among the frames that of p | q is computed from, in every mode;
    and without the runtime each command adds a text of its own, in order, after the text of
    p.  Missing: the generating commands, for which it is false. *)
Theorem C20_earlier_result_is_used_partial : forall env p q d s',
  transform_pipeline env p = Ok (Some d) -> (forall c, In c q -> ~ starts_over c) ->
  transform_pipeline env (p ++ q)%list = Ok s' -> exists d', s' = Some d' /\ In d (frames d').
Proof. exact compose_keeps. Qed.
Print Assumptions C20_earlier_result_is_used_partial.
Theorem C20_commands_add_their_text_partial : forall o gr, exists w : Command -> res string,
  forall p q, (forall c, In c q -> ~ starts_over c) ->
    match render_pyspark (mkEnv Disallow (fun _ => o) gr) p with
    | Ok t => t <> "" ->
        render_pyspark (mkEnv Disallow (fun _ => o) gr) (p ++ q)%list
        = rmap (fun l => (t ++ sconcat l)%string) (rtraverse w q)
    | e => render_pyspark (mkEnv Disallow (fun _ => o) gr) (p ++ q)%list = e
    end.
Proof. exact compose_text. Qed.
Print Assumptions C20_commands_add_their_text_partial.
Theorem C20_earlier_result_is_used_refuted : exists p q d d',
  parse "where x > 1 | search index=b" = Some (Ok (p ++ q)%list)
  /\ transform_pipeline (env0 Disallow) p = Ok (Some d)
  /\ transform_pipeline (env0 Disallow) (p ++ q)%list = Ok (Some d') /\ ~ In d (frames d').
Proof.
  eexists [_], [_], _, _. split; [ vm_compute; reflexivity | ]. split; [ vm_compute; reflexivity | ]. split; [ vm_compute; reflexivity | ].
  intro H. cbn in H. repeat (destruct H as [H|H]; [ discriminate H | ]). exact H.
Qed.
Print Assumptions C20_earlier_result_is_used_refuted.
Theorem C20_earlier_commands_discarded_refuted : forall o gr p c q t, starts_over c ->
  render_pyspark (mkEnv Disallow (fun _ => o) gr) p = Ok t ->
  render_pyspark (mkEnv Disallow (fun _ => o) gr) (p ++ c :: q)%list = render_pyspark (mkEnv Disallow (fun _ => o) gr) (c :: q).
Proof. exact compose_forgets. Qed.
Print Assumptions C20_earlier_commands_discarded_refuted.
Example C20_over_ex : exists p c q t, parse "index=a x>1 | makeresults | eval y=2" = Some (Ok (p ++ c :: q)%list)
  /\ starts_over c /\ render_pyspark (env0 Disallow) p = Ok t /\ t <> "".
Proof.
  eexists [_], _, [_], _. split; [ vm_compute; reflexivity | ]. split; [ exact I | ]. split; [ vm_compute; reflexivity | ]. discriminate.
Qed.
Example C20_ex : exists t u,
  render_pyspark (env0 Disallow) (parsed "index=a x>1") = Ok t /\ t <> ""
  /\ render_pyspark (env0 Disallow) (parsed "index=a x>1 | stats count by y | sort -count | head 3") = Ok (t ++ u)
  /\ Forall (fun c => ~ starts_over c) (parsed "stats count by y | sort -count | head 3").
Proof.
  eexists _, ".groupBy([""y"", ]).agg(F.count(F.lit(1)).alias('count'),).orderBy(F.col('count').desc(),).limit(10000,).limit(3,)".
  split; [ vm_compute; reflexivity | ]. split; [ discriminate | ]. split; [ vm_compute; reflexivity | ].
  vm_compute. repeat constructor; auto.
Qed.

(** C21: a command that is parsed but not translated makes rendering fail, wherever it
    stands, also inside sub-searches. *)
Theorem C21_untranslatable_commands_raise : forall env p c,
  occurs c p -> untranslatable c -> forall out, render_pyspark env p <> Ok out.
Proof. exact untranslatable_refused. Qed.
Print Assumptions C21_untranslatable_commands_raise.
Example C21_ex : exists c, occurs c (parsed "index=a | join x [search y=1 | dedup z] | head 3") /\ untranslatable c.
Proof.
  assert (E : parsed "index=a | join x [search y=1 | dedup z] | head 3"
    = ltac:(let v := eval vm_compute in (parsed "index=a | join x [search y=1 | dedup z] | head 3") in exact v)) by (vm_compute; reflexivity).
  rewrite E. eexists. split.
  - eapply OC_join; [ right; left; reflexivity | ]. apply OC_here. right. left. reflexivity.
  - exact I.
Qed.

(** C22: operands, receivers and aliased columns carry no alias at their top, and neither do
    conditions and assigned columns.  Missing: the arguments of runtime calls, for which it is
    false. *)
Theorem C22_no_alias_inside_an_operand_partial : forall env p d,
  transform_pipeline env p = Ok (Some d) ->
  (forall c, In c (all_columns d) -> operands_unaliased c)
  /\ (forall x e, In x (frames d) -> In e (step_conditions x) -> ~ is_alias_of e).
Proof. exact operands_clean. Qed.
Print Assumptions C22_no_alias_inside_an_operand_partial.
Theorem C22_runtime_conditions_refuted : exists s n args kw c,
  transform_pipeline (env0 Allow) (parsed s) = Ok (Some (DRuntime n None "search" args kw))
  /\ In (RExpr (PCol c)) args /\ is_alias c.
Proof.
  exists "search cidrmatch(""10.0.0.0/8"", ip)". eexists _, _, _, _. split; [ vm_compute; reflexivity | ]. split; [ left; reflexivity | exact I ].
Qed.
Print Assumptions C22_runtime_conditions_refuted.
Example C22_ex : exists d c,
  transform_pipeline (env0 Disallow) (parsed "index=a | eval x=len(y)+max(z, 2) | where x > len(y)") = Ok (Some d)
  /\ In c (all_columns d) /\ match c with CBinaryOp _ _ _ => True | _ => False end.
Proof. eexists _, _. split; [ vm_compute; reflexivity | ]. split; [ cbn; left; reflexivity | exact I ]. Qed.

(** C30: false when a search names two indexes: the tables are united in the order of a hash
    set.  When every search names at most one, the order has no influence. *)
Theorem C30_rendering_is_deterministic_partial : forall rt gr ho ho',
  (forall k l, Permutation (ho k l) l) -> (forall k l, Permutation (ho' k l) l) ->
  forall p, (forall e, occurs (CSearch e) p -> length (index_terms e) <= 1) ->
  render_pyspark (mkEnv rt ho gr) p = render_pyspark (mkEnv rt ho' gr) p.
Proof. exact render_same. Qed.
Print Assumptions C30_rendering_is_deterministic_partial.
Theorem C30_rendering_is_deterministic_refuted : exists s ho ho',
  (forall k l, Permutation (ho k l) l) /\ (forall k l, Permutation (ho' k l) l)
  /\ transpile (mkEnv Disallow ho (fun _ => Ok [])) s <> transpile (mkEnv Disallow ho' (fun _ => Ok [])) s.
Proof.
  exists "search index=a index=b", (fun _ l => l), (fun _ l => rev l). split; [ intros; apply Permutation_refl | ].
  split; [ intros; apply Permutation_sym, Permutation_rev | ]. vm_compute. discriminate.
Qed.
Print Assumptions C30_rendering_is_deterministic_refuted.
Example C30_ex : exists out, render_pyspark (env0 Disallow) (parsed "index=a x=1 | join y [search index=b]") = Ok out
  /\ length (match parsed "index=a x=1" with [CSearch e] => index_terms e | _ => [] end) = 1.
Proof. eexists. split; vm_compute; reflexivity. Qed.
