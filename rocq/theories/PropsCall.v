(** C29 and C48: the calls of the runtime library that generated code makes.  The
    specification is SpecCall.v; [frames d] are the steps a data frame is computed with,
    [occurs c p] the commands of a pipeline and of its sub-searches (SpecPipe.v). *)
From Verif Require Import Str SplAst PyAst Functions Transpile Render Commands Api SpecPipe SpecCall CallFacts.
Open Scope list_scope.
Open Scope string_scope.

(** ** C48: every generated call of the runtime library binds to the parameters of the
    function it calls. *)
(** Exactly which generated calls bind: all but those of data_model, those that give a keyword
    twice and those with a keyword df. *)
Theorem C48_calls_that_bind_partial : forall env p d name source f args kwargs,
  transform_pipeline env p = Ok (Some d) ->
  In (DRuntime name source f args kwargs) (frames d) ->
  (binds f (1 + length args) (map fst kwargs) <->
   f <> "data_model" /\ NoDup (map fst kwargs) /\ ~ In "df" (map fst kwargs)).
Proof. exact calls_that_bind. Qed.
Print Assumptions C48_calls_that_bind_partial.
(** In terms of the query: without datamodel commands, when no command gives a keyword twice
    and none is df, every call binds. *)
Theorem C48_calls_bind_partial : forall env p d name source f args kwargs,
  (forall c, occurs c p -> well_named c) ->
  transform_pipeline env p = Ok (Some d) ->
  In (DRuntime name source f args kwargs) (frames d) ->
  binds f (1 + length args) (map fst kwargs).
Proof. exact well_named_calls. Qed.
Print Assumptions C48_calls_bind_partial.
Example C48_applies : let p := parsed "search index=a x=1 y>2 | eval z=x+1, w=2 | stats count as n by z" in
  (forall c, occurs c p -> well_named c) /\
  exists d, transform_pipeline (env0 Allow) p = Ok (Some d) /\
    map (fun x => match x with DRuntime _ _ f args kw => (f, length args, map fst kw) | _ => ("", 0, []) end) (frames d)
    = [("stats", 0, ["by"; "n"]); ("eval", 0, ["z"; "w"]); ("search", 1, ["index"; "x"])].
Proof.
  cbv zeta. split.
  - intros c H.
    assert (E : In c (parsed "search index=a x=1 y>2 | eval z=x+1, w=2 | stats count as n by z")).
    { inversion H as [? I0|? o q I0 _|? qs q I0 _]; subst; [ exact I0 | exfalso | exfalso ];
        vm_compute in I0; repeat (destruct I0 as [I0|I0]; [ discriminate I0 | ]); contradiction. }
    vm_compute in E. destruct E as [<-|[<-|[<-|[]]]]; (split; [ discriminate | ]); intros kws K; inversion K as [e l F E1 E2| | | |]; subst.
    + vm_compute in F. repeat match goal with H : Forall2 _ (_ :: _) _ |- _ => inversion H; clear H; subst | H : Forall2 _ [] _ |- _ => inversion H; clear H; subst end.
      assert (X : forall f op r n, keyword_of (EBinary (ELeaf (LConstant (KField f))) op r) n -> n = f \/ In (f, n) metadata)
        by (intros f op r n HK; inversion HK; subst; auto).
      repeat match goal with H : match ?y with Some _ => _ | None => _ end |- _ => destruct y end; cbn [List.concat map app].
      all: repeat match goal with H : keyword_of _ _ |- _ => apply X in H; destruct H as [->|H]; [ | unfold metadata in H; cbn [In] in H; repeat (destruct H as [H|H]; [ first [ discriminate H | injection H as <- ] | ]); try contradiction ] end.
      all: split; [ repeat constructor; cbn; intuition discriminate | cbn; intuition discriminate ].
    + cbn. split; [ repeat constructor; cbn; intuition discriminate | cbn; intuition discriminate ].
    + cbn. split; [ repeat constructor; cbn; intuition discriminate | cbn; intuition discriminate ].
  - eexists. split; [ vm_compute; reflexivity | vm_compute; reflexivity ].
Qed.
(** It fails for every datamodel command: the call gives data_model_name twice, by position
    and by name. *)
Theorem C48_datamodel_refuted : forall hash_order groups c, exists name kwargs,
  transform_pipeline (mkEnv Allow hash_order groups) [CDataModel c] = Ok (Some (DRuntime name None "data_model" [] kwargs)) /\
  ~ binds "data_model" 1 (map fst kwargs).
Proof.
  intros ho gr c. eexists _, _. split; [ reflexivity | ]. exact model_never_binds.
Qed.
Print Assumptions C48_datamodel_refuted.
(** And for queries that name a field twice, or a field df. *)
Theorem C48_repeated_names_refuted :
  (exists d name source args kwargs,
     transform_pipeline (env0 Allow) (parsed "eval x=1, x=2") = Ok (Some d) /\
     In (DRuntime name source "eval" args kwargs) (frames d) /\ ~ binds "eval" (1 + length args) (map fst kwargs)) /\
  (exists d name source args kwargs,
     transform_pipeline (env0 Allow) (parsed "search index=a x=1 x=2") = Ok (Some d) /\
     In (DRuntime name source "search" args kwargs) (frames d) /\ ~ binds "search" (1 + length args) (map fst kwargs)) /\
  (exists d name source args kwargs,
     transform_pipeline (env0 Allow) (parsed "search index=a df=1") = Ok (Some d) /\
     In (DRuntime name source "search" args kwargs) (frames d) /\ ~ binds "search" (1 + length args) (map fst kwargs)).
Proof.
  split; [ | split ]; (do 5 eexists; split; [ vm_compute; reflexivity | split; [ now left | ] ]; intro H;
    destruct H as (sg & I0 & ND & _ & K & _)).
  - cbn in ND. inversion ND as [|? ? N _]; subst. apply N. now left.
  - cbn in ND. inversion ND as [|? ? _ ND2]; subst. inversion ND2 as [|? ? N _]; subst. apply N. now left.
  - unfold signatures in I0. cbn [In] in I0. repeat (destruct I0 as [I0|I0]; [ try discriminate I0 | ]); [ | contradiction ].
    injection I0 as <-. destruct (K "df") as [X|[X|[_ X]]]; [ right; now left | exact X | | apply X; now left ].
    cbn in X. repeat (destruct X as [X|X]; [ discriminate X | ]). contradiction.
Qed.
Print Assumptions C48_repeated_names_refuted.

(** ** C29: the positional and keyword arguments of commands.search carry every condition the
    search joins by AND exactly once, and no keyword is given twice. *)
(** When a search is translated to a call of the library, each condition of the search, in the
    order of the query, is one argument: an equality of a field is the keyword argument of
    that name, with the translated value; a test of a metadata field is the keyword of its
    parameter, with its text; any other condition is a positional argument, the translated
    condition.  There are no other arguments. *)
Theorem C29_conditions_exactly_once : forall env p e source name f args kwargs,
  transform_pipeline env p = Ok source ->
  transform_pipeline env (p ++ [CSearch e])%list = Ok (Some (DRuntime name source f args kwargs)) ->
  f = "search" /\ carries (fun e x => to_spark_expr (env_rt env) e = Ok x) (conjuncts e) args kwargs.
Proof. exact search_call. Qed.
Print Assumptions C29_conditions_exactly_once.
(** And there is no call of search that comes from anywhere else. *)
Theorem C29_only_searches : forall env p d name source args kwargs,
  transform_pipeline env p = Ok (Some d) ->
  In (DRuntime name source "search" args kwargs) (frames d) ->
  exists e, occurs (CSearch e) p /\ carries (fun e x => to_spark_expr (env_rt env) e = Ok x) (conjuncts e) args kwargs.
Proof. exact search_carries. Qed.
Print Assumptions C29_only_searches.
Example C29_applies : exists e name args kwargs,
  parsed "search index=a x=1 y>2" = [CSearch e] /\ length (conjuncts e) = 3 /\
  transform_pipeline (env0 Allow) ([] ++ [CSearch e])%list = Ok (Some (DRuntime name None "search" args kwargs)) /\
  args = [RExpr (PCol (CBinaryOp ">" (PCol (CNamed "y")) (PCol (CLiteral "2"))))] /\
  kwargs = [("index", RExpr (pylit_str "a")); ("x", RExpr (PCol (CLiteral "1")))].
Proof. do 4 eexists. split; [ vm_compute; reflexivity | ]. split; [ reflexivity | ]. split; [ vm_compute; reflexivity | split; reflexivity ]. Qed.
(** No keyword is given twice exactly when the keywords of the conditions differ. *)
Theorem C29_keywords_of_the_conditions : forall column conditions args kwargs,
  carries column conditions args kwargs ->
  exists l, Forall2 (fun c k => match k with Some n => keyword_of c n | None => forall n, ~ keyword_of c n end) conditions l /\
    map fst kwargs = List.concat (map (fun k => match k with Some n => [n] | None => [] end) l).
Proof. exact carries_keywords. Qed.
Print Assumptions C29_keywords_of_the_conditions.
(** It fails when one field is tested twice: x=1 x=2 gives the keyword x twice, which Python
    refuses. *)
Theorem C29_no_keyword_twice_refuted : exists e name args kwargs,
  parsed "search index=a x=1 x=2" = [CSearch e] /\
  transform_pipeline (env0 Allow) [CSearch e] = Ok (Some (DRuntime name None "search" args kwargs)) /\
  map fst kwargs = ["index"; "x"; "x"].
Proof. do 4 eexists. split; [ vm_compute; reflexivity | ]. split; vm_compute; reflexivity. Qed.
Print Assumptions C29_no_keyword_twice_refuted.
