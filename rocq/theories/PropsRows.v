(** C27, C28, C31, C32: what generated conditions mean on rows.
    [covered sp db p rows]: the pipeline p is one of those SpecCommands describes and yields
    rows.  [gives env sp db q o]: q renders, and the program computes exactly the object o,
    whatever Spark does where SpecSpark leaves it open. *)
From Coq Require Import String List ZArith Permutation.
Import ListNotations.
From Verif Require Import Str SplAst PyAst Functions Transpile Commands CmdParser Api SpecExpr SpecPy SpecCol SpecSpark SpecRows SpecCommands
  SpecResult SpecEffect SpecWhere RowFacts ResultFacts EffectFacts.
Open Scope string_scope.
Open Scope list_scope.

Ltac by_running := eapply text_frame; [ vm_compute; reflexivity
  | eapply frame_gives; [ vm_compute; reflexivity | vm_compute; reflexivity | intro; vm_compute; reflexivity ] ].

(** C27, where: after any covered pipeline, exactly the rows of which the condition is
    true stay (unknown is not true), for conditions of any depth built from fields,
    literals, comparisons, wildcards, arithmetic, IN, AND, OR, NOT and the functions of
    SpecRows.  Partial: function and operator words SpecRows does not cover are missing. *)
Theorem C27_where_keeps_the_true_rows_partial : forall env sp db, env_rt env = Disallow -> walks_sets env ->
  forall p rows e test, covered sp db p rows -> plain_expr true e = true ->
  (forall r, In r rows -> exists b, ev sp r e = Some (of_truth b) /\ (test r = true <-> b = Some true)) ->
  gives env sp db (p ++ [CWhere e]) (OFrame None (filter test rows)).
Proof. exact where_gives. Qed.
Print Assumptions C27_where_keeps_the_true_rows_partial.
(** From the text: a written condition (disjunctions of conjunctions of comparisons, IN, calls,
    NOT and parenthesised conditions, in any layout and letter case) keeps exactly the rows of which it is true. *)
Theorem C27_where_text_keeps_the_true_rows : forall env sp db c s rows, env_rt env = Disallow -> walks_sets env ->
  cond_wf c -> cond_spells c s -> cond_quotable c -> db "main" = Some rows ->
  (forall r, In r rows -> cond_known sp r c) ->
  text_gives env sp db ("where " ++ s) (OFrame None (filter (fun r => cond_true sp r c) rows)).
Proof. exact where_text. Qed.
Print Assumptions C27_where_text_keeps_the_true_rows.
Example C27_where_text_ex : let c := [[TmCall "isnull" [TField "x"]; TmCmpCall "y" CGe "coalesce" [TField "z"; TInt 3]]] in
  let row := [("y", SInt 4)] in cond_wf c /\ cond_spells c "isnull(x) y>=coalesce(z, 3)" /\ cond_quotable c /\
  cond_known small_spark row c /\ cond_true small_spark row c = true /\ cond_true small_spark [("y", SInt 2)] c = false.
Proof.
  cbn zeta. split.
  - unfold cond_wf. cbn [term_wf wf]. repeat match goal with |- _ /\ _ => split end; try exact I; try discriminate;
      try (now apply EvalFacts.field_by); try (now apply EvalFacts.ident_by); try (now apply EvalFacts.no_not_by);
      try (intro H; apply NameFacts.same_word_lower in H; discriminate). cbv. split; discriminate.
  - split.
    + apply C_one. apply (G_beside _ "isnull(x)" " " _ "y>=coalesce(z, 3)").
      * apply (T_call "isnull" [TField "x"] ["x"]). constructor; [ | constructor ]. apply (EvalFacts.writes_le 2); repeat constructor.
      * split; [ discriminate | split; [ now left | exact I ] ].
      * intros (a & b & E & H). apply NameFacts.same_word_lower in H. destruct a as [|k a]; [ discriminate | ]. injection E as <- _. discriminate.
      * apply G_one, (T_cmp_call "y" CGe "coalesce" [TField "z"; TInt 3] "" "" ["z"; "3"]); try exact I; [ right; intros (k & Hk & Hs); apply NameFacts.same_word_lower in Hs; repeat (destruct Hk as [<-|Hk]; [ discriminate | ]); destruct Hk | ].
        constructor; [ apply (EvalFacts.writes_le 2); repeat constructor | ]. constructor; [ | constructor ]. apply (EvalFacts.writes_le 2); [ repeat constructor .. | exact (W_int 3) ].
    + split; [ cbn; repeat split | ]. split; [ | split; reflexivity ].
      cbn. split; [ | exact I ]. split; [ exists (Some true); reflexivity | ]. split; [ eexists; reflexivity | exact I ].
Qed.
(** C27, search: exactly the rows of which the condition holds stay.  Partial: rows must
    have the fields the condition looks at below a NOT. *)
Theorem C27_search_keeps_the_rows_that_hold_partial : forall env sp db, env_rt env = Disallow -> walks_sets env ->
  forall p rows e test, covered sp db p rows -> plain_search e = true ->
  (forall r, In r rows -> forall f, In f (negated_fields e) -> cell f r <> SNull) ->
  (forall r, In r rows -> (test r = true <-> search_holds sp r e = Some true)) ->
  gives env sp db (p ++ [CSearch e]) (OFrame None (filter test rows)).
Proof. exact search_gives. Qed.
Print Assumptions C27_search_keeps_the_rows_that_hold_partial.
Theorem C27_search_text_partial : forall env sp db, env_rt env = Disallow -> walks_sets env ->
  forall t s rows test, wf t -> writes 9 t s -> plain_search (meaning t) = true -> db "main" = Some rows ->
  (forall r, In r rows -> forall f, In f (negated_fields (meaning t)) -> cell f r <> SNull) ->
  (forall r, In r rows -> (test r = true <-> search_holds sp r (meaning t) = Some true)) ->
  text_gives env sp db ("search " ++ s) (OFrame None (filter test rows)).
Proof. exact search_text. Qed.
Print Assumptions C27_search_text_partial.
(** False without the restriction: NOT x=1 holds of a row without x, but drops it. *)
Theorem C27_search_refuted : exists sp row e, search_holds sp row e = Some true /\
  parse "search NOT x=1" = Some (Ok [CSearch e]) /\
  text_gives (env0 Disallow) sp (only_main [row]) "search NOT x=1" (OFrame None []).
Proof.
  exists small_spark, [("y", SInt 1)]. eexists. split; [ | split; [ vm_compute; reflexivity | by_running ] ]. vm_compute. reflexivity.
Qed.
Print Assumptions C27_search_refuted.
(** False for words: search x=y asks for the text y, the program compares two columns. *)
Theorem C27_search_word_refuted : exists sp row e, search_holds sp row e = Some true /\
  parse "search x=y" = Some (Ok [CSearch e]) /\
  text_gives (env0 Disallow) sp (only_main [row]) "search x=y" (OFrame None []).
Proof.
  exists small_spark, [("x", SStr "y")]. eexists. split; [ | split; [ vm_compute; reflexivity | by_running ] ]. vm_compute. reflexivity.
Qed.
Print Assumptions C27_search_word_refuted.
Example C27_ex : exists e,
  parsed "where (a>1 OR NOT b=""x"") AND c!=2" = [CWhere e] /\ plain_expr true e = true /\
  covered small_spark (only_main [[("a", SInt 2)]; [("b", SStr "x")]; [("c", SInt 3); ("b", SStr "y")]]) (parsed "eval c=3 | search a=2 OR b=x*")
     [[("a", SInt 2); ("c", SInt 3)]; [("b", SStr "x"); ("c", SInt 3)]] /\
  ev small_spark [("a", SInt 2); ("c", SInt 3)] e = Some (SBool true) /\
  ev small_spark [("b", SStr "x"); ("c", SInt 3)] e = Some SNull.
Proof. eexists. split; [ vm_compute; reflexivity | ]. split; [ reflexivity | ]. split; [ right; split; vm_compute; reflexivity | ]. split; vm_compute; reflexivity. Qed.
Example C27_search_ex : exists e,
  parsed "search error (code>=500 OR NOT user=root)" = [CSearch e] /\ negated_fields e = ["user"] /\
  search_holds small_spark [("_raw", SStr "An ERROR here"); ("user", SStr "alice")] e = Some true.
Proof. eexists. split; [ vm_compute; reflexivity | ]. split; vm_compute; reflexivity. Qed.

(** C28: a search that names one index n in a condition joined with AND reads the table n,
    and of its rows keeps exactly those that, as events of the index n, satisfy the whole
    original condition.  Partial: two indexes, for which it is false (below), and
    constraints on index other than index=n are missing. *)
Theorem C28_one_index_partial : forall env sp db, env_rt env = Disallow -> walks_sets env ->
  forall e n rest rows test, take_index e = Some (n, rest) -> plain_name_text n = true ->
  match rest with Some x => plain_search x = true /\ ~ In "index" (search_fields x) | None => True end ->
  (forall r, In r rows -> match rest with Some x => forall f, In f (negated_fields x) -> cell f r <> SNull | None => True end) ->
  sp_cmp sp "==" (SStr n) (SStr n) = true -> db n = Some rows ->
  (forall r, In r rows -> (test r = true <-> search_holds sp (event n r) e = Some true)) ->
  gives env sp db [CSearch e] (OFrame None (filter test rows)).
Proof. exact index_gives. Qed.
Print Assumptions C28_one_index_partial.
(** An index constraint below an operator other than AND is refused, at any position. *)
Theorem C28_index_below_or_is_refused : forall env p e q, env_rt env = Disallow -> index_below_or e = true ->
  forall out, render_pyspark env (p ++ CSearch e :: q) <> Ok out.
Proof. exact index_refused. Qed.
Print Assumptions C28_index_below_or_is_refused.
(** False for two indexes: no event is in two indexes, the program returns all of both. *)
Definition two_tables : string -> option Table := fun n =>
  if String.eqb n "a" then Some [[("x", SInt 1)]] else if String.eqb n "b" then Some [[("x", SInt 2)]] else None.
Theorem C28_two_indexes_refuted : exists e rows, parse "search index=a index=b" = Some (Ok [CSearch e]) /\
  (forall n r, In r rows -> n = "a" \/ n = "b" -> search_holds small_spark (event n r) e = Some false) /\
  text_gives (env0 Disallow) small_spark two_tables "search index=a index=b" (OFrame None rows) /\ rows <> [].
Proof.
  eexists. exists [[("x", SInt 1)]; [("x", SInt 2)]]. split; [ vm_compute; reflexivity | ]. split; [ | split; [ by_running | discriminate ] ].
  intros n r Hr Hn. destruct Hr as [<-|[<-|[]]]; destruct Hn as [-> | ->]; vm_compute; reflexivity.
Qed.
Print Assumptions C28_two_indexes_refuted.
(** False in the middle of a pipeline: the rows so far are dropped and the index read. *)
Theorem C28_index_later_refuted : exists db,
  text_gives (env0 Disallow) small_spark db "where x=2" (OFrame None []) /\
  text_gives (env0 Disallow) small_spark db "where x=2 | search index=a" (OFrame None [[("x", SInt 1)]]).
Proof.
  exists (fun n => if String.eqb n "a" then Some [[("x", SInt 1)]] else if String.eqb n "main" then Some [[("x", SInt 3)]] else None). split; by_running.
Qed.
Print Assumptions C28_index_later_refuted.
Example C28_ex : exists e rest,
  parsed "search index=web (status>399 OR NOT method=GET*) user=root" = [CSearch e] /\ take_index e = Some ("web", Some rest) /\
  search_fields rest = ["status"; "method"; "user"] /\
  search_holds small_spark (event "web" [("status", SInt 404); ("method", SStr "POST"); ("user", SStr "root")]) e = Some true.
Proof. eexists. eexists. split; [ vm_compute; reflexivity | ]. split; [ vm_compute; reflexivity | ]. split; vm_compute; reflexivity. Qed.
Example C28_refused_ex : exists e, parsed "search x=1 (index=a OR y=2)" = [CSearch e] /\ index_below_or e = true.
Proof. eexists. split; vm_compute; reflexivity. Qed.

(** C31: after any covered pipeline, f IN (v1, ..., vn) keeps exactly the rows whose f is
    not null and equals, or for a wildcard matches, one of the values.  Partial: the list is
    not empty, and only literals and words are listed. *)
Theorem C31_in_is_membership_partial : forall env sp db, env_rt env = Disallow -> walks_sets env ->
  forall p rows f l test, covered sp db p rows -> plain_name_text f = true -> l <> [] -> forallb plain_in_value l = true ->
  (forall r, In r rows -> (test r = true <-> cell f r <> SNull /\ exists v, In v l /\ in_item sp (cell f r) v = true)) ->
  gives env sp db (p ++ [CWhere (EFieldIn f l)]) (OFrame None (filter test rows)).
Proof. exact in_gives. Qed.
Print Assumptions C31_in_is_membership_partial.
(** False for the empty list: the condition is true of every row. *)
Theorem C31_empty_list_refuted : exists f, parse "where x IN ()" = Some (Ok [CWhere (EFieldIn f [])]) /\
  text_gives (env0 Disallow) small_spark (only_main [[("x", SInt 1)]]) "where x IN ()" (OFrame None [[("x", SInt 1)]]).
Proof. eexists. split; [ vm_compute; reflexivity | by_running ]. Qed.
Print Assumptions C31_empty_list_refuted.
Example C31_ex : exists l,
  parsed "where x IN (1, 2, ""b"", c*)" = [CWhere (EFieldIn "x" l)] /\ length l = 4 /\ forallb plain_in_value l = true /\
  in_item small_spark (SStr "cde") (nth 3 l (efield "")) = true.
Proof. eexists. split; [ vm_compute; reflexivity | ]. repeat split; vm_compute; reflexivity. Qed.

(** C32: the LIKE pattern made from a wildcard pattern matches exactly the strings the
    wildcard pattern matches.  Partial: patterns without percent signs, underscores and
    backslashes, which mean something else in LIKE (below). *)
Theorem C32_wildcards_partial : forall p s, plain_pattern p = true ->
  (like (wildcard_to_like p) s = true <-> Matches p s).
Proof. exact pattern_matches. Qed.
Print Assumptions C32_wildcards_partial.
(** In a pipeline: x=pattern keeps exactly the rows whose text matches *)
Theorem C32_wildcard_rows_partial : forall env sp db, env_rt env = Disallow -> walks_sets env ->
  forall p rows f pat test, covered sp db p rows -> plain_name_text f = true -> plain_pattern pat = true ->
  (forall r, In r rows -> (test r = true <-> cell f r <> SNull /\ Matches pat (val_text (cell f r)))) ->
  gives env sp db (p ++ [CWhere (EBinary (efield f) "=" (ewild pat))]) (OFrame None (filter test rows)).
Proof. exact wildcard_gives. Qed.
Print Assumptions C32_wildcard_rows_partial.
Theorem C32_special_characters_refuted : exists p s, ~ Matches p s /\ like (wildcard_to_like p) s = true /\
  text_gives (env0 Disallow) small_spark (only_main [[("x", SStr s)]]) ("search x=" ++ p) (OFrame None [[("x", SStr s)]]).
Proof.
  exists "a_c*", "abcd". split; [ | split; [ vm_compute; reflexivity | by_running ] ].
  intro H. apply wild_matches in H. vm_compute in H. discriminate H.
Qed.
Print Assumptions C32_special_characters_refuted.
Example C32_ex : plain_pattern "a*b**c" = true /\ wildcard_to_like "a*b**c" = "a%b%%c" /\ Matches "a*b**c" "a--b---c".
Proof. split; [ reflexivity | ]. split; [ reflexivity | ]. apply wild_matches. reflexivity. Qed.
