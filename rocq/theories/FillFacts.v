(** Facts: fillnull with the library. *)
From Coq Require Import Lia.
From Verif Require Import Str SplAst PyAst Functions Transpile Render Commands PipeFacts SpecPy SpecCol SpecFrame
  FrameFacts ProgramFacts SpecSpark SpecRows SpecCommands RowFacts ValueFacts SearchFacts CommandFacts SpecCall CallFacts RunFacts CmdParser Api SpecResult SpecEffect ResultFacts EffectFacts SpecRuntime SpecFill.
From Verif Require Runtime.
From Verif Require Import RuntimeFacts RuntimeSteps RuntimeCalls RuntimeRuns.
Open Scope list_scope.
Open Scope string_scope.

Section Fill.
  Variable sp : Spark.
  Variable db : string -> option Table.
  Variable types : Table -> string -> option string.
  Notation lib_at := (lib_at sp db types).
  Notation reaches := (reaches sp db types).

  Definition ended (env : Env) (p : list Command) (s : tstate) (out : Table) (ok : DataFrame -> Prop) : Prop :=
    forall st, exists st' d, run_commands (transform_command env) p s st = (st', Ok (Some d)) /\ lib_at d out /\ ok d.
  Lemma frames_ended : forall env p s rows out, env_rt env = Allow -> p <> [] -> forallb frame_command p = true -> lib_at (d_or_default s) rows -> inline (d_or_default s) = true ->
    steps (step sp db) p rows = Some out -> ended env p s out (fun d => inline d = true).
  Proof.
    intros env p. induction p as [|c p IH]; intros s rows out R N F D I E; [ now elim N | ].
    cbn [forallb steps] in *. apply andb_true_iff in F. destruct F as [Fc F]. rewrite frame_step in E by exact Fc.
    destruct (step1 sp c rows) as [r1|] eqn:E1; [ | discriminate E ]. intro st.
    destruct (frame_at sp db types env c s rows r1 R Fc D E1 st) as (st1 & d1 & X & D1 & I1). rewrite I in I1.
    cbn [run_commands]. unfold bind. rewrite X. destruct p as [|c2 p].
    - injection E as <-. exists st1, d1. now split.
    - now apply (IH (Some d1) r1).
  Qed.
  Lemma calls_ended : forall env p d rows out, env_rt env = Allow -> forallb call_command p = true -> lib_at d rows -> operand d = true ->
    steps (step sp db) p rows = Some out -> ended env p (Some d) out (fun d => operand d = true).
  Proof.
    intros env p. induction p as [|c p IH]; intros d rows out R F D O E.
    - injection E as <-. intro st. exists st, d. now split.
    - cbn [forallb steps] in *. apply andb_true_iff in F. destruct F as [Fc F]. rewrite call_step in E by exact Fc.
      destruct (step1 sp c rows) as [r1|] eqn:E1; [ | discriminate E ]. intro st.
      destruct (call_reaches sp db types env c d rows r1 R Fc D O E1 st) as (st1 & d1 & X & D1 & O1).
      cbn [run_commands]. unfold bind. rewrite X. now apply (IH d1 r1).
  Qed.
  Lemma steps_app : forall (f : Command -> Table -> option Table) a b rows out, steps f (a ++ b) rows = Some out ->
    exists mid, steps f a rows = Some mid /\ steps f b mid = Some out.
  Proof.
    intros f. induction a as [|c a IH]; intros b rows out E; cbn [app steps] in *; [ eauto | ]. destruct (f c rows) as [r1|]; [ | discriminate E ]. now apply IH.
  Qed.
  Lemma run_then : forall env a b s st st1 d, run_commands (transform_command env) a s st = (st1, Ok (Some d)) ->
    run_commands (transform_command env) (a ++ b) s st = run_commands (transform_command env) b (Some d) st1.
  Proof.
    intros env. induction a as [|c a IH]; intros b s st st1 d E; cbn [app run_commands] in *; [ injection E as -> ->; reflexivity | ].
    unfold bind in *. destruct (transform_command env c s st) as [st2 [x| |]]; try discriminate E. now apply IH.
  Qed.
  Lemma ready_ended : forall env p out, env_rt env = Allow -> ready p -> run sp db p = Some out -> ended env p None out (fun d => operand d = true).
  Proof.
    intros env p out R (a & b & -> & B & A) E st.
    assert (X : exists st1 d mid, run_commands (transform_command env) a None st = (st1, Ok (Some d)) /\ lib_at d mid /\ operand d = true /\ steps (step sp db) b mid = Some out).
    { destruct A as [[N F]|(c & -> & F)].
      - destruct a as [|c a]; [ now elim N | ]. unfold run, run_pipe in E. cbn [app] in E.
        destruct (first_rows sp db (step sp db) c) as [r1|] eqn:E1; [ | discriminate E ].
        pose proof F as F0. cbn [forallb] in F. apply andb_true_iff in F. destruct F as [Fc F].
        assert (M : exists r0, db "main" = Some r0 /\ step1 sp c r0 = Some r1).
        { unfold first_rows in E1. destruct c; try (unfold frame_command in Fc; rewrite andb_false_r in Fc; discriminate Fc); cbn [same_as] in E1;
            (destruct (db "main") as [r0|] eqn:Em; [ | discriminate E1 ]); exists r0; (split; [ reflexivity | exact E1 ]). }
        destruct M as (r0 & Em & Es). pose proof (source_at sp db types "main" r0 eq_refl Em) as S0.
        destruct (steps_app _ a b r1 out E) as (mid & Ea & Eb).
        assert (Ec : steps (step sp db) (c :: a) r0 = Some mid) by (cbn [steps]; rewrite frame_step, Es by exact Fc; exact Ea).
        destruct (frames_ended env (c :: a) None r0 mid R N F0 S0 eq_refl Ec st) as (st1 & d & Xd & D & I).
        exists st1, d, mid. repeat split; auto. now apply inline_operand.
      - unfold run, run_pipe in E. cbn [app] in E. destruct (first_rows sp db (step sp db) c) as [r1|] eqn:E1; [ | discriminate E ].
        destruct (first_reaches sp db types env c r1 R F E1 st) as (st1 & d & X & D & O). exists st1, d, r1.
        cbn [run_commands]. unfold bind. rewrite X. repeat split; auto. }
    destruct X as (st1 & d & mid & X & D & O & Eb). rewrite (run_then _ _ _ _ _ _ _ X). now apply (calls_ended env b d mid).
  Qed.

  (** ** Filling *)
  Lemma fill_list : forall ty v fs (tf : string -> string) rows, (forall f, In f fs -> ty f = Some (tf f)) ->
    exists out, Runtime.fill_fields sp ty v fs rows = Some out /\
      Forall2 (fun r r' => forall f, (In f fs -> cell f r = SNull -> cell f r' = sp_method sp "cast" (SStr v) [ALit (SStr (tf f))])
        /\ (~ In f fs \/ cell f r <> SNull -> cell f r' = cell f r)) rows out.
  Proof.
    intros ty v fs tf. induction fs as [|g fs IH]; intros rows T.
    - exists rows. split; [ reflexivity | ]. induction rows as [|r rows IH]; constructor; [ | exact IH ]. intro f. split; [ intros [] | reflexivity ].
    - cbn [Runtime.fill_fields]. rewrite (T g) by (now left).
      destruct (IH (map (Runtime.fill_field sp v (tf g) g) rows)) as (out & E & F); [ intros f I; apply T; now right | ].
      exists out. split; [ exact E | ]. clear E IH. revert out F. induction rows as [|r rows IHr]; intros out F; cbn [map] in F; inversion F as [|x r' l out' Hr Hl]; subst; constructor; [ | now apply IHr ].
      intro f. destruct (Hr f) as [H1 H2]. unfold Runtime.fill_field in H1, H2.
      destruct (string_dec f g) as [->|Ne].
      + rewrite set_cell_same in H1, H2. destruct (cell g r) as [| | | |] eqn:C; cbn [is_null] in *; split; try (intros _ Z; discriminate Z); try (intros _; apply H2; right; discriminate).
        * intros _ _. set (k := sp_method sp "cast" (SStr v) [ALit (SStr (tf g))]) in *.
          destruct (in_dec string_dec g fs) as [J|J]; [ | apply H2; now left ]. destruct k; try (apply H2; right; discriminate). now apply H1.
        * intros [Z|Z]; [ elim Z; now left | now elim Z ].
      + rewrite set_cell_other in H1, H2 by exact Ne. split.
        * intros [Z|Z]; [ now elim Ne | now apply H1 ].
        * intros [Z|Z]; apply H2; [ left; intro Y; apply Z; now right | now right ].
  Qed.
  Lemma names_in : forall rows f, In f (Runtime.column_names rows) <-> exists r, In r rows /\ In f (map fst r).
  Proof.
    intros rows f. unfold Runtime.column_names. rewrite nodup_In, in_concat. split.
    - intros (l & I & J). apply in_map_iff in I. destruct I as (r & <- & I). eauto.
    - intros (r & I & J). exists (map fst r). split; [ apply in_map_iff; eauto | exact J ].
  Qed.
  Lemma fill_rows : forall v fields (tf : string -> string) rows, (forall f, to_fill fields rows f -> types rows f = Some (tf f)) ->
    exists out, Runtime.fill_null sp types v fields rows = Some out /\ Forall2 (Filled sp tf v fields rows) rows out.
  Proof.
    intros v fields tf rows T. unfold Runtime.fill_null.
    set (fs := match fields with Some l => l | None => Runtime.column_names rows end).
    assert (S : forall f, In f fs <-> to_fill fields rows f) by (intro f; unfold fs, to_fill; destruct fields; [ tauto | apply names_in ]).
    destruct (fill_list (types rows) v fs tf rows) as (out & E & F); [ intros f I; apply T; now apply S | ].
    exists out. split; [ exact E | ].
    assert (W : forall (A B : Row -> Row -> Prop) l m, (forall r r', A r r' -> B r r') -> Forall2 A l m -> Forall2 B l m)
      by (intros A B l m AB G; induction G; constructor; auto).
    refine (W _ _ _ _ _ F). intros r r' H f. destruct (H f) as [H1 H2]. split.
    - intros I. apply H1. now apply S.
    - intros [I|I]; apply H2; [ left; intro J; apply I; now apply S | now right ].
  Qed.
  Lemma fill_call : forall env v fields d rows (tf : string -> string), env_rt env = Allow -> plain_between dquote v = true ->
    match fields with Some l => forallb (plain_between dquote) l = true | None => True end ->
    lib_at d rows -> operand d = true -> (forall f, to_fill fields rows f -> types rows f = Some (tf f)) ->
    exists out, reaches env (CFillNull v fields) (Some d) out /\ Forall2 (Filled sp tf v fields rows) rows out.
  Proof.
    intros env v fields d rows tf R P Pf D O T. destruct (fill_rows v fields tf rows T) as (out & E & F). exists out. split; [ | exact F ].
    set (kw := [("value", RExpr (pylit_str v)); ("fields", match fields with Some l => RList (map (fun f => RExpr (pylit_str f)) l) | None => RExpr pylit_none end)]).
    intro st. exists (mkSt (S (st_df st)) (st_hash st)), (DRuntime ("df_" ++ dec_nat (st_df st)) (Some d) "fill_null" [] kw).
    split; [ | split; [ | reflexivity ] ].
    - cbn [transform_command]. rewrite R. reflexivity.
    - apply (call_at sp db types d rows); [ exact D | | ].
      + apply plain_call; [ reflexivity | | reflexivity | | reflexivity ]; [ rewrite O; exact (at_plain sp db types d rows D) | ].
        unfold kw, pylit_str, pylit_none. cbn [forallb fst snd plain_rt plain_pexpr]. rewrite (quoted_plain v P).
        destruct fields as [l|]; [ | reflexivity ]. change (py_ident "value" && true && (py_ident "fields" && plain_rt (RList (map (fun f => RExpr (PyLit (dq ++ f ++ dq))) l)) && true) = true).
        change (py_ident "value") with true. change (py_ident "fields") with true. cbn [andb]. rewrite andb_true_r. cbn [plain_rt].
        clear -Pf. induction l as [|f l IH]; [ reflexivity | ]. cbn [map forallb plain_rt plain_pexpr] in *. apply andb_true_iff in Pf. destruct Pf as [P1 P2].
        rewrite (quoted_plain f P1). cbn [andb]. now apply IH.
      + change (Runtime.library sp db types "fill_null" (Some (OFrame None rows)) (call_args []) (call_kw kw)) with
          (Runtime.run_fill_null sp types (Some (OFrame None rows)) [] (call_kw kw)).
        unfold Runtime.run_fill_null, kw, call_kw, Runtime.others, Runtime.keyword, pylit_str. cbn [map fst snd rt_prog pexpr_tree].
        rewrite (quoted_between v P). destruct fields as [l|].
        * assert (K : str_items (map (fun r => snd (rt_prog r)) (map (fun f => RExpr (PyLit (dq ++ f ++ dq))) l)) = Some l).
          { clear -Pf. unfold str_items. induction l as [|f l IH]; [ reflexivity | ]. cbn [map forallb all_some rt_prog snd pexpr_tree] in *. apply andb_true_iff in Pf. destruct Pf as [P1 P2].
            rewrite (quoted_between f P1), (IH P2). reflexivity. }
          cbn -[str_items rt_prog Runtime.fill_null]. cbn [rt_prog snd Runtime.str_list]. match type of K with ?a = _ => match goal with |- context [str_items ?x] => change (str_items x) with a end end. rewrite K. cbn [option_map]. now rewrite E.
        * transitivity (option_map (OFrame None) (Runtime.fill_null sp types v None rows)); [ reflexivity | now rewrite E ].
  Qed.
End Fill.
Lemma lib_fill_gives : forall env sp db types p rows v fields (tf : string -> string), env_rt env = Allow -> ready p -> covered sp db p rows ->
  plain_between dquote v = true -> match fields with Some l => forallb (plain_between dquote) l = true | None => True end ->
  (forall f, to_fill fields rows f -> types rows f = Some (tf f)) ->
  exists out, lib_gives env sp db types (p ++ [CFillNull v fields]) (OFrame None out) /\ Forall2 (Filled sp tf v fields rows) rows out.
Proof.
  intros env sp db types p rows v fields tf R Y C P Pf T. destruct C as [[-> _]|[_ E]].
  { exfalso. destruct Y as (a & b & Ep & _ & A). symmetry in Ep. apply app_eq_nil in Ep. destruct Ep as [-> _]. destruct A as [[N _]|(c & Z & _)]; [ now elim N | discriminate Z ]. }
  destruct (ready_ended sp db types env p rows R Y E transform_state0) as (st1 & d & X & D & O).
  destruct (fill_call sp db types env v fields d rows tf R P Pf D O T) as (out & H & F). exists out. split; [ | exact F ].
  destruct (H st1) as (st2 & d' & X' & D' & _). unfold lib_gives, render_pyspark, transform_pipeline. rewrite (run_then _ _ _ _ _ _ _ X).
  cbn [run_commands]. unfold bind. rewrite X'. unfold ret. cbn [snd rbind dataframes]. eexists. split; [ reflexivity | ]. intro o. now apply (at_runs sp db types).
Qed.
