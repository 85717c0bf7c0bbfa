(** Facts: pipelines with and without calls of the runtime library give the same rows. *)
From Coq Require Import Lia.
From Verif Require Import Str SplAst PyAst Functions Transpile Render Commands PipeFacts SpecPy SpecCol SpecFrame
  FrameFacts ProgramFacts SpecSpark SpecRows SpecCommands RowFacts ValueFacts SearchFacts CommandFacts SpecCall CallFacts RunFacts CmdParser Api SpecResult SpecEffect ResultFacts EffectFacts SpecRuntime.
From Verif Require Runtime.
Import Runtime (lib, runs, lib_expr).
From Verif Require Import RuntimeFacts RuntimeSteps RuntimeCalls.
Open Scope list_scope.
Open Scope string_scope.

Section Runs.
  Variable sp : Spark.
  Variable db : string -> option Table.
  Variable column_type : Table -> string -> option string.
  Notation lib_at := (lib_at sp db column_type).
  Notation reaches := (reaches sp db column_type).

  (** ** Commands without a call *)
  Lemma where_at : forall d rows e c out, lib_at d rows -> lsem true c (ev_of e) -> rows_where (fun r => ev sp r e) rows = Some out ->
    lib_at (DWhere d (PCol c)) out.
  Proof.
    intros d rows e c out D S E. destruct (lsem_lib _ _ S) as (u & L & _ & _ & V).
    eapply (method_at sp db column_type d _ rows "where" [col_tree c] [u]); [ exact D | | reflexivity | | ].
    - cbn [plain_df plain_pexpr]. now rewrite (at_plain sp db column_type d rows D), (proj1 (proj2 S)).
    - cbn [map all_some]. now rewrite L.
    - intro objs. cbn [frame_method]. cbn [String.eqb Ascii.eqb Bool.eqb]. cbv iota.
      assert (K : keep_where sp u rows = Some out); [ | now rewrite K ].
      apply (keep_ok sp _ _ rows out E). intros r v I Hv. destruct (rows_where_truth _ rows out r E I) as (w & Hw & T). rewrite Hv in Hw. injection Hw as <-.
      exists v. split; [ now apply V | now split ].
  Qed.
  Lemma lib_literal : forall code, lib (code_tree code) = Some (code_tree code). Proof. exact lib_code. Qed.
  Lemma lib_str : forall s, lib (PStr s) = Some (PStr s). Proof. reflexivity. Qed.
  Lemma rename_at : forall l d rows out, plain1 (CRename l) = true -> lib_at d rows -> all_some (map (renamed l) rows) = Some out ->
    exists d', t_rename_go l d = Ok d' /\ lib_at d' out /\ inline d' = inline d.
  Proof.
    induction l as [|[e n] l IH]; intros d rows out P D E.
    - exists d. split; [ reflexivity | ]. change (renamed []) with (fun r : Row => Some r) in E.
      rewrite (all_some_total (fun r => r)), map_id in E. now injection E as <-.
    - cbn [plain1 forallb fst snd] in P. apply andb_true_iff in P. destruct P as [P Pl]. apply andb_true_iff in P. destruct P as [Pf Pn].
      destruct e as [[[]|?|?|?]|?|?|?|?|?|?|?|?|?]; try discriminate Pf. cbn [is_field] in Pf. cbn [t_rename_go].
      destruct (IH (DWithColumnRenamed d s n) (map (rename_cell s n) rows) out Pl) as (d' & Ed & A & I).
      + eapply (method_at sp db column_type d _ rows "withColumnRenamed" [PStr s; PStr n] [PStr s; PStr n]); [ exact D | | reflexivity | reflexivity | reflexivity ].
        cbn [plain_df]. now rewrite (at_plain sp db column_type d rows D), Pf, Pn.
      + rewrite map_map. exact E.
      + exists d'. auto.
  Qed.
  Lemma named_lib : forall l, all_some (map lib (map col_tree (map CNamed l))) = Some (map col_tree (map CNamed l)).
  Proof. induction l as [|n l IH]; [ reflexivity | ]. cbn [map all_some]. rewrite IH. reflexivity. Qed.
  Lemma select_at : forall d rows l, lib_at d rows -> nonempty_list l = true -> forallb plain_name_text l = true ->
    lib_at (DSelect d (map CNamed l)) (map (keep_cells l) rows).
  Proof.
    intros d rows l D N P. eapply (method_at sp db column_type d _ rows "select" (map col_tree (map CNamed l)) (map col_tree (map CNamed l))); [ exact D | | reflexivity | apply named_lib | ].
    - cbn [plain_df]. rewrite (at_plain sp db column_type d rows D). destruct l as [|x l]; [ discriminate N | ]. cbn [nonempty map andb].
      change (CNamed x :: map CNamed l) with (map CNamed (x :: l)). clear - P. induction (x :: l) as [|y k IH]; [ reflexivity | ]. cbn [map forallb plain_col] in *.
      apply andb_true_iff in P. destruct P as [-> P]. now apply IH.
    - intro objs. destruct l as [|x l]; [ discriminate N | ]. cbn [map frame_method]. cbn [String.eqb Ascii.eqb Bool.eqb]. cbv iota.
      change (col_tree (CNamed x) :: map col_tree (map CNamed l)) with (map col_tree (map CNamed (x :: l))).
      unfold map_rows. replace (all_some (map (select_row sp (map col_tree (map CNamed (x :: l)))) rows)) with (Some (map (keep_cells (x :: l)) rows)); [ reflexivity | ].
      rewrite <- (all_some_total (keep_cells (x :: l))). f_equal. apply map_ext. intro r. unfold select_row, keep_cells. rewrite !map_map.
      symmetry. rewrite <- (all_some_total (fun n => (n, cell n r))). reflexivity.
  Qed.
  Lemma limit_at : forall d rows z, lib_at d rows -> (0 <= z)%Z -> lib_at (DLimit d z) (firstn (Z.to_nat z) rows).
  Proof.
    intros d rows z D Z0. eapply (method_at sp db column_type d _ rows "limit" [py_int z] [py_int z]); [ exact D | exact (at_plain sp db column_type d rows D) | reflexivity | | ].
    - unfold py_int. cbn [map all_some]. now rewrite lib_code.
    - intro objs. cbn [frame_method]. cbn [String.eqb Ascii.eqb Bool.eqb]. cbv iota. unfold int_arg_of, py_int. rewrite lit_dec.
      apply Z.ltb_ge in Z0. now rewrite Z0.
  Qed.
  Lemma sort_lib : forall l desc cols, forallb plain_sort_key l = true -> rtraverse (sort_key desc) l = Ok cols ->
    all_some (map lib (map col_tree cols)) = Some (map col_tree cols).
  Proof.
    induction l as [|[sg e] l IH]; intros desc cols P E.
    - injection E as <-. reflexivity.
    - cbn [forallb] in P. apply andb_true_iff in P. destruct P as [Pk P]. unfold plain_sort_key in Pk. cbn [fst snd] in Pk. apply andb_true_iff in Pk. destruct Pk as [Pf _].
      rewrite rtraverse_cons in E. destruct e as [[[]|?|?|?]|?|?|?|?|?|?|?|?|?]; try discriminate Pf. unfold sort_key at 1 in E. cbn [fst snd] in E.
      destruct (sort_direction sg desc) as [d| | ]; try discriminate E. cbn [rbind] in E. destruct (rtraverse (sort_key desc) l) as [cs| | ] eqn:El; try discriminate E.
      injection E as <-. cbn [map all_some]. rewrite (IH desc cs P El). destruct d; reflexivity.
  Qed.
  Lemma sort_at : forall l count desc s rows out, plain1 (CSort l count desc) = true ->
    lib_at (d_or_default s) rows -> sorted_rows sp l count desc rows = Some out ->
    exists d, t_sort l count desc s = Ok d /\ lib_at d out /\ inline d = inline (d_or_default s).
  Proof.
    intros l count desc s rows out P D E. cbn [plain1] in P. unfold int64 in P.
    apply andb_true_iff in P. destruct P as [P P0]. apply andb_true_iff in P. destruct P as [P Pi].
    apply andb_true_iff in P. destruct P as [Pn Pk]. apply andb_true_iff in Pi. destruct Pi as [Pi1 Pi2].
    apply Z.leb_le in P0. apply Z.ltb_lt in Pi2. unfold sorted_rows in E.
    destruct (sort_keys l desc) as [keys|] eqn:Ek; [ | discriminate E ]. destruct keys as [|k keys]; [ discriminate E | ].
    destruct (sort_keys_ok l desc _ Pk Ek) as (cols & E1 & E2 & E3 & E4).
    assert (O : lib_at (DOrderBy (d_or_default s) cols) (sp_sort sp (row_le (sp_le sp) (k :: keys)) rows)).
    { eapply (method_at sp db column_type (d_or_default s) _ rows "orderBy" (map col_tree cols) (map col_tree cols)); [ exact D | | reflexivity | exact (sort_lib l desc cols Pk E1) | ].
      - cbn [plain_df]. rewrite (at_plain sp db column_type _ rows D), E3. destruct cols; [ discriminate E2 | reflexivity ].
      - intro objs. cbn [frame_method]. cbn [String.eqb Ascii.eqb Bool.eqb]. cbv iota. now rewrite E2. }
    unfold t_sort. rewrite E1. cbn [rbind]. destruct (count =? 0)%Z eqn:C0.
    - injection E as <-. eexists. split; [ reflexivity | split; [ exact O | reflexivity ] ].
    - assert (Z0 : (count <? 0)%Z = false) by (apply Z.ltb_ge; lia). rewrite Z0 in E. injection E as <-.
      eexists. split; [ reflexivity | ]. rewrite u64_small by lia. split; [ now apply limit_at | reflexivity ].
  Qed.
  Lemma frame_at : forall env c s rows out, env_rt env = Allow -> frame_command c = true -> lib_at (d_or_default s) rows -> step1 sp c rows = Some out ->
    forall st, exists st' d, transform_command env c s st = (st', Ok (Some d)) /\ lib_at d out /\ inline d = inline (d_or_default s).
  Proof.
    intros env c s rows out R P D E st. unfold frame_command in P. apply andb_true_iff in P. destruct P as [P L].
    assert (Only : forall r, (exists d, r = Ok d /\ lib_at d out /\ inline d = inline (d_or_default s)) ->
      transform_command env c s st = bind (select_rt (env_rt env) unimplemented (lift r)) (fun d => ret (Some d)) st ->
      exists st' d, transform_command env c s st = (st', Ok (Some d)) /\ lib_at d out /\ inline d = inline (d_or_default s)).
    { intros r (d & -> & F) H. exists st, d. split; [ | exact F ]. rewrite H, R. reflexivity. }
    destruct c as [c|f b|c|tf l|c|? ? ? ? ? ? ? ?|fields|? ? ?|remove fields|value fields|c|eval_expr keep_last null_option|? ?|? ?|? ? ?|c|? ?|?|? ?|? ?|c|? ?|l|? ?|c|e|c|l count descending|p funcs by_|? ? ? ?|fields|?|c|? ? ? ? ? ? ?|e]; try discriminate L; cbn [step1] in E.
    - destruct remove; [ discriminate L | ]. injection E as <-. cbn [plain1] in P. apply andb_true_iff in P. destruct P as [P1 P2].
      apply (Only (t_select fields s)); [ | reflexivity ]. eexists. split; [ reflexivity | split; [ now apply select_at | reflexivity ] ].
    - destruct (head_limit_ok eval_expr keep_last rows out P E) as (z & Ez & Rz & ->).
      apply (Only (t_head eval_expr keep_last s)); [ | reflexivity ]. unfold t_head. rewrite Ez. eexists. split; [ reflexivity | ].
      rewrite u64_small by lia. split; [ apply limit_at; [ exact D | lia ] | reflexivity ].
    - apply (Only (t_rename_go l (d_or_default s))); [ | reflexivity ]. now apply (rename_at l _ rows).
    - apply (Only (t_sort l count descending s)); [ | reflexivity ]. now apply (sort_at l count descending s rows).
    - injection E as <-. cbn [plain1] in P. apply andb_true_iff in P. destruct P as [P1 P2].
      apply (Only (t_select fields s)); [ | reflexivity ]. eexists. split; [ reflexivity | split; [ now apply select_at | reflexivity ] ].
    - cbn [plain1] in P. apply (Only (t_where Allow e s)); [ | cbn [transform_command]; now rewrite R ].
      destruct (lib_expr_ok e P true L) as (c & Ec & Sc). unfold t_where. rewrite Ec. cbn [rbind]. eexists. split; [ reflexivity | ].
      unfold d_where. rewrite (flat_pe c (proj1 Sc)). split; [ now apply (where_at _ rows e) | reflexivity ].
  Qed.
  Lemma call_reaches : forall env c d rows out, env_rt env = Allow -> call_command c = true -> lib_at d rows -> operand d = true ->
    step1 sp c rows = Some out -> reaches env c (Some d) out.
  Proof.
    intros env c d rows out R C D O E. destruct c; try (unfold call_command in C; rewrite andb_false_r in C; discriminate C); cbn [step1] in E.
    - now apply (eval_calls sp db column_type env fields d rows).
    - unfold call_command in C. apply andb_true_iff in C. destruct C as [P C]. now apply (search_call sp db column_type env e d rows).
    - now apply (stats_calls sp db column_type env o funcs by_ d rows).
  Qed.

  (** ** Whole pipelines *)
  Definition ends (env : Env) (p : list Command) (s : tstate) (out : Table) : Prop :=
    forall st, exists st' d, run_commands (transform_command env) p s st = (st', Ok (Some d)) /\ lib_at d out.
  Lemma inline_operand : forall d, inline d = true -> operand d = true.
  Proof. intros d I. destruct d; try reflexivity; exact I. Qed.
  Lemma ends_nil : forall env d rows, lib_at d rows -> ends env [] (Some d) rows.
  Proof. intros env d rows D st. exists st, d. now split. Qed.
  Lemma ends_cons : forall env c p s out, (forall st, exists st' d, transform_command env c s st = (st', Ok (Some d)) /\ ends env p (Some d) out) ->
    ends env (c :: p) s out.
  Proof.
    intros env c p s out H st. destruct (H st) as (st1 & d1 & E1 & H1). destruct (H1 st1) as (st2 & d2 & E2 & H2). exists st2, d2.
    split; [ | exact H2 ]. cbn [run_commands]. unfold bind. now rewrite E1.
  Qed.
  Lemma frame_step : forall c rows, frame_command c = true -> step sp db c rows = step1 sp c rows.
  Proof. intros c rows F. destruct c; try reflexivity; unfold frame_command in F; rewrite andb_false_r in F; discriminate F. Qed.
  Lemma call_step : forall c rows, call_command c = true -> step sp db c rows = step1 sp c rows.
  Proof. intros c rows F. destruct c; try reflexivity; unfold call_command in F; rewrite andb_false_r in F; discriminate F. Qed.
  Lemma frames_end : forall env p d rows out, env_rt env = Allow -> forallb frame_command p = true -> lib_at d rows ->
    steps (step sp db) p rows = Some out -> ends env p (Some d) out.
  Proof.
    intros env p. induction p as [|c p IH]; intros d rows out R F D E; cbn [steps forallb] in *.
    - injection E as <-. now apply ends_nil.
    - apply andb_true_iff in F. destruct F as [Fc F]. rewrite frame_step in E by exact Fc. destruct (step1 sp c rows) as [r1|] eqn:E1; [ | discriminate E ].
      apply ends_cons. intro st. destruct (frame_at env c (Some d) rows r1 R Fc D E1 st) as (st' & d' & X & D' & _). exists st', d'.
      split; [ exact X | now apply (IH d' r1) ].
  Qed.
  Lemma calls_end : forall env p d rows out, env_rt env = Allow -> then_calls p = true -> lib_at d rows -> operand d = true ->
    steps (step sp db) p rows = Some out -> ends env p (Some d) out.
  Proof.
    intros env p. induction p as [|c p IH]; intros d rows out R F D O E.
    - injection E as <-. now apply ends_nil.
    - cbn [then_calls] in F. apply orb_true_iff in F. destruct F as [F|F]; [ now apply (frames_end env (c :: p) d rows) | ].
      apply andb_true_iff in F. destruct F as [Fc F]. cbn [steps] in E. rewrite call_step in E by exact Fc.
      destruct (step1 sp c rows) as [r1|] eqn:E1; [ | discriminate E ].
      apply ends_cons. intro st. destruct (call_reaches env c d rows r1 R Fc D O E1 st) as (st' & d' & X & D' & O'). exists st', d'.
      split; [ exact X | now apply (IH d' r1) ].
  Qed.
  Lemma frames_calls_end : forall env p d rows out, env_rt env = Allow -> frames_calls p = true -> lib_at d rows -> inline d = true ->
    steps (step sp db) p rows = Some out -> ends env p (Some d) out.
  Proof.
    intros env p. induction p as [|c p IH]; intros d rows out R F D I E.
    - injection E as <-. now apply ends_nil.
    - cbn [frames_calls] in F. apply orb_true_iff in F. destruct F as [F|F]; [ apply (calls_end env (c :: p) d rows); auto; now apply inline_operand | ].
      apply andb_true_iff in F. destruct F as [Fc F]. cbn [steps] in E. rewrite frame_step in E by exact Fc.
      destruct (step1 sp c rows) as [r1|] eqn:E1; [ | discriminate E ].
      apply ends_cons. intro st. destruct (frame_at env c (Some d) rows r1 R Fc D E1 st) as (st' & d' & X & D' & I'). exists st', d'.
      split; [ exact X | apply (IH d' r1); auto ]. now rewrite I'.
  Qed.
  Lemma first_reaches : forall env c rows, env_rt env = Allow -> first_call c = true -> first_rows sp db (step sp db) c = Some rows -> reaches env c None rows.
  Proof.
    intros env c rows R F E. destruct c; try discriminate F.
    - cbn [first_call] in F. unfold first_rows in E. cbn [same_as] in E. destruct (take_index e) as [[n c]|] eqn:T; [ | discriminate F ].
      apply andb_true_iff in F. destruct F as [F F3]. apply andb_true_iff in F. destruct F as [F1 F2]. apply negb_true_iff in F1.
      destruct c as [x|]; (destruct (db n) as [r0|] eqn:Edb; [ | discriminate E ]); [ apply (search_starts sp db column_type env e n (Some x) r0) | apply (search_starts sp db column_type env e n None r0) ]; auto.
      cbn [run1 step1] in E. now destruct (search_rows sp x r0).
    - destruct by_prefix as [?|]; [ discriminate F | ]. unfold first_rows in E.
      destruct (same_as (CTStats o exprs datamodel nodename where_condition by_fields None)) as [[t pre]|] eqn:T.
      + destruct (db t) as [r0|] eqn:Edb; [ | discriminate E ]. now apply (tstats_starts sp db column_type env o exprs datamodel nodename where_condition by_fields t pre r0).
      + cbn [first_call] in F. rewrite T in F. discriminate F.
  Qed.
  Lemma lib_pipeline_ends : forall env p out, env_rt env = Allow -> lib_pipeline p = true -> run sp db p = Some out -> ends env p None out.
  Proof.
    intros env p out R F E. destruct p as [|c p]; [ discriminate F | ]. unfold run, run_pipe in E. destruct (first_rows sp db (step sp db) c) as [r1|] eqn:E1; [ | discriminate E ].
    cbn [lib_pipeline] in F. apply ends_cons. intro st. apply orb_true_iff in F. destruct F as [F|F]; apply andb_true_iff in F; destruct F as [Fc F].
    - destruct (first_reaches env c r1 R Fc E1 st) as (st' & d & X & D & O). exists st', d. split; [ exact X | now apply (calls_end env p d r1) ].
    - assert (M : exists r0, db "main" = Some r0 /\ step1 sp c r0 = Some r1).
      { pose proof Fc as Fs. unfold first_rows in E1. destruct c; try (unfold frame_command in Fc; rewrite andb_false_r in Fc; discriminate Fc); cbn [same_as] in E1;
          (destruct (db "main") as [r0|] eqn:Em; [ | discriminate E1 ]); exists r0; (split; [ reflexivity | exact E1 ]). }
      destruct M as (r0 & Em & Es). pose proof (source_at sp db column_type "main" r0 eq_refl Em) as S0.
      destruct (frame_at env c None r0 r1 R Fc S0 Es st) as (st' & d & X & D & I). exists st', d. split; [ exact X | ].
      apply (frames_calls_end env p d r1); auto.
  Qed.
  Lemma lib_pipeline_runs : forall env p out, env_rt env = Allow -> lib_pipeline p = true -> run sp db p = Some out ->
    exists code, render_pyspark env p = Ok code /\ forall o, runs sp db column_type code o <-> o = OFrame None out.
  Proof.
    intros env p out R F E. destruct (lib_pipeline_ends env p out R F E transform_state0) as (st' & d & X & D).
    unfold render_pyspark, transform_pipeline. rewrite X. cbn [snd rbind dataframes]. eexists. split; [ reflexivity | ].
    intro o. now apply at_runs.
  Qed.
End Runs.

(** ** Programs with calls, run on given tables *)
Definition lib_exec (sp : Spark) db column_type (d : DataFrame) : option Obj :=
  match all_some (map (fun xt => Runtime.swap (fst xt, lib (snd xt))) (fst (df_prog d))), lib (snd (df_prog d)) with
  | Some a, Some r => exec sp db (Runtime.library sp db column_type) [] a r
  | _, _ => None
  end.
Lemma runs_iff : forall sp db ct d o, plain_df d = true -> (runs sp db ct (code_to_string (render_df d)) o <-> lib_exec sp db ct d = Some o).
Proof.
  intros sp db ct d o P. unfold runs, lib_exec. split.
  - intros (a & r & a' & r' & PP & A & R & E). apply (read_program_iff d P) in PP.
    assert (Ea : a = fst (df_prog d)) by (now rewrite <- PP). assert (Er : r = snd (df_prog d)) by (now rewrite <- PP). subst a r.
    now rewrite A, R.
  - destruct (all_some _) as [a'|] eqn:A; [ | discriminate ]. destruct (lib (snd (df_prog d))) as [r'|] eqn:R; [ | discriminate ]. intro E.
    exists (fst (df_prog d)), (snd (df_prog d)), a', r'. split; [ apply (read_program_iff d P); now destruct (df_prog d) | auto ].
Qed.
Lemma lib_frame_gives : forall env sp db ct text p d o, parse text = Some (Ok p) -> transform_pipeline env p = Ok (Some d) -> plain_df d = true ->
  lib_exec sp db ct d = Some o -> lib_text_gives env sp db ct text o.
Proof.
  intros env sp db ct text p d o E T P X. exists (code_to_string (render_df d)). split.
  - unfold transpile. rewrite E. cbn [option_map rbind]. unfold render_pyspark. rewrite T. reflexivity.
  - intro x. rewrite (runs_iff sp db ct d x P), X. split; congruence.
Qed.
Lemma lib_frame_fails : forall env sp db ct text p d, parse text = Some (Ok p) -> transform_pipeline env p = Ok (Some d) -> plain_df d = true ->
  lib_exec sp db ct d = None -> lib_text_fails env sp db ct text.
Proof.
  intros env sp db ct text p d E T P X. exists (code_to_string (render_df d)). split.
  - unfold transpile. rewrite E. cbn [option_map rbind]. unfold render_pyspark. rewrite T. reflexivity.
  - intros x. rewrite (runs_iff sp db ct d x P), X. discriminate.
Qed.
Lemma both_give : forall env env' sp db ct p rows, env_rt env = Disallow -> walks_sets env -> env_rt env' = Allow ->
  covered sp db p rows -> lib_pipeline p = true -> gives env sp db p (OFrame None rows) /\ lib_gives env' sp db ct p (OFrame None rows).
Proof.
  intros env env' sp db ct p rows R W R' C L. split.
  - apply covered_gives; auto. intros ->. discriminate L.
  - destruct C as [[-> _]|[_ E]]; [ discriminate L | ]. exact (lib_pipeline_runs sp db ct env' p rows R' L E).
Qed.
(** The last command with the library *)
Lemma lib_command_gives : forall env sp db ct p rows c out, env_rt env = Allow -> covered sp db p rows -> lib_pipeline (p ++ [c]) = true ->
  plain_command false c = true -> step sp db c rows = Some out -> lib_gives env sp db ct (p ++ [c]) (OFrame None out).
Proof.
  intros env sp db ct p rows c out R C L P S. destruct (covered_app sp db p rows c out C P S) as [[E _]|[_ E]]; [ now destruct p | ].
  exact (lib_pipeline_runs sp db ct env (p ++ [c]) out R L E).
Qed.
Lemma lib_eval_gives : forall env sp db ct p rows l out, env_rt env = Allow -> covered sp db p rows -> lib_pipeline (p ++ [CEval l]) = true ->
  Forall (fun ne => plain_name_text (fst ne) = true /\ plain_expr true (snd ne) = true) l ->
  Forall2 (Assigns sp l) rows out -> lib_gives env sp db ct (p ++ [CEval l]) (OFrame None out).
Proof.
  intros env sp db ct p rows l out R C L F H. apply (lib_command_gives env sp db ct p rows); auto.
  - cbn [plain_command plain1]. apply forallb_forall. intros ne Hn. rewrite Forall_forall in F. destruct (F ne Hn) as [-> ->]. reflexivity.
  - cbn [step step1]. apply all_assigned. clear C L. induction H as [|r r' rows out A H IH]; constructor; [ now apply assigns_assign | exact IH ].
Qed.
Lemma lib_stats_gives : forall env sp db ct p rows o funcs by_ out, env_rt env = Allow -> covered sp db p rows ->
  lib_pipeline (p ++ [CStats o funcs by_]) = true -> plain1 (CStats o funcs by_) = true ->
  stats_rows sp funcs by_ rows = Some out -> lib_gives env sp db ct (p ++ [CStats o funcs by_]) (OFrame None out).
Proof. intros env sp db ct p rows o funcs by_ out R C L P E. now apply (lib_command_gives env sp db ct p rows). Qed.
