(** Facts: pipelines that call the runtime library compute what their commands do on rows. *)
From Coq Require Import Lia Decimal DecimalString.
From Verif Require Import Str SplAst PyAst Functions Transpile Render Commands PipeFacts SpecPy SpecCol SpecFrame
  FrameFacts ProgramFacts SpecSpark SpecRows SpecCommands RowFacts ValueFacts SearchFacts CommandFacts SpecCall RunFacts SpecRuntime.
From Verif Require Runtime.
Import Runtime (PV(..), LibExpr(..), lv, lib, arg_tree, trees, obind, swap, value_of, library, runs, lookup_in, py_of,
  lib_function, is_command, lib_expr, named_exprs, others, search_params, search_condition, with_columns,
  by_columns, column_name, stats_functions_of, stats_aggs, table_lookup, keyword).
From Verif Require Import RuntimeFacts.
Open Scope list_scope.
Open Scope string_scope.

(** ** Names of generated variables *)
Lemma uint_word : forall d, sforall py_word (NilEmpty.string_of_uint d) = true.
Proof. induction d; cbn [NilEmpty.string_of_uint sforall]; [ reflexivity | exact IHd.. ]. Qed.
Lemma nat_word : forall n, sforall py_word (dec_nat n) = true.
Proof.
  intro n. unfold dec_nat, dec. destruct (Z.of_nat n) as [|p|p] eqn:E; [ reflexivity | | lia ].
  cbn [Z.to_int NilZero.string_of_int]. unfold NilZero.string_of_uint. destruct (Pos.to_uint p); first [ reflexivity | apply (uint_word) ].
Qed.
Lemma df_ident : forall n, py_ident ("df_" ++ dec_nat n) = true.
Proof.
  intro n. cbn [append py_ident]. change (py_letter "d") with true. cbn [sforall]. change (py_word "f") with true. change (py_word "_") with true.
  rewrite nat_word. reflexivity.
Qed.

(** Anything a method can be called on that is neither a module nor None *)
Definition frame_tree (t : Py) : Prop :=
  match t with
  | PName x => String.eqb x "spark" = false /\ String.eqb x "commands" = false /\ String.eqb x "None" = false
  | PCall _ _ _ => True
  | _ => False
  end.
Lemma frame_callable : forall t, frame_tree t -> callable t.
Proof. intros t H. destruct t; try exact I. destruct H as (A & B & _). now split. Qed.
Lemma lib_method : forall t t' m args args', frame_tree t -> lib t = Some t' -> all_some (map lib args) = Some args' ->
  lib (py_method t m args) = Some (py_method t' m args').
Proof.
  intros t t' m args args' F T A. unfold py_method, lib. cbn [lv].
  assert (L : lib_function (PAttr t m) = None) by (destruct t; try reflexivity; contradiction). rewrite L.
  assert (C : is_command (PAttr t m) = false) by (destruct t; try reflexivity; apply F). rewrite C.
  change (obind (lv t) py_of) with (lib t). rewrite T. cbn [option_map obind py_of].
  change (fun u => obind (lv u) py_of) with lib. rewrite A. reflexivity.
Qed.

Section Library.
  Variable sp : Spark.
  Variable db : string -> option Table.
  Variable column_type : Table -> string -> option string.
  Notation library := (library sp db column_type).
  Notation fv := (fv sp db library).
  Notation exec := (exec sp db library).

  (** The library's calls carried out in the assignments *)
  Definition lib_lines (l : list (string * Py)) : option (list (string * Py)) :=
    all_some (map (fun xt => swap (fst xt, lib (snd xt))) l).
  (** Running the code of the data frame d with the library gives the table *)
  Definition lib_at (d : DataFrame) (rows : Table) : Prop :=
    exists vars pre t, plain_df d = true /\ lib_lines (fst (df_prog d)) = Some pre /\
      (forall rest r, exec [] (pre ++ rest)%list r = exec vars rest r) /\
      lib (snd (df_prog d)) = Some t /\ frame_tree (snd (df_prog d)) /\ frame_tree t /\ fv vars t = Some (OFrame None rows).

  Lemma source_at : forall n rows, plain_name_text n = true -> db n = Some rows -> lib_at (DSource n) rows.
  Proof.
    intros n rows P E. exists [], [], (py_table n). split; [ exact P | ]. split; [ reflexivity | ]. split; [ reflexivity | ].
    split; [ reflexivity | ]. split; [ exact I | split; [ exact I | ] ]. unfold py_table, py_method. cbn [SpecSpark.fv].
    change (String.eqb "spark" "spark") with true. change (String.eqb "table" "table") with true. cbv iota. now rewrite E.
  Qed.
  (** One more method *)
  Lemma method_at : forall d d' rows m args args' out, lib_at d rows -> plain_df d' = true ->
    df_prog d' = (fst (df_prog d), py_method (snd (df_prog d)) m args) -> all_some (map lib args) = Some args' ->
    (forall objs, frame_method sp (OFrame None rows) m args' objs [] = Some (OFrame None out)) -> lib_at d' out.
  Proof.
    intros d d' rows m args args' out (vars & pre & t & P & L & X & T & F & F' & V) P' E A M.
    exists vars, pre, (py_method t m args'). rewrite E. cbn [fst snd]. split; [ exact P' | ]. split; [ exact L | ]. split; [ exact X | ].
    split; [ now apply lib_method | ]. split; [ exact I | split; [ exact I | ] ].
    rewrite (fv_method sp db library vars t m args' (OFrame None rows)); [ apply M | now apply frame_callable | exact V ].
  Qed.
  (** Arguments of a call *)
  Definition call_args (l : list RuntimeExpr) : list Py := map (fun x => snd (rt_prog x)) l.
  Definition call_kw (l : list (string * RuntimeExpr)) : list (string * Py) := map (fun kv => (fst kv, snd (rt_prog (snd kv)))) l.
  Lemma call_df_prog : forall n src f args kw, forallb plain_rt args = true ->
    forallb (fun kv => py_ident (fst kv) && plain_rt (snd kv)) kw = true ->
    let s := match src with Some d => df_prog d | None => ([], PName "None") end in
    df_prog (DRuntime n src f args kw) =
      (fst s ++ [(n, PCall (PAttr (PName "commands") f) (snd s :: call_args args) (call_kw kw))], PName n)%list.
  Proof.
    intros n src f args kw A K s. cbn [df_prog]. destruct (no_prefaces args A) as [_ N1]. destruct (no_prefaces_kw kw K) as [_ N2].
    rewrite N1, N2. reflexivity.
  Qed.
  Lemma plain_call : forall n src f args kw, py_ident f = true ->
    match src with Some s => operand s && plain_df s | None => true end = true -> forallb plain_rt args = true ->
    forallb (fun kv => py_ident (fst kv) && plain_rt (snd kv)) kw = true -> distinct (map fst kw) = true ->
    plain_df (DRuntime ("df_" ++ dec_nat n) src f args kw) = true.
  Proof. intros n src f args kw F S A K D. cbn [plain_df]. now rewrite df_ident, S, F, A, K, D. Qed.
  Lemma name_frame : forall n, frame_tree (PName ("df_" ++ dec_nat n)). Proof. intro n. repeat split. Qed.
  Lemma name_lib : forall x, lib (PName x) = Some (PName x).
  Proof. intro x. unfold lib. cbn [lv]. unfold value_of. destruct (lit_val (PName x)); reflexivity. Qed.
  Lemma lines_app : forall a b, lib_lines (a ++ b) = obind (lib_lines a) (fun a' => option_map (app a') (lib_lines b)).
  Proof.
    unfold lib_lines. induction a as [|x a IH]; intro b; [ cbn; now destruct (all_some _) | ].
    cbn [app map all_some]. destruct (swap _); [ | reflexivity ]. rewrite IH. destruct (all_some (map _ a)); [ | reflexivity ].
    cbn [option_map obind]. now destruct (all_some _).
  Qed.
  Lemma command_lib : forall f t t' args kw, lib t = Some t' ->
    lib (PCall (PAttr (PName "commands") f) (t :: args) kw) = Some (PCall (PAttr (PName "commands") f) (t' :: args) kw).
  Proof.
    intros f t t' args kw H. unfold lib. cbn [lv lib_function]. change (is_command (PAttr (PName "commands") f)) with true. cbv iota.
    change (obind (lv t) py_of) with (lib t). rewrite H. reflexivity.
  Qed.
  Lemma find_here : forall x (o : Obj) vars, find (fun v => String.eqb x (fst v)) ((x, o) :: vars) = Some (x, o).
  Proof. intros x o vars. cbn [find fst]. now rewrite String.eqb_refl. Qed.
  Lemma exec_snoc : forall pre vars x t o, (forall rest r, exec [] (pre ++ rest)%list r = exec vars rest r) ->
    fv vars t = Some o -> forall rest r, exec [] ((pre ++ [(x, t)]) ++ rest)%list r = exec ((x, o) :: vars) rest r.
  Proof. intros pre vars x t o H V rest r. rewrite <- app_assoc. rewrite H. cbn [app SpecSpark.exec]. now rewrite V. Qed.
  (** One more call *)
  Lemma call_at : forall d rows n f args kw out, lib_at d rows -> plain_df (DRuntime ("df_" ++ dec_nat n) (Some d) f args kw) = true ->
    library f (Some (OFrame None rows)) (call_args args) (call_kw kw) = Some (OFrame None out) ->
    lib_at (DRuntime ("df_" ++ dec_nat n) (Some d) f args kw) out.
  Proof.
    intros d rows n f args kw out (vars & pre & t & P & L & X & T & F & F' & V) P' M. set (x := "df_" ++ dec_nat n) in *.
    assert (Q : forallb plain_rt args = true /\ forallb (fun kv => py_ident (fst kv) && plain_rt (snd kv)) kw = true).
    { cbn [plain_df] in P'. repeat (apply andb_true_iff in P'; destruct P' as [P' ?]). auto. }
    destruct Q as [Q1 Q2]. unfold lib_at. rewrite (call_df_prog x (Some d) f args kw Q1 Q2). cbn [fst snd].
    set (call := PCall (PAttr (PName "commands") f) (t :: call_args args) (call_kw kw)).
    assert (E : fv vars call = Some (OFrame None out)).
    { unfold call. cbn [SpecSpark.fv map]. change (String.eqb "commands" "spark") with false. change (String.eqb "commands" "commands") with true. cbv iota.
      rewrite V. destruct t as [y|?|?|?|?|?|?|?|?]; try contradiction; [ | exact M ]. destruct F' as (_ & _ & ->). exact M. }
    exists ((x, OFrame None out) :: vars), (pre ++ [(x, call)])%list, (PName x). split; [ exact P' | ]. split.
    - rewrite lines_app, L. cbn [obind]. unfold lib_lines. cbn [map all_some fst snd]. rewrite (command_lib f _ t _ _ T). reflexivity.
    - split; [ now apply exec_snoc | ]. split; [ apply name_lib | split; [ apply name_frame | split; [ apply name_frame | ] ] ].
      cbn [SpecSpark.fv]. now rewrite find_here.
  Qed.
  (** A call that comes first *)
  Lemma first_at : forall n f args kw out, plain_df (DRuntime ("df_" ++ dec_nat n) None f args kw) = true ->
    library f None (call_args args) (call_kw kw) = Some (OFrame None out) ->
    lib_at (DRuntime ("df_" ++ dec_nat n) None f args kw) out.
  Proof.
    intros n f args kw out P' M. set (x := "df_" ++ dec_nat n) in *.
    assert (Q : forallb plain_rt args = true /\ forallb (fun kv => py_ident (fst kv) && plain_rt (snd kv)) kw = true).
    { cbn [plain_df] in P'. repeat (apply andb_true_iff in P'; destruct P' as [P' ?]). auto. }
    destruct Q as [Q1 Q2]. unfold lib_at. rewrite (call_df_prog x None f args kw Q1 Q2). cbn [fst snd app].
    set (call := PCall (PAttr (PName "commands") f) (PName "None" :: call_args args) (call_kw kw)).
    assert (E : fv [] call = Some (OFrame None out)) by exact M.
    exists [(x, OFrame None out)], [(x, call)], (PName x). split; [ exact P' | ]. split.
    - unfold lib_lines. cbn [map all_some fst snd]. unfold call. rewrite (command_lib f (PName "None") (PName "None") (call_args args) (call_kw kw) eq_refl). reflexivity.
    - split; [ intros rest r; cbn [app SpecSpark.exec]; now rewrite E | ]. split; [ apply name_lib | split; [ apply name_frame | split; [ apply name_frame | ] ] ].
      cbn [SpecSpark.fv]. now rewrite find_here.
  Qed.
  (** The code computes the table *)
  Lemma at_runs : forall d rows, lib_at d rows -> forall o, runs sp db column_type (code_to_string (render_df d)) o <-> o = OFrame None rows.
  Proof.
    intros d rows (vars & pre & t & P & L & X & T & F & F' & V) o. unfold runs. split.
    - intros (a & r & a' & r' & PP & A & R & E). apply (read_program_iff d P) in PP.
      assert (Ea : a = fst (df_prog d)) by (now rewrite <- PP). assert (Er : r = snd (df_prog d)) by (now rewrite <- PP). subst a r.
      unfold lib_lines in L. rewrite L in A. injection A as <-. rewrite T in R. injection R as <-.
      specialize (X [] t). rewrite app_nil_r in X. rewrite X in E. cbn [SpecSpark.exec] in E. rewrite V in E. now injection E.
    - intros ->. exists (fst (df_prog d)), (snd (df_prog d)), pre, t. split; [ | split; [ exact L | split; [ exact T | ] ] ].
      + apply (read_program_iff d P). now destruct (df_prog d).
      + specialize (X [] t). rewrite app_nil_r in X. now rewrite X.
  Qed.
End Library.

(** ** Conditions of search *)
Lemma wild_truth : forall v p, wild_val v p = of_truth (if is_null v then None else Some (wild p (val_text v))).
Proof. intros v p. destruct v; reflexivity. Qed.
Lemma search_bridge : forall e, plain_search e = true -> no_words e = true ->
  plain_expr true e = true /\ (forall b, lib_value b e = true) /\ forall sp row, ev sp row e = Some (of_truth (search3 sp row e)).
Proof.
  intro e. induction e as [l o r IHl IHr|o r IH|n args F|e n IH|e He] using expr_induct; intros P W; try discriminate P.
  - cbn [plain_search no_words] in P, W. destruct (String.eqb o "AND" || String.eqb o "OR") eqn:O.
    + apply andb_true_iff in P. destruct P as [Pl Pr]. apply andb_true_iff in W. destruct W as [Wl Wr].
      destruct (IHl Pl Wl) as (A1 & B1 & C1). destruct (IHr Pr Wr) as (A2 & B2 & C2).
      assert (NW : forall p, r <> ELeaf (LConstant (KWildcard p))) by (intros p ->; discriminate Pr).
      split; [ | split ].
      * cbn [plain_expr]. replace (str_in o _) with true by (symmetry; destruct (logic_op o O) as [-> | ->]; reflexivity).
        rewrite A1, A2. destruct r as [[[]|?|?|?]|?|?|?|?|?|?|?|?|?]; try reflexivity. exfalso. eapply NW. reflexivity.
      * intro b. cbn [lib_value]. now rewrite B1, B2.
      * intros sp row. cbn [ev search3]. rewrite C1, C2.
        assert (E : apply_op sp o (of_truth (search3 sp row l)) (of_truth (search3 sp row r)) =
           Some (of_truth (if String.eqb o "AND" then k_and (search3 sp row l) (search3 sp row r) else k_or (search3 sp row l) (search3 sp row r)))).
        { destruct (logic_op o O) as [-> | ->]; destruct (search3 sp row l) as [[]|], (search3 sp row r) as [[]|]; reflexivity. }
        rewrite E. destruct (logic_op o O) as [-> | ->]; destruct r as [[[]|?|?|?]|?|?|?|?|?|?|?|?|?]; try reflexivity; exfalso; eapply NW; reflexivity.
    + destruct (not_logic_op o O) as [OA OO].
      destruct l as [[k|?|?|?]|?|?|?|?|?|?|?|?|?]; try discriminate P. destruct k; try discriminate P.
      apply andb_true_iff in P. destruct P as [P Pr]. apply andb_true_iff in P. destruct P as [_ Pf].
      destruct r as [[k|?|?|?]|?|?|?|?|?|?|?|?|?]; try discriminate Pr.
      assert (C : forall w, const_val k = Some w -> w <> SNull -> str_in o spl_comparisons = true -> plain_expr true (ELeaf (LConstant k)) = true ->
         (forall p, k <> KWildcard p) -> (forall w, k <> KField w) ->
         plain_expr true (EBinary (ELeaf (LConstant (KField s))) o (ELeaf (LConstant k))) = true /\
         (forall b, lib_value b (EBinary (ELeaf (LConstant (KField s))) o (ELeaf (LConstant k))) = true) /\
         forall sp row, ev sp row (EBinary (ELeaf (LConstant (KField s))) o (ELeaf (LConstant k))) =
           Some (of_truth (search3 sp row (EBinary (ELeaf (LConstant (KField s))) o (ELeaf (LConstant k)))))).
      { intros w K N Po Pk NW NF. split; [ | split; [ reflexivity | ] ].
        - change (plain_expr true (EBinary (ELeaf (LConstant (KField s))) o (ELeaf (LConstant k))))
            with (match k with
                  | KWildcard p => plain_name_text s && plain_pattern p && str_in o ["="; "=="; "!="]%string
                  | _ => plain_name_text s && plain_expr true (ELeaf (LConstant k)) && str_in o (["AND"; "OR"]%string ++ spl_comparisons ++ spl_arithmetic)%list
                  end).
          rewrite Pf, Pk, (cmp_among o Po). destruct k; try reflexivity. exfalso. eapply NW. reflexivity.
        - intros sp row.
          assert (E : ev sp row (EBinary (ELeaf (LConstant (KField s))) o (ELeaf (LConstant k))) = apply_op sp o (cell s row) w).
          { cbn [ev]. destruct k; try (exfalso; eapply NW; reflexivity); try (exfalso; eapply NF; reflexivity); cbn [const_val] in *; try discriminate K; try (injection K as <-; reflexivity); rewrite K; reflexivity. }
          rewrite E, (apply_cmp sp o _ w Po N). cbn [search3]. rewrite OA, OO.
          assert (SC : search_compare sp o (cell s row) k = Some (not_null (cell s row) && sp_cmp sp (cmp_name o) (cell s row) w)).
          { unfold search_compare. destruct k; try (exfalso; eapply NW; reflexivity); try (exfalso; eapply NF; reflexivity); rewrite K, Po; reflexivity. }
          rewrite SC. unfold not_null. destruct (is_null (cell s row)); reflexivity. }
      destruct k as [ |b|z|t|w|?|?|w|w|?|w]; try discriminate Pr.
      * apply (C (SInt z)); try reflexivity; try discriminate; exact Pr.
      * apply andb_true_iff in Pr. destruct Pr as [Pt Po]. destruct (number_code t Pt) as (P1 & v & L & N).
        apply (C v); try discriminate; try assumption.
      * apply andb_true_iff in Pr. destruct Pr as [Pt Po]. apply (C (SStr w)); try reflexivity; try discriminate; assumption.
      * apply andb_true_iff in Pr. destruct Pr as [Pt Po]. split; [ | split; [ reflexivity | ] ].
        -- cbn [plain_expr]. now rewrite Pf, Pt, Po.
        -- intros sp row. clear C. cbn [str_in existsb] in Po.
           repeat (apply orb_true_iff in Po; destruct Po as [Po|Po]); try discriminate Po; apply String.eqb_eq in Po; subst o;
             cbn; destruct (cell s row); reflexivity.
  - cbn [plain_search no_words] in P, W. apply andb_true_iff in P. destruct P as [O P]. apply String.eqb_eq in O. subst o.
    destruct (IH P W) as (A & B & C). split; [ | split ].
    + cbn [plain_expr]. now rewrite A.
    + intro b. cbn [lib_value]. apply B.
    + intros sp row. cbn [ev search3]. rewrite C. unfold negate. now destruct (search3 sp row r) as [[]|].
  - destruct e as [l|?|?|?|?|f l|?|?|?|?]; try contradiction; try discriminate P; try discriminate W.
    split; [ exact P | split; [ reflexivity | ] ]. intros sp row. cbn [ev search3]. f_equal. unfold membership. destruct (cell f row); reflexivity.
Qed.
