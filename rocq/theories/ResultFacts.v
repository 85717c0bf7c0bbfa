(** Facts: results of whole pipelines and of query texts. *)
From Coq Require Import Permutation.
From Verif Require Import Str SplAst PyAst Functions Transpile Render Commands Nom Lexer Parser CmdParser Api PipeFacts SpecPy SpecCol SpecFrame
  FrameFacts ProgramFacts SpecText SpecExpr ExprFacts LogicFacts EvalFacts SpecSpark SpecRows SpecCommands SpecResult RowFacts ValueFacts SearchFacts CommandFacts RunFacts.
From Verif Require CodeFacts.
From Verif Require Import SpecWhere.
From Verif Require WhereFacts.
Open Scope list_scope.

Lemma walks_keeps : forall env, walks_sets env -> keeps_order env.
Proof. intros env H i n. specialize (H i [n]). now apply Permutation_length_1_inv in H. Qed.

Lemma steps_app : forall st p q rows, steps st (p ++ q) rows = match steps st p rows with Some mid => steps st q mid | None => None end.
Proof. induction p as [|c p IH]; intros q rows; [ reflexivity | ]. cbn [app steps]. destruct (st c rows); [ apply IH | reflexivity ]. Qed.
Lemma plain_same : forall c, plain_command false c = true -> same_as c = None.
Proof. intros c P. destruct c; try reflexivity; try discriminate P. cbn [plain_command plain1] in P. cbn [same_as]. now rewrite (plain_no_index e P). Qed.
Lemma plain_to_first : forall c, plain_command false c = true -> plain_command true c = true.
Proof. intros c P. destruct c; try exact P. discriminate P. Qed.
(** Covered pipelines can be continued *)
Lemma covered_app : forall sp db p rows c out, covered sp db p rows -> plain_command false c = true ->
  step sp db c rows = Some out -> covered sp db (p ++ [c]) out.
Proof.
  intros sp db p rows c out C P E. right. destruct C as [[-> D]|[Pp Er]].
  - cbn [app]. unfold plain_pipeline, plain_pipe, plain_first, run, run_pipe, first_rows. rewrite (plain_same c P), D. cbn [forallb steps]. rewrite andb_true_r.
    destruct c; try discriminate P; cbv iota; rewrite E; auto using plain_to_first.
  - destruct p as [|c0 p]; [ discriminate Pp | ]. unfold plain_pipeline, plain_pipe, run, run_pipe in *. cbn [app].
    apply andb_true_iff in Pp. destruct Pp as [P0 Pp]. rewrite P0, forallb_app, Pp. cbn [forallb andb]. rewrite P. split; [ reflexivity | ].
    destruct (first_rows sp db (step sp db) c0) as [r|]; [ | discriminate Er ]. rewrite steps_app, Er. cbn [steps]. now rewrite E.
Qed.
Lemma covered_gives : forall env sp db p rows, env_rt env = Disallow -> walks_sets env -> covered sp db p rows -> p <> [] ->
  gives env sp db p (OFrame None rows).
Proof.
  intros env sp db p rows R W C N. destruct C as [[-> _]|[P E]]; [ congruence | ].
  destruct (pipeline_ok sp db no_commands env p rows R (walks_keeps env W) P E) as (code & Ec & _).
  exists code. split; [ exact Ec | ]. intros cmds x.
  destruct (pipeline_ok sp db cmds env p rows R (walks_keeps env W) P E) as (code' & Ec' & H).
  rewrite Ec in Ec'. injection Ec' as <-. apply H.
Qed.
Lemma command_gives : forall env sp db p rows c out, env_rt env = Disallow -> walks_sets env -> covered sp db p rows ->
  plain_command false c = true -> step sp db c rows = Some out -> gives env sp db (p ++ [c]) (OFrame None out).
Proof.
  intros env sp db p rows c out R W C P S. pose proof (covered_app sp db p rows c out C P S) as C'.
  apply covered_gives; auto. now destruct p.
Qed.
(** Programs without coverage: the meaning of the data frame *)
Lemma plain_computes : forall sp db cmds d o, plain_df d = true ->
  (computes sp db cmds (code_to_string (render_df d)) o <-> exec sp db cmds [] (fst (df_prog d)) (snd (df_prog d)) = Some o).
Proof.
  intros sp db cmds d o P. unfold computes. split.
  - intros (a & t & R & X). apply (read_program_iff d P) in R. rewrite (surjective_pairing (df_prog d)) in R. now injection R as -> ->.
  - intro X. exists (fst (df_prog d)), (snd (df_prog d)). split; [ apply (read_program_iff d P); symmetry; apply surjective_pairing | exact X ].
Qed.
Lemma frame_gives : forall env sp db p d o, transform_pipeline env p = Ok (Some d) -> plain_df d = true ->
  (forall cmds, exec sp db cmds [] (fst (df_prog d)) (snd (df_prog d)) = Some o) -> gives env sp db p o.
Proof.
  intros env sp db p d o T P X. exists (code_to_string (render_df d)). split; [ unfold render_pyspark; rewrite T; reflexivity | ].
  intros cmds x. rewrite (plain_computes sp db cmds d x P), X. split; congruence.
Qed.
Lemma text_frame : forall env sp db text p o, parse text = Some (Ok p) -> gives env sp db p o -> text_gives env sp db text o.
Proof.
  intros env sp db text p o E (code & Ec & H). exists code. split; [ | exact H ]. unfold transpile. rewrite E. cbn [option_map rbind]. now rewrite Ec.
Qed.
Lemma text_fails : forall env sp db text p d, parse text = Some (Ok p) -> transform_pipeline env p = Ok (Some d) -> plain_df d = true ->
  (forall cmds, exec sp db cmds [] (fst (df_prog d)) (snd (df_prog d)) = None) -> fails env sp db text.
Proof.
  intros env sp db text p d E T P X. exists (code_to_string (render_df d)). split.
  - unfold transpile. rewrite E. cbn [option_map rbind]. unfold render_pyspark. rewrite T. reflexivity.
  - intros cmds x C. apply (plain_computes sp db cmds d x P) in C. rewrite X in C. discriminate C.
Qed.

(** ** Written where conditions *)
Definition all_step (a b : option bool) := k_and a b.
Lemma all_true_snoc : forall l x, all_true (l ++ [x]) = k_and (all_true l) x.
Proof.
  intros l x. unfold all_true. rewrite forallb_app, existsb_app. cbn [forallb existsb].
  destruct (forallb _ l) eqn:F; destruct (existsb _ l) eqn:X; destruct x as [[]|]; cbn; try reflexivity.
  exfalso. rewrite forallb_forall in F. apply existsb_exists in X as (y & I & Y). specialize (F y I). destruct y as [[]|]; discriminate.
Qed.
Lemma some_true_snoc : forall l x, some_true (l ++ [x]) = k_or (some_true l) x.
Proof.
  intros l x. unfold some_true. rewrite forallb_app, existsb_app. cbn [forallb existsb].
  destruct (forallb _ l) eqn:F; destruct (existsb _ l) eqn:X; destruct x as [[]|]; cbn; try reflexivity.
Qed.
Lemma all_true_fold : forall l x, fold_left k_and l x = all_true (x :: l).
Proof.
  intro l. induction l as [|y l IH] using rev_ind; intro x; [ now destruct x as [[]|] | ].
  rewrite fold_left_app. cbn [fold_left]. rewrite IH. change (x :: l ++ [y]) with ((x :: l) ++ [y]). symmetry. apply all_true_snoc.
Qed.
Lemma some_true_fold : forall l x, fold_left k_or l x = some_true (x :: l).
Proof.
  intro l. induction l as [|y l IH] using rev_ind; intro x; [ now destruct x as [[]|] | ].
  rewrite fold_left_app. cbn [fold_left]. rewrite IH. change (x :: l ++ [y]) with ((x :: l) ++ [y]). symmetry. apply some_true_snoc.
Qed.
(** Conditions whose value is a truth value *)
Definition cond_is (sp : Spark) (row : Row) (e : Expr) (b : option bool) : Prop :=
  ev sp row e = Some (of_truth b) /\ plain_expr true e = true /\ (forall p, e <> ELeaf (LConstant (KWildcard p))).
Lemma truth_of : forall b, truth (of_truth b) = Some b.
Proof. destruct b as [[]|]; reflexivity. Qed.
Lemma cond_is_bin : forall sp row op f a b x y, (op = "AND"%string /\ f = k_and) \/ (op = "OR"%string /\ f = k_or) ->
  cond_is sp row a x -> cond_is sp row b y -> cond_is sp row (EBinary a op b) (f x y).
Proof.
  intros sp row op f a b x y O (Ea & Pa & Wa) (Eb & Pb & Wb).
  assert (K : ev sp row (EBinary a op b) = match ev sp row a, ev sp row b with Some u, Some v => apply_op sp op u v | _, _ => None end).
  { cbn [ev]. destruct b; try reflexivity. destruct l; try reflexivity. destruct c; try reflexivity. exfalso. now apply (Wb s). }
  assert (Q : plain_expr true (EBinary a op b) = plain_expr true a && plain_expr true b && str_in op (["AND"; "OR"]%string ++ spl_comparisons ++ spl_arithmetic)).
  { cbn [plain_expr]. destruct b; try reflexivity. destruct l; try reflexivity. destruct c; try reflexivity. exfalso. now apply (Wb s). }
  split; [ | split; [ | discriminate ] ].
  - rewrite K, Ea, Eb. unfold apply_op, logic. rewrite !truth_of. destruct O as [[-> ->]|[-> ->]]; reflexivity.
  - rewrite Q, Pa, Pb. destruct O as [[-> _]|[-> _]]; reflexivity.
Qed.
Lemma cond_is_joined : forall sp row op f, (op = "AND"%string /\ f = k_and) \/ (op = "OR"%string /\ f = k_or) ->
  forall l a xs x, Forall2 (cond_is sp row) l xs -> cond_is sp row a x ->
  cond_is sp row (fold_left (fun a b => EBinary a op b) l a) (fold_left f xs x).
Proof.
  intros sp row op f O l. induction l as [|e l IH]; intros a xs x H A; inversion H; subst; [ exact A | ].
  cbn [fold_left]. apply IH; [ assumption | ]. now apply cond_is_bin.
Qed.
Lemma cond_all : forall sp row l xs, l <> [] -> Forall2 (cond_is sp row) l xs -> cond_is sp row (joined_meaning "AND" l) (all_true xs).
Proof.
  intros sp row l xs N H. destruct H as [|e x l xs A H]; [ congruence | ]. cbn [joined_meaning joined].
  rewrite <- all_true_fold. unfold joined_meaning, joined. apply cond_is_joined; auto.
Qed.
Lemma cond_some : forall sp row l xs, l <> [] -> Forall2 (cond_is sp row) l xs -> cond_is sp row (joined_meaning "OR" l) (some_true xs).
Proof.
  intros sp row l xs N H. destruct H as [|e x l xs A H]; [ congruence | ]. cbn [joined_meaning joined].
  rewrite <- some_true_fold. unfold joined_meaning, joined. apply cond_is_joined; auto.
Qed.
Definition terms_quotable := fix terms g := match g with [] => True | t :: g' => term_quotable t /\ terms g' end.
Lemma paren_quotable : forall c, term_quotable (TmParen c) -> Forall (Forall term_quotable) c.
Proof.
  intro c. cbn [term_quotable]. induction c as [|g c IH]; intro H; constructor.
  - destruct H as [H _]. induction g as [|t g IHg]; constructor; [ apply H | apply IHg, H ].
  - apply IH, H.
Qed.
Lemma paren_known : forall sp row c, term_known sp row (TmParen c) -> Forall (Forall (term_known sp row)) c.
Proof.
  intros sp row c. cbn [term_known]. induction c as [|g c IH]; intro H; constructor.
  - destruct H as [H _]. induction g as [|t g IHg]; constructor; [ apply H | apply IHg, H ].
  - apply IH, H.
Qed.
Lemma term_is : forall sp row t, term_wf t -> term_quotable t -> term_known sp row t -> cond_is sp row (term_meaning t) (term_truth sp row t).
Proof.
  intros sp row t. induction t as [f o v|f vs|t IH|c IH|n args|f o n args] using term_induction; intros W Q K.
  - destruct W as (Wf & _ & Wv). cbn [term_meaning]. unfold value_meaning.
    assert (O : str_in (cmp_text o) spl_comparisons = true) by (now destruct o).
    assert (Ov : plain_expr true (ELeaf (LConstant (match v with VInt z => KInt z | VStr s | VWord s => KStr s end))) = true) by (destruct v as [z|s|w]; [ reflexivity | exact Q | apply ReadFacts.between_stands; exact (CodeFacts.ident_name_text w (proj1 Wv)) ]).
    split; [ | split; [ | discriminate ] ].
    + assert (A : forall x, apply_op sp (cmp_text o) x (written_value v) = Some (of_truth (match x with SNull => None | y => Some (sp_cmp sp (written_op o) y (written_value v)) end))).
      { intro x. replace (apply_op sp (cmp_text o) x (written_value v)) with (Some (compare sp (cmp_text o) x (written_value v))) by (now destruct o).
        unfold compare. replace (cmp_name (cmp_text o)) with (written_op o) by (now destruct o). now destruct x, v. }
      pose proof (A (cell f row)) as B. cbn [term_truth]. destruct (cell f row) eqn:Ec; rewrite <- B; destruct v; cbn [ev const_val]; rewrite Ec; reflexivity.
    + destruct v; cbn [plain_expr] in *; rewrite (CodeFacts.ident_name_text f Wf), ?Ov; now destruct o.
  - clear K. destruct W as (Wf & _ & Wn & Wv). cbn [term_meaning term_truth term_quotable] in *. split; [ | split; [ | discriminate ] ].
    + assert (A : forall x, existsb (in_item sp x) (map value_meaning vs) = existsb (fun v => sp_cmp sp "==" x (written_value v)) vs).
      { intro x. clear. induction vs as [|v vs IH]; [ reflexivity | ]. cbn [map existsb]. rewrite IH. now destruct v. }
      cbn [ev]. unfold membership. destruct (cell f row); rewrite ?A; reflexivity.
    + cbn [plain_expr]. rewrite (CodeFacts.ident_name_text f Wf). cbn [andb].
      assert (B : forallb plain_in_value (map value_meaning vs) = true).
      { clear Wn. induction Q as [|v vs Hv _ IH]; [ reflexivity | ]. inversion Wv as [|? ? [_ Nw] Wvs]; subst. cbn [map forallb]. rewrite IH by exact Wvs. destruct v; [ reflexivity | | now destruct Nw ]. cbn [value_meaning plain_in_value]. now rewrite Hv. }
      destruct vs; [ congruence | exact B ].
  - cbn [term_meaning term_truth]. destruct (IH W Q K) as (E & P & _). split; [ | split; [ exact P | discriminate ] ].
    cbn [ev]. change (String.eqb "NOT" "NOT") with true. cbn iota. rewrite E. unfold negate. now rewrite truth_of.
  - destruct (paren_wf c W) as [N Wc]. pose proof (paren_quotable c Q) as Qc. cbn [term_meaning term_truth].
    pose proof (paren_known sp row c K) as Kc. apply cond_some; [ now destruct c | ]. clear N W Q K.
    induction c as [|g c IHc]; cbn [map]; constructor.
    + inversion Wc as [|? ? [Ng Wg] _]; inversion Qc as [|? ? Qg _]; inversion IH as [|? ? Ig _]; inversion Kc as [|? ? Kg _]; subst.
      apply cond_all; [ now destruct g | ]. clear Ng IH IHc Wc Qc Kc.
      induction g as [|t g IHg]; cbn [map]; constructor; inversion Wg; inversion Qg; inversion Ig; inversion Kg; subst; auto.
    + inversion Wc; inversion Qc; inversion IH; inversion Kc; subst; auto.
  - cbn [term_meaning term_truth term_quotable term_known] in *. destruct K as [b K]. split; [ | split; [ exact Q | discriminate ] ].
    rewrite K. now destruct b as [[]|].
  - destruct W as (Wf & _ & _). cbn [term_meaning term_truth term_quotable term_known] in *. destruct K as [v K].
    set (e := meaning (TCall n args)) in *.
    assert (E1 : ev sp row (EBinary (ELeaf (LConstant (KField f))) (cmp_text o) e) = apply_op sp (cmp_text o) (cell f row) v).
    { subst e. cbn [meaning] in *. cbn [ev] in *. now rewrite K. }
    assert (E2 : plain_expr true (EBinary (ELeaf (LConstant (KField f))) (cmp_text o) e)
      = plain_expr true (ELeaf (LConstant (KField f))) && plain_expr true e && str_in (cmp_text o) (["AND"; "OR"]%string ++ spl_comparisons ++ spl_arithmetic)) by reflexivity.
    split; [ | split; [ | discriminate ] ].
    + rewrite E1, K. replace (apply_op sp (cmp_text o) (cell f row) v) with (Some (compare sp (cmp_text o) (cell f row) v)) by (now destruct o).
      unfold compare. replace (cmp_name (cmp_text o)) with (written_op o) by (now destruct o). now destruct (cell f row), v.
    + rewrite E2, Q. cbn [plain_expr]. rewrite (CodeFacts.ident_name_text f Wf). now destruct o.
Qed.
(** Such conditions are covered, whatever the calls compute *)
Definition good (e : Expr) : Prop := plain_expr true e = true /\ (forall p, e <> ELeaf (LConstant (KWildcard p))).
Lemma good_bin : forall op a b, str_in op (["AND"; "OR"]%string ++ spl_comparisons ++ spl_arithmetic) = true -> good a -> good b -> good (EBinary a op b).
Proof.
  intros op a b O [Pa Wa] [Pb Wb]. split; [ | discriminate ].
  assert (Q : plain_expr true (EBinary a op b) = plain_expr true a && plain_expr true b && str_in op (["AND"; "OR"]%string ++ spl_comparisons ++ spl_arithmetic)).
  { cbn [plain_expr]. destruct b; try reflexivity. destruct l; try reflexivity. destruct c; try reflexivity. exfalso. now apply (Wb s). }
  now rewrite Q, Pa, Pb, O.
Qed.
Lemma good_joined : forall op l, str_in op (["AND"; "OR"]%string ++ spl_comparisons ++ spl_arithmetic) = true -> l <> [] -> Forall good l -> good (joined_meaning op l).
Proof.
  intros op [|a l] O N H; [ congruence | ]. inversion H as [|? ? Ha Hl]; subst. clear H N. unfold joined_meaning, joined.
  revert a Ha. induction Hl as [|b l Hb _ IH]; intros a Ha; [ exact Ha | ]. cbn [fold_left]. apply IH. now apply good_bin.
Qed.
Lemma term_good : forall t, term_wf t -> term_quotable t -> good (term_meaning t).
Proof.
  intro t. induction t as [f o v|f vs|t IH|c IH|n args|f o n args] using term_induction; intros W Q.
  - destruct (term_is small_spark [] (TmCmp f o v) W Q I) as (_ & H). exact H.
  - destruct (term_is small_spark [] (TmIn f vs) W Q I) as (_ & H). exact H.
  - destruct (IH W Q) as [P _]. split; [ exact P | discriminate ].
  - destruct (paren_wf c W) as [N Wc]. pose proof (paren_quotable c Q) as Qc. cbn [term_meaning].
    apply good_joined; [ reflexivity | now destruct c | ]. clear N W Q.
    induction c as [|g c IHc]; cbn [map]; constructor.
    + inversion Wc as [|? ? [Ng Wg] _]; inversion Qc as [|? ? Qg _]; inversion IH as [|? ? Ig _]; subst.
      apply good_joined; [ reflexivity | now destruct g | ]. clear Ng IH IHc Wc Qc.
      induction g as [|t g IHg]; cbn [map]; constructor; inversion Wg; inversion Qg; inversion Ig; subst; auto.
    + inversion Wc; inversion Qc; inversion IH; subst; auto.
  - split; [ exact Q | discriminate ].
  - destruct W as (Wf & _ & _). cbn [term_meaning]. apply good_bin; [ now destruct o | | split; [ exact Q | discriminate ] ].
    split; [ | discriminate ]. cbn [plain_expr]. exact (CodeFacts.ident_name_text f Wf).
Qed.
Lemma rows_where_cond : forall sp e f rows, (forall r, In r rows -> ev sp r e = Some (of_truth (f r))) ->
  rows_where (fun r => ev sp r e) rows = Some (filter (fun r => match f r with Some true => true | _ => false end) rows).
Proof.
  intros sp e f rows. induction rows as [|r rows IH]; intro H; [ reflexivity | ]. cbn [rows_where filter].
  rewrite (H r (or_introl eq_refl)), IH by (intros; apply H; now right). destruct (f r) as [[]|]; reflexivity.
Qed.
Lemma covered_nil : forall sp db rows, db "main"%string = Some rows -> covered sp db [] rows.
Proof. intros sp db rows D. left. auto. Qed.
Lemma where_text : forall env sp db c s rows, env_rt env = Disallow -> walks_sets env -> cond_wf c -> cond_spells c s -> cond_quotable c ->
  db "main"%string = Some rows -> (forall r, In r rows -> cond_known sp r c) ->
  text_gives env sp db ("where " ++ s) (OFrame None (filter (fun r => cond_true sp r c) rows)).
Proof.
  intros env sp db c s rows R W Wc Ws Q D K. apply (text_frame _ _ _ _ _ _ (WhereFacts.parse_where c s Wc Ws)).
  apply (command_gives env sp db [] rows (CWhere (cond_meaning c))); auto.
  - now apply covered_nil.
  - exact (proj1 (term_good (TmParen c) Wc Q)).
  - cbn [step step1]. rewrite (rows_where_cond sp _ (fun r => cond_truth sp r c)); [ reflexivity | ]. intros r Hr.
    exact (proj1 (term_is sp r (TmParen c) Wc Q (K r Hr))).
Qed.

(** Values are equal to themselves *)
Lemma vals_eqb_refl : forall l, vals_eqb l l = true.
Proof.
  induction l as [|v l IH]; [ reflexivity | ]. cbn [vals_eqb]. rewrite IH, Bool.andb_true_r.
  destruct v; cbn [val_eqb]; auto using Bool.eqb_reflx, Z.eqb_refl, String.eqb_refl.
Qed.
