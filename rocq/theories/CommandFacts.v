(** Facts: the data frame generated for a command computes what the command does. *)
From Verif Require Import Str SplAst PyAst Functions Transpile Render Commands PipeFacts SpecPy SpecCol SpecFrame
  FrameFacts ProgramFacts SpecSpark SpecRows SpecCommands RowFacts ValueFacts SearchFacts.
Open Scope list_scope.

(** ** Lists of optional results *)
Lemma all_some_split : forall {A B C} (g : A -> option B) (h : B -> option C) l out,
  all_some (map (fun a => match g a with Some b => h b | None => None end) l) = Some out ->
  exists mid, all_some (map g l) = Some mid /\ all_some (map h mid) = Some out.
Proof.
  intros A B C g h l. induction l as [|a l IH]; intros out E; [ exists []; split; [ reflexivity | exact E ] | ].
  cbn [map all_some] in E. destruct (g a) as [b|] eqn:Eg; [ | discriminate ]. destruct (h b) as [c|] eqn:Eh; [ | discriminate ].
  destruct (all_some _) as [o|] eqn:Eo; [ | discriminate ]. destruct (IH o eq_refl) as (mid & E1 & E2).
  exists (b :: mid). cbn [map all_some]. rewrite Eg, Eh, E1, E2. split; [ reflexivity | exact E ].
Qed.
Lemma all_some_ext : forall {A B} (f g : A -> option B) l out, all_some (map f l) = Some out ->
  (forall a b, In a l -> f a = Some b -> g a = Some b) -> all_some (map g l) = Some out.
Proof.
  intros A B f g l. induction l as [|a l IH]; intros out E H; [ exact E | ]. cbn [map all_some] in *.
  destruct (f a) as [b|] eqn:Ef; [ | discriminate ]. rewrite (H a b (or_introl eq_refl) Ef).
  destruct (all_some (map f l)) as [o|]; [ | discriminate ]. rewrite (IH o eq_refl); [ exact E | ].
  intros x y Hx. apply H. now right.
Qed.
Lemma all_some_total : forall {A B} (f : A -> B) l, all_some (map (fun a => Some (f a)) l) = Some (map f l).
Proof. induction l as [|a l IH]; [ reflexivity | ]. cbn [map all_some]. now rewrite IH. Qed.

(** Anything but a module *)
Definition callable (t : Py) : Prop :=
  match t with PName x => String.eqb x "spark" = false /\ String.eqb x "commands" = false | _ => True end.

Section Frames.
  Variable sp : Spark.
  Variable db : string -> option Table.
  Variable cmds : string -> option Obj -> list Py -> list (string * Py) -> option Obj.
  (** Values of variables, and the assignments that come before *)
  Variable vars : list (string * Obj).
  Variable pre : list (string * Py).
  Variable inl : bool.
  Notation fv := (fv sp db cmds vars).
  (** After the assignments the data frame d computes the object o *)
  Definition obj_sem (d : DataFrame) (o : Obj) : Prop :=
    plain_df d = true /\ inline d = inl /\ fst (df_prog d) = pre /\ callable (snd (df_prog d)) /\ fv (snd (df_prog d)) = Some o.
  Definition frame_sem (d : DataFrame) (rows : Table) : Prop := obj_sem d (OFrame None rows).

  Lemma fv_method : forall t m args o, callable t -> fv t = Some o ->
    fv (py_method t m args) = frame_method sp o m args (map fv args) [].
  Proof.
    intros t m args o N E. unfold py_method. destruct t; cbn [SpecSpark.fv] in *; try discriminate E; try (rewrite E; reflexivity).
    destruct N as [N1 N2]. rewrite N1, N2, E. reflexivity.
  Qed.
  (** One more method *)
  Lemma step_sem : forall d d' o o' m args, obj_sem d o ->
    plain_df d' = true -> inline d' = inline d -> df_prog d' = (fst (df_prog d), py_method (snd (df_prog d)) m args) ->
    frame_method sp o m args (map fv args) [] = Some o' -> obj_sem d' o'.
  Proof.
    intros d d' o o' m args (P & I1 & A & N & F) P' Id Ed M. unfold obj_sem. rewrite Ed, Id. cbn [fst snd].
    repeat split; auto. now rewrite (fv_method _ m args o N F).
  Qed.

  (** ** where and search *)
  Lemma keep_ok : forall f c rows out, rows_where f rows = Some out ->
    (forall r v, In r rows -> f r = Some v -> exists w, cv sp r c = Some w /\ truth w <> None /\ is_true w = is_true v) ->
    keep_where sp c rows = Some out.
  Proof.
    intros f c rows. unfold keep_where. induction rows as [|r rows IH]; intros out E H; [ now injection E as <- | ].
    cbn [rows_where] in E. destruct (f r) as [v|] eqn:Ef; [ | discriminate ].
    destruct (H r v (or_introl eq_refl) Ef) as (w & Ec & T & Tw). cbn [map all_some]. rewrite Ec.
    destruct (truth w) as [t|]; [ | congruence ]. rewrite Tw.
    destruct (rows_where f rows) as [l|]; [ | destruct v; discriminate ].
    specialize (IH l eq_refl (fun r v h => H r v (or_intror h))).
    destruct (all_some _) as [keep|]; [ | discriminate ]. injection IH as IH. cbn [option_map combine filter snd].
    destruct v as [|[]|?|?|?]; try discriminate E; injection E as <-; cbn [is_true map fst]; now rewrite IH.
  Qed.
  Lemma where_sem : forall d rows x f out, frame_sem d rows -> plain_pexpr x = true ->
    rows_where f rows = Some out ->
    (forall r v, In r rows -> f r = Some v -> exists w, cv sp r (pexpr_tree x) = Some w /\ truth w <> None /\ is_true w = is_true v) ->
    frame_sem (DWhere d x) out.
  Proof.
    intros d rows x f out D P E H. eapply (step_sem d); [ exact D | | reflexivity | reflexivity | ].
    - cbn [plain_df]. now rewrite P, (proj1 D).
    - cbn. rewrite (keep_ok f _ rows out E H). reflexivity.
  Qed.
  Lemma rows_where_truth : forall f rows out r, rows_where f rows = Some out -> In r rows ->
    exists v, f r = Some v /\ truth v <> None.
  Proof.
    intros f rows. induction rows as [|a rows IH]; intros out r E H; [ contradiction | ]. cbn [rows_where] in E.
    destruct (f a) as [v|] eqn:Ef; [ | discriminate ]. destruct (rows_where f rows) as [l|] eqn:El; [ | destruct v; discriminate ].
    destruct H as [<-|H]; [ | exact (IH l r eq_refl H) ]. exists v. split; [ exact Ef | ]. destruct v; discriminate.
  Qed.
End Frames.
Lemma source_sem : forall sp db cmds n rows, plain_name_text n = true -> db n = Some rows -> frame_sem sp db cmds [] [] true (DSource n) rows.
Proof.
  intros sp db cmds n rows P E. repeat split; try exact I; [ exact P | ]. cbn [df_prog snd py_table py_method SpecSpark.fv].
  change (String.eqb "spark" "spark") with true. change (String.eqb "table" "table") with true. cbv iota. now rewrite E.
Qed.

Section Plain.
  Variable sp : Spark.
  Variable db : string -> option Table.
  Variable cmds : string -> option Obj -> list Py -> list (string * Py) -> option Obj.
  Variable vars : list (string * Obj).
  Variable pre : list (string * Py).
  Variable inl : bool.
  Notation frame_sem := (frame_sem sp db cmds vars pre inl).
  Notation obj_sem := (obj_sem sp db cmds vars pre inl).
  Definition translates (env : Env) (c : Command) (s : tstate) (out : Table) : Prop :=
    exists d, (forall st, transform_command env c s st = (st, Ok (Some d))) /\ frame_sem d out.

  Lemma only_ok : forall env (r : res DataFrame) d st, env_rt env = Disallow -> r = Ok d ->
    bind (select_rt (env_rt env) unimplemented (lift r)) (fun d => ret (Some d)) st = (st, Ok (Some d)).
  Proof. intros env r d st -> ->. reflexivity. Qed.

  Lemma where_ok : forall env e s rows out, env_rt env = Disallow -> plain_expr true e = true ->
    frame_sem (d_or_default s) rows -> rows_where (fun r => ev sp r e) rows = Some out ->
    translates env (CWhere e) s out.
  Proof.
    intros env e s rows out R P D E. destruct (expr_ok Disallow true (fun _ => eq_refl) e P) as (x & Ex & c & U & F & Pc & Hc).
    exists (DWhere (d_or_default s) (PCol c)). split.
    - intro st. cbn [transform_command]. unfold t_where. rewrite R, Ex. unfold d_where. rewrite <- U. reflexivity.
    - eapply where_sem; [ exact D | exact Pc | exact E | ]. intros r v Hr Ev. exists v. split; [ now apply Hc | split; [ | reflexivity ] ].
      destruct (rows_where_truth _ _ _ r E Hr) as (w & Ew & T). cbv beta in Ew. rewrite Ev in Ew. now injection Ew as <-.
  Qed.
  Lemma search_filter : forall d rows e c out, frame_sem d rows -> plain_search e = true ->
    flat c -> sem_col (search_core c) (m3 e) ->
    (forall r f, In r rows -> In f (negated_fields e) -> cell f r <> SNull) ->
    rows_where (fun r => option_map SBool (search_holds sp r e)) rows = Some out ->
    frame_sem (DWhere d (PCol (search_core c))) out.
  Proof.
    intros d rows e c out D P F (F2 & Pc & Hc) N E. eapply where_sem; [ exact D | exact Pc | exact E | ].
    intros r v Hr Ev. cbv beta in Ev.
    destruct (search_agrees sp r e P (fun f h => N r f Hr h)) as (b & Eb & Hb). rewrite Eb in Ev. injection Ev as <-.
    exists (of_truth (search3 sp r e)). split; [ now apply Hc | ]. split; [ now destruct (search3 sp r e) as [[]|] | ].
    cbn [is_true]. destruct (search3 sp r e) as [[]|], b; try reflexivity; exfalso; destruct Hb as [H1 H2];
      try discriminate (H1 eq_refl); discriminate (H2 eq_refl).
  Qed.
  Lemma search_rows_inv : forall e rows out, search_rows sp e rows = Some out ->
    (forall r f, In r rows -> In f (negated_fields e) -> cell f r <> SNull) /\
    rows_where (fun r => option_map SBool (search_holds sp r e)) rows = Some out.
  Proof.
    intros e rows out E. unfold search_rows in E. destruct (forallb _ rows) eqn:H; [ | discriminate E ]. split; [ | exact E ].
    intros r f Hr Hf C. rewrite forallb_forall in H. specialize (H r Hr). unfold has_fields in H. rewrite forallb_forall in H.
    specialize (H f Hf). rewrite C in H. discriminate H.
  Qed.
  Lemma search_ok' : forall env e s rows out, env_rt env = Disallow -> plain_search e = true ->
    frame_sem (d_or_default s) rows -> search_rows sp e rows = Some out ->
    translates env (CSearch e) s out.
  Proof.
    intros env e s rows out R P D E. apply search_rows_inv in E. destruct E as [N E]. destruct (search_ok Disallow e P) as (c & Ec & F & S).
    exists (DWhere (d_or_default s) (PCol (search_core c))). split.
    - intro st. cbn [transform_command]. rewrite R. cbn [select_rt]. unfold t_search_standalone, lift, bind, ret.
      rewrite (split_plain e true [] P), R, Ec. unfold d_where. rewrite search_expr_flat; [ reflexivity | exact F | exact (proj1 S) ].
    - now apply (search_filter _ rows e c).
  Qed.

  (** ** eval *)
  Lemma with_column_sem : forall d rows n c f out, frame_sem d rows -> plain_name_text n = true -> sem_col c f ->
    all_some (map (fun r => option_map (fun v => set_cell n v r) (f sp r)) rows) = Some out ->
    frame_sem (DWithColumn d n c) out.
  Proof.
    intros d rows n c f out D P (F & Pc & Hc) E. eapply (step_sem sp db cmds vars pre inl d); [ exact D | | reflexivity | reflexivity | ].
    - cbn [plain_df]. now rewrite (proj1 D), P, Pc.
    - cbn [frame_method]. cbn. unfold map_rows.
      rewrite (all_some_ext _ (fun r => option_map (fun v => set_cell n v r) (cv sp r (col_tree c))) rows out E); [ reflexivity | ].
      intros r w Hr Hw. destruct (f sp r) as [v|] eqn:Ef; [ | discriminate ]. now rewrite (Hc sp r v Ef).
  Qed.
  Lemma eval_go_ok : forall l d rows out,
    forallb (fun ne => plain_name_text (fst ne) && plain_expr true (snd ne)) l = true ->
    frame_sem d rows -> all_some (map (assign sp l) rows) = Some out ->
    exists d', t_eval_go Disallow l d = Ok d' /\ frame_sem d' out.
  Proof.
    induction l as [|[n e] l IH]; intros d rows out P D E.
    - exists d. split; [ reflexivity | ]. change (assign sp []) with (fun r : Row => Some r) in E.
      rewrite (all_some_total (fun r => r)), map_id in E. now injection E as <-.
    - cbn [forallb fst snd] in P. apply andb_true_iff in P. destruct P as [P Pl]. apply andb_true_iff in P. destruct P as [Pn Pe].
      destruct (expr_ok Disallow true (fun _ => eq_refl) e Pe) as (x & Ex & c & U & S).
      cbn [t_eval_go]. unfold eval_column. rewrite Ex. cbn [rbind].
      destruct x as [c0|]; [ | discriminate U ]. cbn [rbind].
      assert (Ec : cl_unaliased c0 = c).
      { unfold pe_unaliased, pe_unaliased_with_name in U. unfold cl_unaliased. destruct (cl_unaliased_with_name c0) as [c1 nm]. cbn [fst] in *. now injection U. }
      unfold d_with_column. rewrite Ec.
      destruct (all_some_split (fun r => option_map (fun v => set_cell n v r) (ev sp r e)) (assign sp l) rows out) as (mid & E1 & E2).
      { rewrite <- E. f_equal. apply map_ext. intro r. cbn [assign]. now destruct (ev sp r e). }
      apply (IH _ mid out Pl); [ | exact E2 ]. eapply with_column_sem; [ exact D | exact Pn | exact S | exact E1 ].
  Qed.
  Lemma eval_ok : forall env l s rows out, env_rt env = Disallow -> plain1 (CEval l) = true ->
    frame_sem (d_or_default s) rows -> all_some (map (assign sp l) rows) = Some out -> translates env (CEval l) s out.
  Proof.
    intros env l s rows out R P D E. destruct (eval_go_ok l _ rows out P D E) as (d & Ed & Fd).
    exists d. split; [ | exact Fd ]. intro st. cbn [transform_command]. rewrite R. cbn [select_rt]. now rewrite Ed.
  Qed.

  (** ** convert *)
  Lemma convert_go_ok : forall tf l d rows out, plain1 (CConvert tf l) = true ->
    frame_sem d rows -> all_some (map (assign sp (map conversion l)) rows) = Some out ->
    exists d', t_convert_go tf l d = Ok d' /\ frame_sem d' out.
  Proof.
    intro tf. induction l as [|[g n a] l IH]; intros d rows out P D E.
    - exists d. split; [ reflexivity | ]. change (assign sp (map conversion [])) with (fun r : Row => Some r) in E.
      rewrite (all_some_total (fun r => r)), map_id in E. now injection E as <-.
    - cbn [plain1 forallb fc_func fc_field] in P. apply andb_true_iff in P. destruct P as [P Pl].
      apply andb_true_iff in P. destruct P as [P Pn]. apply andb_true_iff in P. destruct P as [Pg Pf].
      cbn [conversion fc_alias fc_field fst] in Pn. set (nm := match a with Some a => a | None => n end) in *.
      destruct (all_some_split (fun r => option_map (fun v => set_cell nm v r) (ev sp r (ECall g [ELeaf (LConstant (KField n))]))) (assign sp (map conversion l)) rows out) as (mid & E1 & E2).
      { rewrite <- E. f_equal. apply map_ext. intro r. cbn [map conversion assign fc_func fc_field fc_alias]. fold nm. now destruct (ev sp r _). }
      assert (S : sem_col (CNamed n) (fun _ row => Some (cell n row))) by (split; [ exact I | split; [ exact Pf | now intros ] ]).
      assert (K : exists c, convert_fn tf (mkConversion g n a) = Ok c /\ sem_col c (fun sp r => ev sp r (ECall g [ELeaf (LConstant (KField n))]))).
      { cbn [str_in existsb] in Pg. repeat (apply orb_true_iff in Pg; destruct Pg as [Pg|Pg]); try discriminate Pg; apply String.eqb_eq in Pg; subst g.
        - exists (memk (pcol n)). split; [ reflexivity | ]. eapply sem_col_ext; [ apply sem_memk; exact S | ]. now intros.
        - exists (rmunit (pcol n)). split; [ reflexivity | ]. eapply sem_col_ext; [ apply sem_rmunit; exact S | ]. now intros.
        - exists (rmcomma (pcol n)). split; [ reflexivity | ]. eapply sem_col_ext; [ apply sem_rmcomma; exact S | ]. now intros. }
      destruct K as (c & Ec & Sc). cbn [t_convert_go]. rewrite Ec. cbn [rbind fc_alias fc_field]. fold nm.
      unfold d_with_column. replace (cl_unaliased c) with c.
      2: { symmetry. apply flat_cl, Sc. }
      apply (IH _ mid out Pl); [ | exact E2 ]. eapply with_column_sem; [ exact D | exact Pn | exact Sc | exact E1 ].
  Qed.

  (** ** rename, table, fields *)
  Lemma rename_go_ok : forall l d rows out, plain1 (CRename l) = true ->
    frame_sem d rows -> all_some (map (renamed l) rows) = Some out ->
    exists d', t_rename_go l d = Ok d' /\ frame_sem d' out.
  Proof.
    induction l as [|[e n] l IH]; intros d rows out P D E.
    - exists d. split; [ reflexivity | ]. change (renamed []) with (fun r : Row => Some r) in E.
      rewrite (all_some_total (fun r => r)), map_id in E. now injection E as <-.
    - cbn [plain1 forallb fst snd] in P. apply andb_true_iff in P. destruct P as [P Pl]. apply andb_true_iff in P. destruct P as [Pf Pn].
      destruct e as [[[]|?|?|?]|?|?|?|?|?|?|?|?|?]; try discriminate Pf. cbn [is_field] in Pf. cbn [t_rename_go].
      apply (IH _ (map (rename_cell s n) rows) out Pl).
      + eapply (step_sem sp db cmds vars pre inl d); [ exact D | | reflexivity | reflexivity | reflexivity ].
        cbn [plain_df]. now rewrite (proj1 D), Pf, Pn.
      + rewrite map_map. exact E.
  Qed.
  Lemma select_sem : forall d rows l, frame_sem d rows -> nonempty_list l = true -> forallb plain_name_text l = true ->
    frame_sem (DSelect d (map CNamed l)) (map (keep_cells l) rows).
  Proof.
    intros d rows l D N P. eapply (step_sem sp db cmds vars pre inl d); [ exact D | | reflexivity | reflexivity | ].
    - cbn [plain_df]. rewrite (proj1 D). destruct l as [|x l]; [ discriminate N | ]. cbn [nonempty map andb].
      change (CNamed x :: map CNamed l) with (map CNamed (x :: l)). clear - P. induction (x :: l) as [|y k IH]; [ reflexivity | ]. cbn [map forallb plain_col] in *.
      apply andb_true_iff in P. destruct P as [-> P]. now apply IH.
    - destruct l as [|x l]; [ discriminate N | ]. cbn [map frame_method]. cbn [String.eqb Ascii.eqb Bool.eqb]. cbv iota.
      change (col_tree (CNamed x) :: map col_tree (map CNamed l)) with (map col_tree (map CNamed (x :: l))).
      unfold map_rows. replace (all_some (map (select_row sp (map col_tree (map CNamed (x :: l)))) rows)) with (Some (map (keep_cells (x :: l)) rows)); [ reflexivity | ].
      rewrite <- (all_some_total (keep_cells (x :: l))). f_equal. apply map_ext. intro r. unfold select_row, keep_cells. rewrite !map_map.
      symmetry. rewrite <- (all_some_total (fun n => (n, cell n r))). reflexivity.
  Qed.

  (** ** head and sort *)
  Lemma limit_sem : forall d rows z, frame_sem d rows -> (0 <= z)%Z ->
    frame_sem (DLimit d z) (firstn (Z.to_nat z) rows).
  Proof.
    intros d rows z D Z0. eapply (step_sem sp db cmds vars pre inl d); [ exact D | | reflexivity | reflexivity | ].
    - cbn [plain_df]. exact (proj1 D).
    - cbn [frame_method]. cbn [String.eqb Ascii.eqb Bool.eqb]. cbv iota. unfold int_arg_of, py_int. rewrite lit_dec.
      apply Z.ltb_ge in Z0. now rewrite Z0.
  Qed.
  Lemma u64_small : forall z, (0 <= z < 2 ^ 64)%Z -> as_u64 z = z.
  Proof. intros z H. unfold as_u64. now apply Z.mod_small. Qed.
  Lemma while_firstn : forall b (kl : bool) rows i, (i <= b)%Z ->
    while_count (fun i => (i <? b)%Z) kl i rows = firstn (Z.to_nat (b - i + if kl then 1 else 0)) rows.
  Proof.
    intros b kl rows. induction rows as [|r rows IH]; intros i H; cbn [while_count]; [ now rewrite firstn_nil | ].
    destruct (i <? b)%Z eqn:E.
    - apply Z.ltb_lt in E. rewrite IH by lia.
      replace (Z.to_nat (b - i + (if kl then 1 else 0))) with (S (Z.to_nat (b - (i + 1) + (if kl then 1 else 0)))) by (destruct kl; lia).
      reflexivity.
    - apply Z.ltb_ge in E. assert (i = b) by lia. subst i. rewrite Z.sub_diag. now destruct kl.
  Qed.
  Lemma while_ext : forall f g kl rows i, (forall i, f i = g i) -> while_count f kl i rows = while_count g kl i rows.
  Proof. intros f g kl rows. induction rows as [|r rows IH]; intros i H; [ reflexivity | ]. cbn [while_count]. rewrite H. now rewrite (IH _ H). Qed.
  Lemma wrap_small : forall z, (0 <= z < 2 ^ 63)%Z -> wrap64 z = z.
  Proof. intros z H. unfold wrap64. rewrite Z.mod_small by lia. lia. Qed.

  Lemma field_count : forall c, String.eqb c "count" = true -> c = "count"%string.
  Proof. intros c H. now apply String.eqb_eq in H. Qed.
  Lemma head_limit_ok : forall e kl rows out, plain_head e kl = true -> head_rows e kl rows = Some out ->
    exists z, head_limit e kl = Ok z /\ (0 <= z < 2 ^ 63)%Z /\ out = firstn (Z.to_nat z) rows.
  Proof.
    intros e kl rows out P E. destruct e as [[k|?|?|?]|?|l op r|?|?|?|?|?|?|?]; try discriminate P.
    - destruct k; try discriminate P. cbn [plain_head head_rows head_limit] in *. unfold int64 in P.
      apply andb_true_iff in P. destruct P as [P P0]. apply andb_true_iff in P. destruct P as [P1 P2].
      apply Z.leb_le in P1, P0. apply Z.ltb_lt in P2. exists z. split; [ reflexivity | split; [ lia | ] ].
      destruct (z <? 0)%Z eqn:Z0; [ discriminate E | ]. now injection E as <-.
    - cbn [plain_head head_rows] in *. destruct (count_test l op r) as [test|] eqn:T; [ | discriminate P ]. cbn [option_map] in E. injection E as <-.
      unfold count_test in T.
      destruct l as [[kl'|?|?|?]|?|?|?|?|?|?|?|?|?]; try discriminate T; destruct kl'; try discriminate T;
      destruct r as [[kr|?|?|?]|?|?|?|?|?|?|?|?|?]; try discriminate T; destruct kr; try discriminate T;
      apply andb_true_iff in P; destruct P as [P1 P2]; apply Z.leb_le in P1; apply Z.ltb_lt in P2;
      match type of T with (if String.eqb ?c "count" then _ else _) = _ => destruct (String.eqb c "count") eqn:C; [ | discriminate T ]; apply field_count in C; subst c end.
      + destruct (String.eqb op ">") eqn:O1; [ | destruct (String.eqb op ">=") eqn:O2; [ | discriminate T ] ].
        * apply String.eqb_eq in O1. subst op. injection T as <-. cbn [head_limit andb negb String.eqb Ascii.eqb Bool.eqb rbind].
          eexists. split; [ reflexivity | ]. rewrite wrap_small by (destruct kl; lia). split; [ destruct kl; lia | ].
          rewrite (while_ext _ (fun i => (i <? z)%Z)) by (intro; apply Z.gtb_ltb). rewrite while_firstn by lia. now rewrite Z.sub_0_r.
        * apply String.eqb_eq in O2. subst op. injection T as <-. cbn [head_limit andb negb String.eqb Ascii.eqb Bool.eqb rbind].
          eexists. split; [ reflexivity | ]. rewrite (wrap_small (z + 1)) by lia. rewrite wrap_small by (destruct kl; lia). split; [ destruct kl; lia | ].
          rewrite (while_ext _ (fun i => (i <? z + 1)%Z)) by (intro i; rewrite Z.geb_leb; destruct (i <=? z)%Z eqn:A, (i <? z + 1)%Z eqn:B; try reflexivity; lia).
          rewrite while_firstn by lia. now rewrite Z.sub_0_r.
      + destruct (String.eqb op "<") eqn:O1; [ | destruct (String.eqb op "<=") eqn:O2; [ | discriminate T ] ].
        * apply String.eqb_eq in O1. subst op. injection T as <-. cbn [head_limit andb negb String.eqb Ascii.eqb Bool.eqb rbind].
          eexists. split; [ reflexivity | ]. rewrite wrap_small by (destruct kl; lia). split; [ destruct kl; lia | ].
          rewrite while_firstn by lia. now rewrite Z.sub_0_r.
        * apply String.eqb_eq in O2. subst op. injection T as <-. cbn [head_limit andb negb String.eqb Ascii.eqb Bool.eqb rbind].
          eexists. split; [ reflexivity | ]. rewrite (wrap_small (z + 1)) by lia. rewrite wrap_small by (destruct kl; lia). split; [ destruct kl; lia | ].
          rewrite (while_ext _ (fun i => (i <? z + 1)%Z)) by (intro i; destruct (i <=? z)%Z eqn:A, (i <? z + 1)%Z eqn:B; try reflexivity; lia).
          rewrite while_firstn by lia. now rewrite Z.sub_0_r.
  Qed.
  Lemma sort_keys_ok : forall l desc keys, forallb plain_sort_key l = true -> sort_keys l desc = Some keys ->
    exists cols, rtraverse (sort_key desc) l = Ok cols /\ all_some (map sort_key_of (map col_tree cols)) = Some keys /\
      forallb plain_col cols = true /\ length cols = length l.
  Proof.
    induction l as [|[sg e] l IH]; intros desc keys P E.
    - injection E as <-. exists []. repeat split.
    - cbn [forallb] in P. apply andb_true_iff in P. destruct P as [Pk P]. unfold sort_keys in E. cbn [map all_some fst snd] in E.
      unfold plain_sort_key in Pk. cbn [fst snd] in Pk. apply andb_true_iff in Pk. destruct Pk as [Pf Ps].
      destruct e as [[[]|?|?|?]|?|?|?|?|?|?|?|?|?]; try discriminate Pf. cbn [is_field] in Pf.
      assert (G : exists d, sort_direction sg desc = Ok d /\ (match sg with None => Some (s, desc) | Some s0 => if String.eqb s0 "+" then Some (s, desc) else if String.eqb s0 "-" then Some (s, negb desc) else None end) = Some (s, d)).
      { unfold sort_direction. destruct sg as [g|]; [ | eexists; split; reflexivity ].
        destruct (String.eqb g "+"); [ eexists; split; reflexivity | ]. destruct (String.eqb g "-"); [ eexists; split; reflexivity | discriminate Ps ]. }
      destruct G as (d & G1 & G2). rewrite G2 in E. fold (sort_keys l desc) in E.
      destruct (sort_keys l desc) as [ks|] eqn:Ek; [ | discriminate E ]. cbn [option_map] in E. injection E as <-.
      destruct (IH desc ks P Ek) as (cols & E1 & E2 & E3 & E4).
      exists (c_method (pcol s) (if d then "desc" else "asc") [] :: cols).
      rewrite rtraverse_cons. unfold sort_key at 1. cbn [fst snd]. rewrite G1. cbn [rbind]. rewrite E1. cbn [rbind].
      repeat split.
      + cbn [map all_some]. rewrite E2. destruct d; reflexivity.
      + cbn [forallb]. rewrite E3. unfold c_method, pcol. cbn [plain_col receiver plain_pexpr pe_unaliased pe_unaliased_with_name cl_unaliased_with_name fst forallb].
        rewrite Pf. destruct d; reflexivity.
      + cbn [length]. now rewrite E4.
  Qed.
  Lemma sort_ok : forall l count desc s rows out, plain1 (CSort l count desc) = true ->
    frame_sem (d_or_default s) rows -> sorted_rows sp l count desc rows = Some out ->
    exists d, t_sort l count desc s = Ok d /\ frame_sem d out.
  Proof.
    intros l count desc s rows out P D E. cbn [plain1] in P. unfold int64 in P.
    apply andb_true_iff in P. destruct P as [P P0]. apply andb_true_iff in P. destruct P as [P Pi].
    apply andb_true_iff in P. destruct P as [Pn Pk]. apply andb_true_iff in Pi. destruct Pi as [Pi1 Pi2].
    apply Z.leb_le in P0. apply Z.ltb_lt in Pi2. unfold sorted_rows in E.
    destruct (sort_keys l desc) as [keys|] eqn:Ek; [ | discriminate E ]. destruct keys as [|k keys]; [ discriminate E | ].
    destruct (sort_keys_ok l desc _ Pk Ek) as (cols & E1 & E2 & E3 & E4).
    assert (O : frame_sem (DOrderBy (d_or_default s) cols) (sp_sort sp (row_le (sp_le sp) (k :: keys)) rows)).
    { eapply (step_sem sp db cmds vars pre inl (d_or_default s)); [ exact D | | reflexivity | reflexivity | ].
      - cbn [plain_df]. rewrite (proj1 D), E3. destruct cols; [ discriminate E2 | reflexivity ].
      - cbn [frame_method]. cbn [String.eqb Ascii.eqb Bool.eqb]. cbv iota. now rewrite E2. }
    unfold t_sort. rewrite E1. cbn [rbind]. destruct (count =? 0)%Z eqn:C0.
    - injection E as <-. eexists. split; [ reflexivity | exact O ].
    - assert (Z0 : (count <? 0)%Z = false) by (apply Z.ltb_ge; lia). rewrite Z0 in E. injection E as <-.
      eexists. split; [ reflexivity | ]. rewrite u64_small by lia. now apply limit_sem.
  Qed.

  (** ** stats *)
  Definition stat_entry (n g : string) : Prop :=
    existsb (String.eqb n) stats_unsupported = false /\
    (n = "count"%string /\ g = "count"%string \/ assoc n stats_unary = Some g) /\
    fn_name g = true /\ str_in g aggregate_functions = true.
  Lemma stat_entries : forall n g, lookup_name n stats_functions = Some g -> stat_entry n g.
  Proof. apply entries. repeat (apply Forall_cons; [ vm_compute; auto | ]). apply Forall_nil. Qed.
  Lemma agg_alias : forall c nm n, flat c -> cl_with_alias (cl_maybe_with_alias (ft_out nm c) None) n = CAliased (PCol c) n.
  Proof.
    intros c nm n F. cbn [cl_maybe_with_alias]. unfold cl_with_alias, ft_out, c_aliased. rewrite (flat_cl c F), (flat_pe c F).
    unfold cl_unaliased. cbn [cl_unaliased_with_name fst]. rewrite flat_unaliased by exact F. cbn [fst]. now rewrite (flat_pe c F).
  Qed.
  Lemma out_alias : forall c nm, flat c -> ft_out nm c = CAliased (PCol c) nm.
  Proof. intros c nm F. unfold ft_out, c_aliased. now rewrite (flat_cl c F), (flat_pe c F). Qed.
  (** The values of an expression in the rows *)
  Definition val_of (a : Expr) (r : Row) : Val := match ev sp r a with Some v => v | None => SNull end.
  Lemma vals_of : forall a rows vs, all_some (map (fun r => ev sp r a) rows) = Some vs ->
    vs = map (val_of a) rows /\ forall r, In r rows -> ev sp r a = Some (val_of a r).
  Proof.
    intros a rows. induction rows as [|r rows IH]; intros vs E; [ injection E as <-; split; [ reflexivity | intros r [] ] | ].
    cbn [map all_some] in E. destruct (ev sp r a) as [v|] eqn:Er; [ | discriminate E ].
    destruct (all_some (map (fun r => ev sp r a) rows)) as [l|]; [ | discriminate E ]. injection E as <-.
    destruct (IH l eq_refl) as [-> H]. assert (Vr : val_of a r = v) by (unfold val_of; now rewrite Er). split.
    - cbn [map]. now rewrite Vr.
    - intros r' [<-|I]; [ now rewrite Vr | now apply H ].
  Qed.
  Lemma args_total : forall ts rows (h : Row -> list FArg), (forall r, In r rows -> arg_vals sp r ts = Some (h r)) ->
    all_some (map (fun r => arg_vals sp r ts) rows) = Some (map h rows).
  Proof.
    intros ts rows h. induction rows as [|r rows IH]; intro H; [ reflexivity | ]. cbn [map all_some].
    rewrite (H r (or_introl eq_refl)), IH; [ reflexivity | ]. intros r' I. apply H. now right.
  Qed.
  Lemma agg_total : forall g t ts rows (h : Row -> list FArg), str_in g aggregate_functions = true ->
    (forall r, In r rows -> arg_vals sp r (t :: ts) = Some (h r)) -> agg_val sp rows (py_F g (t :: ts)) = Some (sp_agg sp g (map h rows)).
  Proof.
    intros g t ts rows h A H. unfold py_F. cbn [agg_val]. rewrite A. change (String.eqb "F" "F" && true) with true. cbv iota.
    now rewrite (args_total (t :: ts) rows h H).
  Qed.
  Lemma flat_arg : forall x r v, flat x -> plain_col x = true -> cv sp r (col_tree x) = Some v ->
    option_map (py_arg (col_tree x)) (cv sp r (col_tree x)) = Some (AVal v).
  Proof. intros x r v F P E. rewrite E. cbn [option_map]. unfold py_arg. now rewrite flat_not_literal. Qed.
  (** What generated aggregation c has to do *)
  Definition computes_stat (c : ColumnLike) (g : Stat) (args : list Expr) : Prop :=
    flat c /\ plain_col c = true /\ receiver (PCol c) = true /\
    forall rows v, group_value sp g args rows = Some v -> agg_val sp rows (col_tree c) = Some v.
  Lemma fn_name_parts : forall g, fn_name g = true -> contains "." g = false /\ py_ident g = true.
  Proof.
    intros g N. unfold fn_name in N. apply andb_true_iff in N. destruct N as [N Nd]. apply andb_true_iff in N. destruct N as [_ Ni].
    apply negb_true_iff in Nd. now split.
  Qed.
  Lemma plain_stat : forall g a x, fn_name g = true -> str_in g aggregate_functions = true ->
    flat x -> plain_col x = true -> (forall row v, ev sp row a = Some v -> cv sp row (col_tree x) = Some v) ->
    computes_stat (c_func g [PCol x]) (SPlain g) [a].
  Proof.
    intros g a x N A F Px Hx. destruct (fn_name_parts g N) as [Nd Ni].
    assert (TR : col_tree (c_func g [PCol x]) = py_F g [col_tree x]) by (cbn [c_func col_tree map pexpr_tree]; now rewrite Nd).
    repeat split; [ cbn [c_func plain_col forallb plain_pexpr]; now rewrite Nd, Ni, Px | ].
    intros rows v Ev. rewrite TR. cbn [group_value] in Ev.
    destruct (all_some (map (fun r => ev sp r a) rows)) as [vs|] eqn:Evs; [ | discriminate Ev ]. injection Ev as <-.
    destruct (vals_of a rows vs Evs) as [-> H]. rewrite map_map.
    apply (agg_total g (col_tree x) [] rows (fun r => [AVal (val_of a r)]) A).
    intros r I. unfold arg_vals. cbn [map all_some]. now rewrite (flat_arg x r _ F Px (Hx r _ (H r I))).
  Qed.
  Lemma with_stat : forall g l u a x st, fn_name g = true -> str_in g aggregate_functions = true -> plain_pexpr u = true ->
    (forall r, option_map (py_arg (pexpr_tree u)) (cv sp r (pexpr_tree u)) = Some l) ->
    st = SWith g l \/ st = SOrdered g /\ l = ALit (SBool true) ->
    flat x -> plain_col x = true -> (forall row v, ev sp row a = Some v -> cv sp row (col_tree x) = Some v) ->
    computes_stat (c_func g [PCol x; u]) st [a].
  Proof.
    intros g l u a x st N A Pu Hu St F Px Hx. destruct (fn_name_parts g N) as [Nd Ni].
    assert (TR : col_tree (c_func g [PCol x; u]) = py_F g [col_tree x; pexpr_tree u]) by (cbn [c_func col_tree map pexpr_tree]; now rewrite Nd).
    repeat split; [ unfold c_func; cbn [plain_col forallb]; rewrite Nd, Ni; change (plain_pexpr (PCol x)) with (plain_col x); now rewrite Px, Pu | ].
    intros rows v Ev. rewrite TR. cbn [group_value] in Ev.
    destruct (all_some (map (fun r => ev sp r a) rows)) as [vs|] eqn:Evs; [ | discriminate Ev ].
    destruct (vals_of a rows vs Evs) as [-> H].
    assert (E : v = sp_agg sp g (map (fun r => [AVal (val_of a r); l]) rows)).
    { destruct St as [-> |[-> ->]]; injection Ev as <-; now rewrite map_map. }
    rewrite E. apply (agg_total g (col_tree x) [pexpr_tree u] rows (fun r => [AVal (val_of a r); l]) A).
    intros r I. unfold arg_vals. cbn [map all_some]. now rewrite (flat_arg x r _ F Px (Hx r _ (H r I))), Hu.
  Qed.
  Lemma time_col : forall g, fn_name g = true -> str_in g aggregate_functions = true -> forall rows,
    agg_val sp rows (col_tree (c_func g [pcol "_time"])) = Some (sp_agg sp g (map (fun r => [AVal (cell "_time" r)]) rows)).
  Proof.
    intros g N A rows. destruct (fn_name_parts g N) as [Nd Ni]. cbn [c_func col_tree map pexpr_tree pcol]. rewrite Nd.
    apply (agg_total g _ [] rows (fun r => [AVal (cell "_time" r)]) A). intros r _. reflexivity.
  Qed.
  (** The percentiles *)
  Definition percentile_entry (f : string) (st : Stat) : Prop :=
    exists nm g p v, (forall args d, stats_fn_bare f args d = rmap (fun c => (d, c)) (ft1 nm args (fun x => Ok (c_func g [x; PyLit p])))) /\
      st = SWith g (ALit v) /\ fn_name g = true /\ str_in g aggregate_functions = true /\ plain_code p = true /\ code_tree p = PNum p /\ num_val p = v.
  Lemma stat_table : forall (Q : string -> Stat -> Prop) l, Forall (fun p => Q (fst p) (snd p)) l ->
    forall n g, lookup_stat n l = Some g -> Q n g.
  Proof.
    intros Q l H n g. induction H as [|[m h] l Hq _ IH]; cbn [lookup_stat]; [ discriminate | ].
    destruct (String.eqb n m) eqn:E; [ | exact IH ]. apply String.eqb_eq in E. subst m. intro K. injection K as <-. exact Hq.
  Qed.
  Definition lit_is (p : string) (st : Stat) (g : string) : bool :=
    plain_code p && match code_tree p with PNum q => String.eqb q p | _ => false end
    && match st with SWith g' (ALit (SNum q)) => String.eqb g' g && String.eqb q p | _ => false end
    && match num_val p with SNum q => String.eqb q p | _ => false end.
  Definition percentile_check (nf : string * Stat) : bool :=
    let f := fst nf in
    negb (existsb (String.eqb f) stats_unsupported) && match assoc f stats_unary with None => true | _ => false end
    && negb (String.eqb f "count") && negb (String.eqb f "median") && negb (String.eqb f "range") && negb (String.eqb f "sumsq")
    && (let lit prefix g := match parse_u32 (replace_all prefix "" f) with Ok p => lit_is (dec_hundredths p) (snd nf) g | _ => false end in
        if starts_with "exactperc" f then lit "exactperc" "percentile"
        else if starts_with "percentile" f then lit "percentile" "percentile_approx"
        else starts_with "upperperc" f && lit "upperperc" "percentile_approx")%string.
  Lemma lit_is_ok : forall p st g, lit_is p st g = true ->
    st = SWith g (ALit (num_val p)) /\ plain_code p = true /\ code_tree p = PNum p.
  Proof.
    intros p st g H. unfold lit_is in H. apply andb_true_iff in H. destruct H as [H Hn]. apply andb_true_iff in H. destruct H as [H Hs].
    apply andb_true_iff in H. destruct H as [Hp Ht].
    destruct (code_tree p); try discriminate Ht. apply String.eqb_eq in Ht. subst s.
    destruct (num_val p); try discriminate Hn. apply String.eqb_eq in Hn. subst text.
    destruct st as [|g' [|[]]| | | |]; try discriminate Hs. apply andb_true_iff in Hs. destruct Hs as [H1 H2].
    apply String.eqb_eq in H1, H2. subst. repeat split. exact Hp.
  Qed.
  Lemma percentile_entries : forall f st, lookup_stat f percentiles = Some st -> percentile_entry f st.
  Proof.
    assert (C : forallb percentile_check percentiles = true) by (vm_compute; reflexivity).
    apply stat_table. rewrite Forall_forall. intros [f st] I. rewrite forallb_forall in C. specialize (C _ I). clear I.
    unfold percentile_check in C. cbn [fst snd] in *. cbv zeta in C.
    repeat (apply andb_true_iff in C; let C' := fresh "C" in destruct C as [C C']).
    unfold percentile_entry. 
    destruct (assoc f stats_unary) eqn:Ea; [ discriminate | ].
    repeat match goal with H : negb _ = true |- _ => apply negb_true_iff in H end.
    unfold stats_fn_bare. rewrite C. rewrite Ea.
    repeat match goal with H : String.eqb f _ = false |- _ => rewrite H; clear H end.
    unfold stats_perc.
    destruct (starts_with "exactperc" f); [ | destruct (starts_with "percentile" f); [ | destruct (starts_with "upperperc" f); [ | discriminate ] ] ];
      cbn [andb] in *; destruct (parse_u32 _) as [p| |]; try discriminate;
      match goal with H : lit_is _ _ ?g = true |- _ => destruct (lit_is_ok _ _ _ H) as (E1 & E2 & E3);
        eexists _, g, (dec_hundredths p), (num_val (dec_hundredths p)) end;
      (split; [ intros; reflexivity | repeat split; auto ]).
  Qed.
  (** A call of an aggregate function *)
  Definition sorted_if (g : Stat) (d : DataFrame) : DataFrame := if timed g then order_by_time d else d.
  Lemma sumsq_stat : forall a x, flat x -> plain_col x = true -> (forall row v, ev sp row a = Some v -> cv sp row (col_tree x) = Some v) ->
    computes_stat (c_func "sum" [pbin (PCol x) "*" (PCol x)]) SSquares [a].
  Proof.
    intros a x F Px Hx. repeat split.
    - unfold c_func, pbin, c_binary. rewrite (flat_pe x F). cbn [plain_col forallb plain_pexpr]. rewrite Px. reflexivity.
    - intros rows v Ev. cbn [group_value] in Ev.
      destruct (all_some (map (fun r => ev sp r a) rows)) as [vs|] eqn:Evs; [ | discriminate Ev ]. injection Ev as <-.
      destruct (vals_of a rows vs Evs) as [-> H]. rewrite map_map.
      unfold c_func, pbin, c_binary. rewrite (flat_pe x F). cbn [col_tree map pexpr_tree]. change (contains "." "sum") with false. cbv iota.
      apply (agg_total "sum" (PBin "*" (col_tree x) (col_tree x)) [] rows (fun r => [AVal (lifted (sp_arith sp "*") (val_of a r) (val_of a r))]) eq_refl).
      intros r I. unfold arg_vals. cbn [map all_some]. unfold cv. cbn [cvx]. fold (cv sp r (col_tree x)).
      rewrite (Hx r _ (H r I)). destruct (val_of a r); reflexivity.
  Qed.
  Lemma time_stat : forall g a, fn_name g = true -> str_in g aggregate_functions = true ->
    computes_stat (c_func g [pcol "_time"]) (STimeOf g) [a].
  Proof.
    intros g a N A. destruct (fn_name_parts g N) as [Nd Ni]. repeat split.
    - unfold c_func. cbn [plain_col forallb plain_pexpr pcol]. now rewrite Nd, Ni.
    - intros rows v Ev. rewrite (time_col g N A rows). cbn [group_value] in Ev.
      destruct (all_some _); [ | discriminate Ev ]. cbv zeta in Ev. destruct (forallb not_null _); [ exact Ev | discriminate Ev ].
  Qed.
  Lemma rate_stat : forall a x, flat x -> plain_col x = true -> (forall row v, ev sp row a = Some v -> cv sp row (col_tree x) = Some v) ->
    computes_stat (c_binary (pbin (pfun "last" [PCol x]) "-" (pfun "first" [PCol x])) "/"
                   (pbin (pfun "max" [pcol "_time"]) "-" (pfun "min" [pcol "_time"]))) SRate [a].
  Proof.
    intros a x F Px Hx. repeat split.
    - unfold pbin, pfun, c_binary. rewrite !flat_pe by exact I. unfold c_func, pcol. cbn [plain_col forallb plain_pexpr]. now rewrite Px.
    - intros rows v Ev.
      destruct (plain_stat "last" a x eq_refl eq_refl F Px Hx) as (_ & _ & _ & HL).
      destruct (plain_stat "first" a x eq_refl eq_refl F Px Hx) as (_ & _ & _ & HF).
      specialize (HL rows). specialize (HF rows). cbn [group_value] in *.
      destruct (all_some (map (fun r => ev sp r a) rows)) as [vs|]; [ | discriminate Ev ].
      cbv zeta in *. destruct (forallb not_null vs); [ | discriminate Ev ]. injection Ev as <-.
      specialize (HL _ eq_refl). specialize (HF _ eq_refl).
      pose proof (time_col "max" eq_refl eq_refl rows) as HM. pose proof (time_col "min" eq_refl eq_refl rows) as Hm.
      change (match (match agg_val sp rows (col_tree (c_func "last" [PCol x])), agg_val sp rows (col_tree (c_func "first" [PCol x])) with
                     | Some u, Some w => bin_val sp "-" u w | _, _ => None end),
                    (match agg_val sp rows (col_tree (c_func "max" [pcol "_time"])), agg_val sp rows (col_tree (c_func "min" [pcol "_time"])) with
                     | Some u, Some w => bin_val sp "-" u w | _, _ => None end) with
              | Some u, Some w => bin_val sp "/" u w | _, _ => None end = Some (lifted (sp_arith sp "/")
                (lifted (sp_arith sp "-") (sp_agg sp "last" (map (fun v => [AVal v]) vs)) (sp_agg sp "first" (map (fun v => [AVal v]) vs)))
                (lifted (sp_arith sp "-") (sp_agg sp "max" (map (fun r => [AVal (cell "_time" r)]) rows)) (sp_agg sp "min" (map (fun r => [AVal (cell "_time" r)]) rows))))).
      rewrite HL, HF, HM, Hm.
      generalize (sp_agg sp "last" (map (fun v => [AVal v]) vs)) (sp_agg sp "first" (map (fun v => [AVal v]) vs)).
      generalize (sp_agg sp "max" (map (fun r => [AVal (cell "_time" r)]) rows)) (sp_agg sp "min" (map (fun r => [AVal (cell "_time" r)]) rows)).
      intros t1 t2 v1 v2.
      assert (B : forall op u w, str_in op arithmetic_ops = true -> String.eqb op "&" = false -> String.eqb op "|" = false ->
        str_in op comparison_ops = false -> bin_val sp op u w = Some (lifted (sp_arith sp op) u w)).
      { intros op u w H1 H2 H3 H4. unfold bin_val. rewrite H1, H2, H3, H4. destruct u, w; reflexivity. }
      rewrite (B "-" v1 v2), (B "-" t1 t2) by reflexivity. now rewrite B by reflexivity.
  Qed.
  Lemma stats_one : forall f g a d, stat_of f = Some g -> plain_expr true a = true ->
    exists nm c, stats_fn_bare f (with_args Disallow [a]) d = Ok (sorted_if g d, CAliased (PCol c) nm) /\
      (str_in f (map fst percentiles) = false -> nm = f) /\ computes_stat c g [a].
  Proof.
    intros f g a d E P. destruct (arg_ok a (expr_ok Disallow true (fun _ => eq_refl) a P)) as (x & Ex & F & Px & Hx).
    specialize (Hx sp).
    unfold stat_of in E. destruct (lookup_name f stats_functions) as [g'|] eqn:L.
    - injection E as <-. destruct (stat_entries f g' L) as (U & K & N & A).
      exists f, (c_func g' [PCol x]). split; [ | split; [ reflexivity | now apply plain_stat ] ].
      unfold stats_fn_bare. rewrite U. cbn [with_args map].
      destruct K as [[-> ->]|K].
      + change (assoc "count" stats_unary) with (@None string). cbv iota. change (String.eqb "count" "count") with true. cbv iota.
        unfold ft_map, map_args. rewrite rtraverse_cons. rewrite Ex. unfold rmap. cbn [rbind rtraverse]. rewrite <- (out_alias (c_func "count" [PCol x]) "count") by exact I. reflexivity.
      + rewrite K. unfold ft1. rewrite Ex. cbn [rbind]. unfold rmap. cbn [rbind]. rewrite out_alias by exact I. reflexivity.
    - assert (K : lookup_stat f other_stats = Some g \/ lookup_stat f percentiles = Some g).
      { revert E. clear. generalize other_stats. induction l as [|[n s] l IH]; cbn [app lookup_stat]; [ auto | ].
        destruct (String.eqb f n); [ auto | exact IH ]. }
      destruct K as [K|K].
      + unfold other_stats in K. cbn [lookup_stat] in K.
        assert (B : plain_pexpr (pylit_bool true) = true /\ forall r, option_map (py_arg (pexpr_tree (pylit_bool true))) (cv sp r (pexpr_tree (pylit_bool true))) = Some (ALit (SBool true))) by (split; reflexivity).
        destruct B as [B1 B2].
        repeat match type of K with
        | (if String.eqb f ?n then _ else _) = _ => let Hn := fresh in destruct (String.eqb f n) eqn:Hn;
            [ apply String.eqb_eq in Hn; subst f; injection K as <-; exists n; eexists;
              split; [ unfold stats_fn_bare; cbn [with_args map]; cbn [existsb stats_unsupported String.eqb Ascii.eqb Bool.eqb orb assoc stats_unary];
                repeat match goal with |- context [starts_with ?p ?q] => change (starts_with p q) with false end; cbv iota;
                unfold ft1, ft_map, map_args; rewrite ?rtraverse_cons, Ex; unfold rmap; cbn [rbind rtraverse]; rewrite out_alias by exact I; reflexivity
              | split; [ reflexivity | ] ] | ]
        end; [ | | | | | | | | | discriminate K ].
        * apply (with_stat "percentile_approx" (AVal (SNum "0.5")) (plit "0.5") a x); auto.
        * apply (with_stat "first" (ALit (SBool true)) _ a x); auto.
        * apply (with_stat "last" (ALit (SBool true)) _ a x); auto.
        * now apply sumsq_stat.
        * apply (with_stat "first" (ALit (SBool true)) _ a x); auto.
        * apply (with_stat "last" (ALit (SBool true)) _ a x); auto.
        * now apply time_stat.
        * now apply time_stat.
        * now apply rate_stat.
      + destruct (percentile_entries f g K) as (nm & h & p & v & S & -> & N & A & Pp & Tp & V).
        exists nm, (c_func h [PCol x; PyLit p]). rewrite S. split; [ | split ].
        * cbn [with_args map]. unfold ft1. rewrite Ex. unfold rmap. cbn [rbind]. rewrite out_alias by exact I. reflexivity.
        * intro NP. exfalso. assert (T : str_in f (map fst percentiles) = true); [ | congruence ].
          clear - K. revert K. generalize percentiles. induction l as [|[n s] l IH]; cbn [lookup_stat map str_in existsb fst]; [ discriminate | ].
          destruct (String.eqb f n); [ reflexivity | exact IH ].
        * apply (with_stat h (ALit v) (PyLit p) a x (SWith h (ALit v))); auto. cbn [pexpr_tree]. rewrite Tp. intro r. rewrite <- V. reflexivity.
  Qed.
  Lemma stats_call : forall f g args d, stat_of f = Some g ->
    match args with [] => f = "count"%string | [a] => plain_expr true a = true | _ => False end ->
    exists nm c, stats_fn_bare f (with_args Disallow args) d = Ok (sorted_if g d, CAliased (PCol c) nm) /\
      (str_in f (map fst percentiles) = false -> nm = f) /\ computes_stat c g args.
  Proof.
    intros f g args d E H. destruct args as [|a [|b args]]; [ | now apply stats_one | contradiction ].
    subst f. injection E as <-. exists "count"%string, (c_func "count" [plit "1"]).
    split; [ reflexivity | split; [ reflexivity | repeat split ] ]. intros rows v E.
    cbn [group_value] in E. change (String.eqb "count" "count") with true in E. cbv iota in E. injection E as <-.
    apply (agg_total "count" (py_F "lit" [PNum "1"]) [] rows (fun _ => [AVal (SInt 1)]) eq_refl). reflexivity.
  Qed.
  Definition agg_ok (e : Expr) (c : ColumnLike) : Prop :=
    plain_col c = true /\ exists n g args t, aggregation e = Some (n, g, args) /\ col_tree c = py_method t "alias" [PStr n] /\
      forall rows v, group_value sp g args rows = Some v -> agg_val sp rows t = Some v.
  Lemma agg_expr_ok : forall e n g args d, plain_agg e = true -> aggregation e = Some (n, g, args) ->
    exists c, transform_stats_expr Disallow d e = Ok (sorted_if g d, c) /\ agg_ok e c.
  Proof.
    intros e n g args d P Ea. unfold plain_agg in P. rewrite Ea in P.
    apply andb_true_iff in P. destruct P as [Pn Pa]. apply andb_true_iff in Pn. destruct Pn as [Pn Pp].
    assert (K : exists f, stat_of f = Some g /\
       (e = ECall f args /\ n = f /\ str_in f (map fst percentiles) = false \/ e = EAlias (ECall f args) n) /\
       match args with [] => f = "count"%string | [a] => plain_expr true a = true | _ => False end).
    { unfold aggregation in Ea. destruct e as [?|?|?|?|f l|?|e m|?|?|?]; try discriminate Ea.
      - destruct (stat_of f) as [g'|] eqn:L; [ | discriminate Ea ]. injection Ea as <- <- <-. apply negb_true_iff in Pp.
        exists f. split; [ exact L | split; [ now left | ] ]. destruct l as [|a [|b l]]; [ now apply String.eqb_eq | exact Pa | discriminate Pa ].
      - destruct e as [?|?|?|?|f l|?|?|?|?|?]; try discriminate Ea.
        destruct (stat_of f) as [g'|] eqn:L; [ | discriminate Ea ]. injection Ea as <- <- <-.
        exists f. split; [ exact L | split; [ now right | ] ]. destruct l as [|a [|b l]]; [ now apply String.eqb_eq | exact Pa | discriminate Pa ]. }
    destruct K as (f & L & S & A). destruct (stats_call f g args d L A) as (nm & c & Ec & Nm & F & Pc & Rc & V).
    exists (CAliased (PCol c) n). split.
    - destruct S as [(-> & -> & S)| ->].
      + unfold transform_stats_expr, stats_fn. cbn [expr_unaliased_with_name]. rewrite Ec, (Nm S). reflexivity.
      + unfold transform_stats_expr, stats_fn. cbn [expr_unaliased_with_name fst]. rewrite Ec. cbn [rbind cl_maybe_with_alias].
        unfold cl_with_alias, cl_unaliased, c_aliased. cbn [cl_unaliased_with_name]. rewrite (flat_unaliased c F). cbn [fst]. now rewrite (flat_pe c F).
    - split.
      + change (receiver (PCol c) && plain_col c && plain_name_text n = true). now rewrite Rc, Pc, Pn.
      + exists n, g, args, (col_tree c). split; [ exact Ea | split; [ reflexivity | exact V ] ].
  Qed.

  Lemma order_sem : forall d rows, frame_sem d rows -> frame_sem (order_by_time d) (in_time sp rows).
  Proof.
    intros d rows D. unfold order_by_time.
    eapply (step_sem sp db cmds vars pre inl d); [ exact D | | reflexivity | reflexivity | ].
    - cbn [plain_df]. now rewrite (proj1 D).
    - reflexivity.
  Qed.
  Lemma aggs_ok : forall l aggs d, forallb plain_agg l = true -> all_some (map aggregation l) = Some aggs ->
    exists cs d', transform_stats_exprs Disallow d l = Ok (d', cs) /\ Forall2 agg_ok l cs /\
      forall rows, frame_sem d rows -> frame_sem d' (in_order sp aggs rows).
  Proof.
    induction l as [|e l IH]; intros aggs d P E.
    { injection E as <-. exists [], d. split; [ reflexivity | split; [ constructor | auto ] ]. }
    cbn [forallb] in P. apply andb_true_iff in P. destruct P as [Pe Pl]. cbn [map all_some] in E.
    destruct (aggregation e) as [[[n g] args]|] eqn:Ea; [ | discriminate E ].
    destruct (all_some (map aggregation l)) as [aggs'|]; [ | discriminate E ]. injection E as <-.
    destruct (agg_expr_ok e n g args d Pe Ea) as (c & Ec & A).
    destruct (IH aggs' (sorted_if g d) Pl eq_refl) as (cs & d' & Es & As & S). exists (c :: cs), d'.
    split; [ | split; [ now constructor | ] ]. 
    - cbn [transform_stats_exprs]. rewrite Ec. cbn [rbind]. rewrite Es. reflexivity.
    - intros rows D. cbn [in_order fst snd]. apply S. unfold sorted_if. destruct (timed g); [ now apply order_sem | exact D ].
  Qed.
  Lemma aggregate_ok : forall funcs cs keys rows out aggs, Forall2 agg_ok funcs cs -> all_some (map aggregation funcs) = Some aggs ->
    all_some (map (fun k => option_map (app (combine keys k))
            (all_some (map (fun a => option_map (pair (fst (fst a))) (group_value sp (snd (fst a)) (snd a) (group_rows keys rows k))) aggs)))
          (match keys with [] => [[]] | _ => distinct_keys [] (map (key_of keys) rows) end)) = Some out ->
    aggregate sp keys rows (map col_tree cs) = Some out.
  Proof.
    intros funcs cs keys rows out aggs A E G. unfold aggregate.
    assert (K : exists named, all_some (map (fun a => option_map (fun n => (n, unalias a)) (out_name a)) (map col_tree cs)) = Some named /\
       Forall2 (fun a na => fst na = fst (fst a) /\ forall rows v, group_value sp (snd (fst a)) (snd a) rows = Some v -> agg_val sp rows (snd na) = Some v) aggs named).
    { clear G out. revert aggs E. induction A as [|e c l cs (P & n & g & args & t & Ea & Et & V) _ IH]; intros aggs E.
      - injection E as <-. exists []. split; [ reflexivity | constructor ].
      - cbn [map all_some] in *. rewrite Ea in E. destruct (all_some (map aggregation l)) as [aggs'|]; [ | discriminate E ]. injection E as <-.
        destruct (IH aggs' eq_refl) as (named & E1 & F). rewrite E1. exists ((n, t) :: named). split.
        + rewrite Et. reflexivity.
        + constructor; [ split; [ reflexivity | exact V ] | exact F ]. }
    destruct K as (named & -> & F).
    eapply all_some_ext; [ exact G | ]. intros k row Hk Hr. cbv beta in *.
    destruct (all_some (map (fun a => option_map (pair (fst (fst a))) (group_value sp (snd (fst a)) (snd a) (group_rows keys rows k))) aggs)) as [cells|] eqn:Ec; [ | discriminate Hr ].
    replace (all_some (map (fun na => option_map (pair (fst na)) (agg_val sp (group_rows keys rows k) (snd na))) named)) with (Some cells); [ exact Hr | ].
    symmetry. clear - F Ec. revert cells Ec. induction F as [|a na aggs named [E V] _ IH]; intros cells Ec; [ exact Ec | ].
    cbn [map all_some] in *. destruct (group_value sp (snd (fst a)) (snd a) (group_rows keys rows k)) as [v|] eqn:Ev; [ | discriminate ].
    rewrite (V _ _ Ev), E. cbn [option_map] in *. destruct (all_some (map _ aggs)) as [l|]; [ | discriminate ]. now rewrite (IH l eq_refl).
  Qed.
  Lemma by_ok : forall by_ keys, match by_ with None => true | Some l => forallb (fun f => match msf_span f with None => plain_between dquote (msf_field f) | Some _ => false end) l end = true ->
    by_names by_ = Some keys -> match by_ with Some l => map transform_by_field l | None => [] end = map CNName keys /\ forallb plain_con (map CNName keys) = true.
  Proof.
    intros [l|] keys P E; [ | injection E as <-; split; reflexivity ]. cbn [by_names] in E. revert keys E.
    induction l as [|f l IH]; intros keys E; [ injection E as <-; split; reflexivity | ].
    cbn [forallb map all_some] in *. apply andb_true_iff in P. destruct P as [Pf Pl].
    unfold transform_by_field at 1. destruct (msf_span f) eqn:S; [ discriminate Pf | ].
    destruct (all_some _) as [ks|]; [ | discriminate E ]. injection E as <-. destruct (IH Pl ks eq_refl) as [-> E2].
    split; [ reflexivity | ]. cbn [map forallb plain_con]. now rewrite Pf, E2.
  Qed.
  Lemma names_items : forall keys, str_items (map con_tree (map CNName keys)) = Some keys.
  Proof. unfold str_items. induction keys as [|k keys IH]; [ reflexivity | ]. cbn [map all_some con_tree]. now rewrite IH. Qed.
  Lemma stats_ok : forall p funcs by_ s rows out, plain1 (CStats p funcs by_) = true ->
    frame_sem (d_or_default s) rows -> stats_rows sp funcs by_ rows = Some out ->
    exists d, t_stats_standalone Disallow funcs by_ s = Ok d /\ frame_sem d out.
  Proof.
    intros p funcs by_ s rows out P D E. cbn [plain1] in P. apply andb_true_iff in P. destruct P as [P Pb].
    apply andb_true_iff in P. destruct P as [Pn Pf]. unfold stats_rows in E.
    destruct (all_some (map aggregation funcs)) as [aggs|] eqn:Ea; [ | discriminate E ].
    destruct (by_names by_) as [keys|] eqn:Eb; [ | discriminate E ].
    destruct (aggs_ok funcs aggs (d_or_default s) Pf Ea) as (cs & d' & Ec & A & O). specialize (O rows D). clear D. rename O into D.
    destruct (by_ok by_ keys Pb Eb) as [B1 B2].
    unfold t_stats_standalone. rewrite Ec. cbn [rbind]. rewrite B1. eexists. split; [ reflexivity | ].
    cbv zeta in E. set (rows' := in_order sp aggs rows) in *.
    assert (G : obj_sem (DGroupBy d' (map CNName keys)) (OGrouped keys rows')).
    { eapply (step_sem sp db cmds vars pre inl d'); [ exact D | | reflexivity | reflexivity | ].
      - cbn [plain_df]. now rewrite (proj1 D), B2.
      - cbn [frame_method]. cbn [String.eqb Ascii.eqb Bool.eqb]. cbv iota. now rewrite names_items. }
    eapply (step_sem sp db cmds vars pre inl (DGroupBy d' (map CNName keys))); [ exact G | | reflexivity | reflexivity | ].
    - cbn [plain_df]. rewrite (proj1 D), B2. assert (N : nonempty cs = true) by (destruct A; [ discriminate Pn | reflexivity ]).
      rewrite N. cbn [andb]. clear - A. induction A as [|e c l cs [Pc _] _ IH]; [ reflexivity | ]. cbn [forallb]. now rewrite Pc.
    - cbn [frame_method]. cbn [String.eqb Ascii.eqb Bool.eqb]. cbv iota. now rewrite (aggregate_ok funcs cs keys rows' out aggs A Ea E).
  Qed.

  (** ** addtotals and fillnull *)
  Lemma term_sem : forall n, plain_name_text n = true ->
    sem_col (addtotals_term n) (fun sp r => Some (if numeric sp (cell n r) then cell n r else zero)).
  Proof.
    intros n P. split; [ exact I | split ].
    - unfold addtotals_term, pfun, pmeth, c_method, c_func, pcol, plit, pylit_str.
      cbn [plain_col plain_pexpr receiver forallb pe_unaliased pe_unaliased_with_name cl_unaliased_with_name fst map contains].
      change (contains "." "when") with false. cbv iota. rewrite P. reflexivity.
    - intros sp' r v E. injection E as <-. unfold addtotals_term, pfun, pmeth, c_method, c_func, pcol, plit, pylit_str, numeric, not_null.
      cbn [pe_unaliased pe_unaliased_with_name cl_unaliased_with_name fst map col_tree pexpr_tree].
      change (contains "." "when") with false. cbv iota. change (code_tree (dq ++ "double" ++ dq)) with (PStr "double").
      change (code_tree "0.0") with (PNum "0.0"). unfold SpecSpark.cv, py_F, py_method. cbn.
      destruct (is_null (sp_method sp' "cast" (cell n r) [ALit (SStr "double")])); reflexivity.
  Qed.
  Lemma total_col : forall l acc (g : Meaning), forallb plain_name_text l = true -> sem_col acc g ->
    sem_col (fold_left (fun a x => CBinaryOp "+" (PCol a) (PCol x)) (map addtotals_term l) acc)
      (fun sp r => option_map (fun v => fold_left (lifted (sp_arith sp "+")) (map (fun f => if numeric sp (cell f r) then cell f r else zero) l) v) (g sp r)).
  Proof.
    induction l as [|n l IH]; intros acc g P S.
    - eapply sem_col_ext; [ exact S | ]. intros sp' r v E. cbn [map fold_left] in E. now destruct (g sp' r).
    - cbn [forallb] in P. apply andb_true_iff in P. destruct P as [Pn Pl]. cbn [map fold_left].
      pose proof (term_sem n Pn) as (Ft & Pt & Ht). destruct S as (Fa & Pa & Ha).
      eapply sem_col_ext; [ apply (IH (CBinaryOp "+" (PCol acc) (PCol (addtotals_term n)))
        (fun sp r => option_map (fun v => lifted (sp_arith sp "+") v (if numeric sp (cell n r) then cell n r else zero)) (g sp r)) Pl) | ].
      + split; [ exact I | split ].
        * cbn [plain_col plain_pexpr]. rewrite Pa, Pt. reflexivity.
        * intros sp' r v E. cbn [col_tree pexpr_tree]. destruct (g sp' r) as [w|] eqn:Eg; [ | discriminate E ]. cbn [option_map] in E. injection E as <-.
          rewrite (cv_bin sp' r _ _ _ _ _ (Ha sp' r w Eg) (Ht sp' r _ eq_refl)).
          generalize (if numeric sp' (cell n r) then cell n r else zero). intro x. unfold bin_val, lifted. cbn. destruct w, x; reflexivity.
      + intros sp' r v E. cbv beta in *. destruct (g sp' r); exact E.
  Qed.
  Lemma totals_ok : forall a s rows, plain1 (CAddTotals a) = true -> frame_sem (d_or_default s) rows ->
    exists d, t_addtotals a s = Ok d /\ frame_sem d (map (fun r => set_cell (at_field_name a) (total sp (at_fields a) r) r) rows).
  Proof.
    intros a s rows P D. cbn [plain1] in P. apply andb_true_iff in P. destruct P as [Pn Pf].
    assert (T : exists c, match join_as_binaries "+" (map addtotals_term (at_fields a)) with Some t => t | None => CLiteral "0.0" end = c /\
       sem_col c (fun sp r => Some (total sp (at_fields a) r))).
    { eexists. split; [ reflexivity | ]. destruct (at_fields a) as [|n l]; [ apply (sem_col_lit "0.0" zero); reflexivity | ].
      cbn [forallb] in Pf. apply andb_true_iff in Pf. destruct Pf as [P1 P2].
      cbn [map join_as_binaries]. eapply sem_col_ext; [ exact (total_col l (addtotals_term n) _ P2 (term_sem n P1)) | ].
      intros sp' r v E. injection E as <-. reflexivity. }
    destruct T as (c & Ec & S). unfold t_addtotals. rewrite Ec. unfold d_with_column. rewrite (flat_cl c (proj1 S)).
    eexists. split; [ reflexivity | ]. eapply with_column_sem; [ exact D | exact Pn | exact S | ].
    apply (all_some_total (fun r => set_cell (at_field_name a) (total sp (at_fields a) r) r)).
  Qed.
  Lemma fillnull_ok : forall v s rows, plain_between dquote v = true -> frame_sem (d_or_default s) rows ->
    exists d, t_fillnull_standalone v s = Ok d /\ frame_sem d (map (map (fun c => if is_null (snd c) then (fst c, SStr v) else c)) rows).
  Proof.
    intros v s rows P D. eexists. split; [ reflexivity | ]. eapply (step_sem sp db cmds vars pre inl (d_or_default s)); [ exact D | | reflexivity | reflexivity | ].
    - cbn [plain_df forallb nonempty pylit_str plain_pexpr]. rewrite (proj1 D), (quoted_plain v P). reflexivity.
    - cbn [map pylit_str pexpr_tree]. rewrite (quoted_between v P). cbn. do 2 f_equal. apply map_ext. intro r. apply map_ext. intros [n w]. now destruct w.
  Qed.

  (** ** spath *)
  Lemma spath_ok : forall c s rows, plain1 (CSPath c) = true -> frame_sem (d_or_default s) rows ->
    exists d, t_spath c s = Ok d /\
      frame_sem d (map (fun r => set_cell (match sp_output c with Some o => o | None => sp_path c end) (json_value sp c r) r) rows).
  Proof.
    intros c s rows P D. cbn [plain1] in P. apply andb_true_iff in P. destruct P as [P Po]. apply andb_true_iff in P. destruct P as [Pi Pp].
    eexists. split; [ reflexivity | ]. unfold d_with_column.
    assert (Pd : plain_between dquote ("$." ++ sp_path c) = true).
    { unfold plain_between in *. cbn [append sforall]. rewrite Pp. reflexivity. }
    eapply (with_column_sem _ rows _ _ (fun sp r => Some (json_value sp c r))); [ exact D | exact Po | | ].
    - split; [ exact I | split ].
      + cbn [cl_unaliased cl_unaliased_with_name fst c_func plain_col forallb plain_pexpr pcol pylit_str].
        rewrite (quoted_plain _ Pd). cbn [plain_col]. rewrite Pi. reflexivity.
      + intros sp' row v E. injection E as <-. cbn [cl_unaliased cl_unaliased_with_name fst c_func col_tree map pexpr_tree pcol pylit_str].
        rewrite (quoted_between _ Pd). reflexivity.
    - rewrite <- all_some_total. reflexivity.
  Qed.

  (** ** One command without a sub-search *)
  Lemma command1_ok : forall env c s rows out, env_rt env = Disallow -> plain1 c = true ->
    frame_sem (d_or_default s) rows -> step1 sp c rows = Some out -> translates env c s out.
  Proof.
    intros env c s rows out R P D E.
    assert (Only : forall r, (exists d, r = Ok d /\ frame_sem d out) ->
      (forall st, transform_command env c s st = bind (select_rt (env_rt env) unimplemented (lift r)) (fun d => ret (Some d)) st) -> translates env c s out).
    { intros r (d & -> & F) H. exists d. split; [ | exact F ]. intro st. rewrite H. now apply only_ok. }
    destruct c as [c|f b|c|tf l|c|? ? ? ? ? ? ? ?|fields|? ? ?|remove fields|value fields|c|eval_expr keep_last null_option|? ?|? ?|? ? ?|c|? ?|?|? ?|? ?|c|? ?|l|? ?|c|e|c|l count descending|p funcs by_|? ? ? ?|fields|?|c|? ? ? ? ? ? ?|e]; try discriminate P; cbn [step1] in E.
    - injection E as <-. apply (Only (t_addtotals c s)); [ now apply totals_ok | reflexivity ].
    - apply (Only (t_convert_go tf l (d_or_default s))); [ | reflexivity ]. now apply (convert_go_ok tf l _ rows).
    - now apply (eval_ok env fields s rows out R P D).
    - destruct remove; [ discriminate P | ]. injection E as <-. cbn [plain1] in P. apply andb_true_iff in P. destruct P as [P1 P2].
      apply (Only (t_select fields s)); [ | reflexivity ]. eexists. split; [ reflexivity | ]. now apply select_sem.
    - destruct fields; [ discriminate P | ]. injection E as <-. destruct (fillnull_ok value s rows P D) as (d & Ed & Fd).
      exists d. split; [ | exact Fd ]. intro st. cbn [transform_command]. rewrite R. cbn [select_rt]. now rewrite Ed.
    - destruct (head_limit_ok eval_expr keep_last rows out P E) as (z & Ez & Rz & ->).
      apply (Only (t_head eval_expr keep_last s)); [ | reflexivity ]. unfold t_head. rewrite Ez. eexists. split; [ reflexivity | ].
      rewrite u64_small by lia. apply limit_sem; [ exact D | lia ].
    - apply (Only (t_rename_go l (d_or_default s))); [ | reflexivity ]. now apply (rename_go_ok l _ rows).
    - now apply (search_ok' env e s rows out R P D).
    - injection E as <-. apply (Only (t_spath c s)); [ now apply spath_ok | reflexivity ].
    - apply (Only (t_sort l count descending s)); [ | reflexivity ]. now apply (sort_ok l count descending s rows).
    - destruct (stats_ok p funcs by_ s rows out P D E) as (d & Ed & Fd).
      exists d. split; [ | exact Fd ]. intro st. cbn [transform_command]. rewrite R. cbn [select_rt]. now rewrite Ed.
    - injection E as <-. cbn [plain1] in P. apply andb_true_iff in P. destruct P as [P1 P2].
      apply (Only (t_select fields s)); [ | reflexivity ]. eexists. split; [ reflexivity | ]. now apply select_sem.
    - now apply (where_ok env e s rows out R P D).
  Qed.
End Plain.
