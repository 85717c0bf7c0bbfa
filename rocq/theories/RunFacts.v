(** Facts: pipelines compute what their commands do on rows. *)
From Verif Require Import Str SplAst PyAst Functions Transpile Render Commands PipeFacts SpecPy SpecCol SpecFrame
  FrameFacts ProgramFacts SpecSpark SpecRows SpecCommands RowFacts ValueFacts SearchFacts CommandFacts.
Open Scope list_scope.

(** A search that names one index *)
Lemma index_test_inv : forall l op r n, index_test l op r = Some n ->
  is_index l = true /\ is_index r = false /\ op = "="%string /\ expr_to_string r = Ok n.
Proof.
  intros l op r n H. unfold index_test in H. destruct l as [[[]|?|?|?]|?|?|?|?|?|?|?|?|?]; try discriminate H.
  destruct r as [[[]|?|?|?]|?|?|?|?|?|?|?|?|?]; try discriminate H;
    match type of H with (if ?b then _ else _) = _ => destruct b eqn:B; [ | discriminate H ] end;
    apply andb_true_iff in B; destruct B as [B B3]; apply andb_true_iff in B; destruct B as [B1 B2];
    apply String.eqb_eq in B2; apply negb_true_iff in B3; injection H as <-; cbn [is_index]; auto.
Qed.
Lemma plain_no_index : forall e, plain_search e = true -> take_index e = None.
Proof.
  intros e. induction e as [l o r IHl IHr|o r IH|n args F|e n IH|e He] using expr_induct; intro P; try discriminate P; try reflexivity.
  - cbn [take_index]. cbn [plain_search] in P. destruct (String.eqb o "AND" || String.eqb o "OR") eqn:O.
    + assert (X : index_test l o r = None).
      { destruct (index_test l o r) as [n|] eqn:X; [ | reflexivity ]. apply index_test_inv in X. destruct X as (_ & _ & -> & _). discriminate O. }
      rewrite X. apply andb_true_iff in P. destruct P as [Pl Pr]. rewrite (IHl Pl), (IHr Pr). now destruct (String.eqb o "AND").
    + assert (X : index_test l o r = None).
      { destruct (index_test l o r) as [n|] eqn:X; [ | reflexivity ]. apply index_test_inv in X. destruct X as (X & _).
        destruct l as [[[]|?|?|?]|?|?|?|?|?|?|?|?|?]; try discriminate X. cbn [is_index] in X. rewrite X in P. discriminate P. }
      rewrite X. apply orb_false_iff in O. now rewrite (proj1 O).
  - destruct e; try contradiction; reflexivity.
Qed.
Lemma take_not_index : forall e n c, take_index e = Some (n, c) -> is_index e = false.
Proof. intros e n c H. destruct e as [[[]|?|?|?]|?|?|?|?|?|?|?|?|?]; try reflexivity. discriminate H. Qed.
Lemma split_index : forall e n c, take_index e = Some (n, c) -> match c with Some x => plain_search x = true | None => True end ->
  split_conditions e true [] = Ok ([n], c).
Proof.
  assert (I : forall x, plain_search x = true -> is_index x = false).
  { intros x H. destruct x as [[[]|?|?|?]|?|?|?|?|?|?|?|?|?]; try reflexivity. cbn [plain_search is_index] in *.
    apply andb_true_iff in H. now apply negb_true_iff. }
  intros e. induction e as [l o r IHl IHr|o r IH|n' args F|e n' IH|e He] using expr_induct; intros n c T P;
    try discriminate T; [ | destruct e; try contradiction; discriminate T ].
  cbn [take_index] in T. cbn [split_conditions]. destruct (index_test l o r) as [m|] eqn:X.
  - apply index_test_inv in X. destruct X as (X1 & X2 & -> & X3). injection T as <- <-. rewrite X1, X2. cbn [xorb andb].
    change (String.eqb "=" "=") with true. cbv iota. cbn [ensure rbind]. rewrite X3. reflexivity.
  - destruct (String.eqb o "AND") eqn:O; [ | discriminate T ]. apply String.eqb_eq in O. subst o.
    change (String.eqb "AND" "=") with false. rewrite andb_false_r.
    destruct (take_index l) as [[nl cl]|] eqn:Tl.
    + destruct (take_index r) as [[nr cr]|] eqn:Tr; [ destruct cl; discriminate T | ].
      assert (K : n = nl /\ match cl with Some x => plain_search x = true | None => True end /\ plain_search r = true /\
         c = Some (match cl with Some l' => EBinary l' "AND" r | None => r end)).
      { destruct cl as [l'|]; injection T as <- <-; [ | auto ]. cbn [plain_search] in P. change (String.eqb "AND" "AND" || _) with true in P. cbv iota in P.
        apply andb_true_iff in P. destruct P. auto. }
      destruct K as (-> & P1 & P2 & ->). rewrite (take_not_index _ _ _ Tl), (I r P2). cbn [orb]. change (String.eqb "AND" "AND") with true. cbn [andb].
      rewrite (IHl nl cl eq_refl P1). cbn [rbind]. rewrite (split_plain r true [nl] P2). cbn [rbind]. destruct cl; reflexivity.
    + destruct (take_index r) as [[nr cr]|] eqn:Tr; [ | discriminate T ].
      assert (K : n = nr /\ match cr with Some x => plain_search x = true | None => True end /\ plain_search l = true /\
         c = Some (match cr with Some r' => EBinary l "AND" r' | None => l end)).
      { destruct cr as [r'|]; injection T as <- <-; [ | auto ]. cbn [plain_search] in P. change (String.eqb "AND" "AND" || _) with true in P. cbv iota in P.
        apply andb_true_iff in P. destruct P. auto. }
      destruct K as (-> & P1 & P2 & ->). rewrite (take_not_index _ _ _ Tr), (I l P2). cbn [orb]. change (String.eqb "AND" "AND") with true. cbn [andb].
      rewrite (split_plain l true [] P2). cbn [rbind]. rewrite (IHr nr cr eq_refl P1). cbn [rbind]. destruct cr; reflexivity.
Qed.

(** ** Tables of datasets *)
Lemma split_dot : forall s rest, after_dot s = Some rest -> join "." (tl (split_on "." s)) = rest.
Proof.
  assert (J : forall s, join "." (split_on "." s) = s).
  { induction s as [|c s IH]; [ reflexivity | ]. cbn [split_on]. destruct (Ascii.eqb "." c) eqn:E.
    - apply Ascii.eqb_eq in E. subst c. cbn [join]. destruct (split_on "." s) eqn:S; [ destruct s as [|? s]; cbn [split_on] in S; [ discriminate | destruct (Ascii.eqb "." a); [ discriminate | destruct (split_on "." s); discriminate ] ] | ].
      rewrite IH. reflexivity.
    - destruct (split_on "." s) as [|h t] eqn:S; [ cbn [join] in IH; now subst s | ]. destruct t as [|u t]; [ cbn [join] in *; now rewrite IH | ].
      change (join "." (String c h :: u :: t)) with (String c (h ++ "." ++ join "." (u :: t))). f_equal. exact IH. }
  induction s as [|c s IH]; intros rest H; [ discriminate H | ]. cbn [after_dot] in H. cbn [split_on].
  rewrite Ascii.eqb_sym in H. destruct (Ascii.eqb "." c) eqn:E.
  - injection H as <-. cbn [tl]. apply J.
  - destruct (split_on "." s) as [|h t] eqn:S; [ | cbn [tl] in *; now apply IH ].
    specialize (IH rest H). cbn [tl] in *. exact IH.
Qed.

(** ** Join conditions *)
Lemma prefix_eqb : forall a b c, String.eqb (a ++ b) (a ++ c) = String.eqb b c.
Proof. induction a as [|x a IH]; intros b c; [ reflexivity | ]. cbn [append String.eqb]. rewrite Ascii.eqb_refl. apply IH. Qed.
Lemma cell_app : forall n a b, (forall m, In m (map fst a) -> String.eqb n m = false) -> cell n (a ++ b) = cell n b.
Proof.
  induction a as [|[m v] a IH]; intros b H; [ reflexivity | ]. cbn [app cell]. rewrite (H m (or_introl eq_refl)). apply IH. intros; apply H; now right.
Qed.
Lemma cell_prefixed : forall a f r rest, (forall x, In x (map fst rest) -> String.eqb (a ++ "." ++ f) x = false) ->
  cell (a ++ "." ++ f) (qualify (Some a) r ++ rest) = cell f r.
Proof.
  intros a f r rest H. induction r as [|[m v] r IH].
  - cbn [qualify map app cell]. rewrite <- (app_nil_r rest). rewrite cell_app; [ reflexivity | exact H ].
  - cbn [qualify map app cell fst snd]. rewrite !prefix_eqb. destruct (String.eqb f m); [ reflexivity | exact IH ].
Qed.
Lemma left_cell : forall f l r, cell ("LEFT." ++ f) (qualify (Some "LEFT"%string) l ++ qualify (Some "RIGHT"%string) r) = cell f l.
Proof.
  intros f l r. change ("LEFT." ++ f)%string with ("LEFT" ++ "." ++ f)%string. apply cell_prefixed. intros x H.
  unfold qualify in H. rewrite map_map in H. apply in_map_iff in H as (c & <- & _). reflexivity.
Qed.
Lemma right_cell : forall f l r, cell ("RIGHT." ++ f) (qualify (Some "LEFT"%string) l ++ qualify (Some "RIGHT"%string) r) = cell f r.
Proof.
  intros f l r. rewrite cell_app.
  - change ("RIGHT." ++ f)%string with ("RIGHT" ++ "." ++ f)%string. rewrite <- (app_nil_r (qualify _ r)). now apply cell_prefixed.
  - intros x H. unfold qualify in H. rewrite map_map in H. apply in_map_iff in H as (c & <- & _). reflexivity.
Qed.

Section Runs.
  Variable sp : Spark.
  Variable db : string -> option Table.
  Variable cmds : string -> option Obj -> list Py -> list (string * Py) -> option Obj.
  Notation frame_sem := (frame_sem sp db cmds [] [] true).
  Notation obj_sem := (obj_sem sp db cmds [] [] true).

  Definition both (l r : Row) : Row := qualify (Some "LEFT"%string) l ++ qualify (Some "RIGHT"%string) r.
  (** A column whose value in a pair of rows is the truth value [t l r] *)
  Definition pair_sem (c : ColumnLike) (t : Row -> Row -> option bool) : Prop :=
    flat c /\ plain_col c = true /\ forall l r, cv sp (both l r) (col_tree c) = Some (of_truth (t l r)).
  Definition field_cmp (op f : string) (l r : Row) : option bool :=
    match cell f l, cell f r with SNull, _ | _, SNull => None | a, b => Some (sp_cmp sp op a b) end.
  Lemma agree_cmp : forall op f l r, agree sp op f l r = match field_cmp op f l r with Some true => true | _ => false end.
  Proof. intros. unfold agree, field_cmp. destruct (cell f l), (cell f r); cbn [not_null is_null negb andb]; try reflexivity; now destruct (sp_cmp sp op _ _). Qed.
  Lemma pair_cmp : forall op f, str_in op ["=="; ">="; "<="]%string = true -> plain_name_text f = true ->
    pair_sem (c_binary (pcol ("LEFT." ++ f)) op (pcol ("RIGHT." ++ f))) (field_cmp op f).
  Proof.
    intros op f O P.
    assert (Q : forall a, plain_name_text a = true -> plain_name_text (a ++ f) = true).
    { intros a H. unfold plain_name_text, plain_between in *. induction a as [|x a IH]; [ exact P | ]. cbn [append sforall] in *.
      apply andb_true_iff in H. destruct H as [H1 H2]. now rewrite H1, IH. }
    split; [ exact I | split ].
    - unfold c_binary. cbn [pcol pe_unaliased pe_unaliased_with_name cl_unaliased_with_name fst plain_col plain_pexpr].
      rewrite (Q "LEFT."%string eq_refl), (Q "RIGHT."%string eq_refl), !andb_true_r.
      unfold str_in in *. cbn [existsb] in O. repeat (apply orb_prop in O as [O|O]); try discriminate O; apply String.eqb_eq in O; subst op; reflexivity.
    - intros l r. unfold c_binary. cbn [pcol pe_unaliased pe_unaliased_with_name cl_unaliased_with_name fst col_tree pexpr_tree].
      rewrite (cv_bin _ _ _ _ _ _ _ (cv_col _ _ _) (cv_col _ _ _)). unfold both. rewrite left_cell, right_cell.
      unfold field_cmp, bin_val.
      unfold str_in in O. cbn [existsb] in O. repeat (apply orb_prop in O as [O|O]); try discriminate O; apply String.eqb_eq in O; subst op;
        cbn [String.eqb Ascii.eqb Bool.eqb str_in existsb comparison_ops orb]; destruct (cell f l), (cell f r); reflexivity.
  Qed.
  Lemma pair_and : forall a b s t, pair_sem a s -> pair_sem b t -> pair_sem (CBinaryOp "&" (PCol a) (PCol b)) (fun l r => k_and (s l r) (t l r)).
  Proof.
    intros a b s t (Fa & Pa & Ha) (Fb & Pb & Hb). split; [ exact I | split ].
    - cbn [plain_col plain_pexpr]. now rewrite Pa, Pb.
    - intros l r. cbn [col_tree pexpr_tree]. rewrite (cv_bin _ _ _ _ _ _ _ (Ha l r) (Hb l r)).
      unfold bin_val. change (String.eqb "&" "&") with true. cbv iota. destruct (s l r) as [[]|], (t l r) as [[]|]; reflexivity.
  Qed.
  Definition yes (b : option bool) : bool := match b with Some true => true | _ => false end.
  Lemma yes_and : forall a b, yes (k_and a b) = yes a && yes b.
  Proof. destruct a as [[]|], b as [[]|]; reflexivity. Qed.
  Lemma pair_all : forall fs acc t, forallb plain_name_text fs = true -> pair_sem acc t ->
    exists u, pair_sem (fold_left (fun acc x => CBinaryOp "&" (PCol acc) (PCol x)) (map join_eq fs) acc) u /\
      forall l r, yes (u l r) = yes (t l r) && forallb (fun f => agree sp "==" f l r) fs.
  Proof.
    induction fs as [|f fs IH]; intros acc t P A.
    - exists t. split; [ exact A | ]. intros. cbn [forallb]. now rewrite andb_true_r.
    - cbn [forallb] in P. apply andb_true_iff in P. destruct P as [Pf Pfs]. cbn [map fold_left].
      destruct (IH _ _ Pfs (pair_and _ _ _ _ A (pair_cmp "==" f eq_refl Pf))) as (u & U & Y). exists u. split; [ exact U | ].
      intros l r. rewrite Y, yes_and. cbn [forallb]. rewrite agree_cmp. unfold yes. now rewrite andb_assoc.
  Qed.
  Lemma condition_ok : forall o, nonempty_list (jo_fields o) = true -> forallb plain_name_text (jo_fields o) = true ->
    exists c t, join_condition o = Ok c /\ pair_sem c t /\ forall l r, yes (t l r) = join_match sp o l r.
  Proof.
    intros o N P. unfold join_condition, join_match. destruct (jo_fields o) as [|f fs]; [ discriminate N | ].
    cbn [forallb] in P. apply andb_true_iff in P. destruct P as [Pf Pfs]. cbn [map join_as_binaries].
    destruct (pair_all fs _ _ Pfs (pair_cmp "==" f eq_refl Pf)) as (u & U & Y).
    change (c_binary (pcol ("LEFT." ++ f)) "==" (pcol ("RIGHT." ++ f))) with (join_eq f) in U.
    set (X := fold_left (fun acc x => CBinaryOp "&" (PCol acc) (PCol x)) (map join_eq fs) (join_eq f)) in *.
    destruct (jo_use_time o).
    - set (op := if jo_earlier o then ">="%string else "<="%string).
      assert (O : str_in op ["=="; ">="; "<="]%string = true) by (unfold op; now destruct (jo_earlier o)).
      eexists. exists (fun l r => k_and (u l r) (field_cmp op "_time" l r)). split; [ reflexivity | ]. split.
      + replace (c_binary (PCol X) "&" _) with (CBinaryOp "&" (PCol X)
          (PCol (c_binary (pcol ("LEFT." ++ "_time")) op (pcol ("RIGHT." ++ "_time"))))).
        * apply pair_and; [ exact U | ]. now apply pair_cmp.
        * unfold c_binary at 2. rewrite (flat_pe X (proj1 U)). reflexivity.
      + intros l r. rewrite yes_and, Y. cbn [forallb negb orb]. rewrite !agree_cmp. reflexivity.
    - eexists. exists u. split; [ reflexivity | ]. split; [ exact U | ]. intros l r. rewrite Y. cbn [forallb negb orb]. rewrite agree_cmp. now rewrite andb_true_r.
  Qed.

  (** ** Joins and unions of frames *)
  Lemma alias_sem : forall d rows a, frame_sem d rows -> plain_name_text a = true -> obj_sem (DAlias d a) (OFrame (Some a) rows).
  Proof.
    intros d rows a D P. eapply (step_sem sp db cmds [] [] true d); [ exact D | | reflexivity | reflexivity | ].
    - cbn [plain_df]. now rewrite (proj1 D), P.
    - reflexivity.
  Qed.
  Lemma filter_map_snd : forall (f : Row -> bool) rows, map fst (filter snd (map (fun r => (r, f r)) rows)) = filter f rows.
  Proof. intros f rows. induction rows as [|r rows IH]; [ reflexivity | ]. cbn [map filter snd]. destruct (f r); cbn [map fst]; now rewrite IH. Qed.
  Lemma filter_indexed : forall (f : Row -> bool) right k (g : nat -> bool),
    (forall i r, nth_error right i = Some r -> g (k + i) = f r) ->
    map snd (filter (fun ir => g (fst ir)) (combine (seq k (length right)) right)) = filter f right.
  Proof.
    intros f right. induction right as [|r right IH]; intros k g H; [ reflexivity | ]. cbn [length seq combine filter fst].
    specialize (H 0 r eq_refl) as H0. rewrite Nat.add_0_r in H0. rewrite H0.
    assert (T : map snd (filter (fun ir => g (fst ir)) (combine (seq (S k) (length right)) right)) = filter f right).
    { apply IH. intros i x E. rewrite Nat.add_succ_l, <- Nat.add_succ_r. now apply (H (S i)). }
    destruct (f r); cbn [map snd]; now rewrite T.
  Qed.
  Lemma rows_joined : forall o cond t left right, pair_sem cond t -> (forall l r, yes (t l r) = join_match sp o l r) ->
    str_in (jo_type o) ["inner"; "left"; "outer"]%string = true ->
    join_rows sp (Some "LEFT"%string) (Some "RIGHT"%string) (col_tree cond) left right (jo_type o) = Some (joined_rows sp o left right).
  Proof.
    intros o cond t left right (_ & _ & Hc) Y K. unfold join_rows.
    set (m := join_match sp o).
    assert (E : all_some (map (fun l => option_map (fun ms => (l, ms)) (all_some (map (fun r => match cv sp (qualify (Some "LEFT"%string) l ++ qualify (Some "RIGHT"%string) r) (col_tree cond) with
        | Some v => match truth v with Some _ => Some (r, is_true v) | None => None end | None => None end) right))) left)
      = Some (map (fun l => (l, map (fun r => (r, m l r)) right)) left)).
    { rewrite <- all_some_total. f_equal. apply map_ext. intro l.
      replace (all_some (map _ right)) with (Some (map (fun r => (r, m l r)) right)); [ reflexivity | ].
      rewrite <- all_some_total. f_equal. apply map_ext. intro r. fold (both l r). rewrite Hc.
      unfold m. rewrite <- Y. destruct (t l r) as [[]|]; reflexivity. }
    rewrite E. clear E.
    assert (Mt : forall l, map (fun r => fst (l, map (fun r => (r, m l r)) right) ++ fst r) (filter snd (snd (l, map (fun r => (r, m l r)) right))) = map (app l) (filter (m l) right)).
    { intro l. cbn [fst snd]. rewrite <- (filter_map_snd (m l) right), map_map. reflexivity. }
    unfold joined_rows. fold m.
    assert (Mi : List.concat (map (fun lm => map (fun r => fst lm ++ fst r) (filter snd (snd lm))) (map (fun l => (l, map (fun r => (r, m l r)) right)) left))
      = List.concat (map (fun l => map (app l) (filter (m l) right)) left)).
    { rewrite map_map. f_equal. apply map_ext. exact Mt. }
    assert (Ml : List.concat (map (fun lm => match map (fun r => fst lm ++ fst r) (filter snd (snd lm)) with [] => [fst lm] | l => l end) (map (fun l => (l, map (fun r => (r, m l r)) right)) left))
      = List.concat (map (fun l => match map (app l) (filter (m l) right) with [] => [l] | x => x end) left)).
    { rewrite map_map. f_equal. apply map_ext. intro l. rewrite Mt. reflexivity. }
    unfold str_in in K. cbn [existsb] in K. repeat (apply orb_prop in K as [K|K]); try discriminate K; apply String.eqb_eq in K; rewrite K;
      cbn [String.eqb Ascii.eqb Bool.eqb].
    - apply (f_equal Some). exact Mi.
    - rewrite app_nil_r. apply (f_equal Some). exact Ml.
    - apply (f_equal Some). apply (f_equal2 (@app Row)); [ exact Ml | ].
      apply (filter_indexed (fun r => negb (existsb (fun l => m l r) left)) right 0
        (fun i => negb (existsb (fun lm : Row * list (Row * bool) => nth i (map snd (snd lm)) false) (map (fun l => (l, map (fun r => (r, m l r)) right)) left)))).
      intros i r En. f_equal. cbn [Nat.add]. clear Mt Mi Ml. induction left as [|l left IH]; [ reflexivity | ]. cbn [map existsb fst snd].
      f_equal; [ | exact IH ]. rewrite map_map. cbn [snd].
      apply nth_error_nth with (d := false). now rewrite nth_error_map, En.
  Qed.
  Lemma join_sem : forall o s r left right, frame_sem (d_or_default s) left -> frame_sem r right ->
    str_in (jo_type o) ["inner"; "left"; "outer"]%string = true -> nonempty_list (jo_fields o) = true -> forallb plain_name_text (jo_fields o) = true ->
    exists d, t_join o s (Some r) = Ok d /\ frame_sem d (joined_rows sp o left right).
  Proof.
    intros o s r left right D1 D2 K N P. destruct (condition_ok o N P) as (c & t & Ec & Hc & Y).
    assert (Kk : join_kind (jo_type o) = Ok (jo_type o)) by (unfold join_kind; unfold str_in in K; now rewrite K).
    eexists. split; [ unfold t_join; rewrite Kk, Ec; reflexivity | ]. unfold d_join. rewrite (flat_pe c (proj1 Hc)).
    pose proof (alias_sem _ _ "LEFT" D1 eq_refl) as A1. pose proof (alias_sem _ _ "RIGHT" D2 eq_refl) as A2.
    eapply (step_sem sp db cmds [] [] true (DAlias (d_or_default s) "LEFT") _ _ _ "join" [snd (df_prog (DAlias r "RIGHT")); pexpr_tree (PCol c); PStr (jo_type o)]); [ exact A1 | | reflexivity | reflexivity | ].
    - change (plain_df (DAlias (d_or_default s) "LEFT") && plain_df (DAlias r "RIGHT") && inline (DAlias r "RIGHT") && plain_pexpr (PCol c) && plain_name_text (jo_type o) = true).
      rewrite (proj1 A1), (proj1 A2), (proj1 (proj2 A2)). cbn [plain_pexpr andb]. rewrite (proj1 (proj2 Hc)).
      unfold str_in in K. cbn [existsb] in K. repeat (apply orb_prop in K as [K|K]); try discriminate K; apply String.eqb_eq in K; rewrite K; reflexivity.
    - destruct A2 as (_ & _ & _ & _ & F2). cbn [map]. rewrite F2. cbn [pexpr_tree].
      change (frame_method sp (OFrame (Some "LEFT"%string) left) "join" [snd (df_prog (DAlias r "RIGHT")); col_tree c; PStr (jo_type o)]
        [Some (OFrame (Some "RIGHT"%string) right); fv sp db cmds [] (col_tree c); fv sp db cmds [] (PStr (jo_type o))] [])
        with (option_map (OFrame None) (join_rows sp (Some "LEFT"%string) (Some "RIGHT"%string) (col_tree c) left right (jo_type o))).
      rewrite (rows_joined o c t left right Hc Y K). reflexivity.
  Qed.
  Lemma union_sem : forall d e rows rows', frame_sem d rows -> frame_sem e rows' -> frame_sem (DUnionByName d e) (rows ++ rows').
  Proof.
    intros d e rows rows' (P1 & I1 & A1 & N1 & F1) (P2 & I2 & A2 & N2 & F2). repeat split.
    - cbn [plain_df]. now rewrite P1, P2, I2.
    - exact I1.
    - exact A1.
    - cbn [df_prog snd SpecSpark.fv map]. rewrite F2, F1. destruct (snd (df_prog d)); try reflexivity; discriminate F1.
  Qed.

  (** ** First commands *)
  (** The command's transform succeeds in any state with a frame of the given rows *)
  Definition makes (env : Env) (c : Command) (s : tstate) (out : Table) : Prop :=
    forall st, exists st' d, transform_command env c s st = (st', Ok (Some d)) /\ frame_sem d out.
  Lemma translates_makes : forall env c s out, translates sp db cmds [] [] true env c s out -> makes env c s out.
  Proof. intros env c s out (d & E & F) st. exists st, d. auto. Qed.
  Definition keeps_order (env : Env) : Prop := forall i n, env_hash_order env i [n] = [n].

  Lemma search_first : forall env e n c rows out, env_rt env = Disallow -> keeps_order env -> take_index e = Some (n, c) ->
    plain_name_text n = true -> match c with Some x => plain_search x = true | None => True end ->
    db n = Some rows -> match c with Some x => search_rows sp x rows | None => Some rows end = Some out -> makes env (CSearch e) None out.
  Proof.
    intros env e n c rows out R K T Pn P Edb E st. pose proof (source_sem sp db cmds n rows Pn Edb) as D.
    exists (mkSt (st_df st) (S (st_hash st))). cbn [transform_command]. rewrite R. cbn [select_rt].
    unfold t_search_standalone, lift, bind, ret, hash_iter. rewrite (split_index e n c T P), K. cbn [index_union fold_left].
    destruct c as [x|].
    - destruct (search_ok Disallow x P) as (c & Ec & F & Sc). destruct (search_rows_inv sp x rows out E) as [N Er].
      rewrite R, Ec. unfold d_where. rewrite search_expr_flat; [ | exact F | exact (proj1 Sc) ].
      eexists. split; [ reflexivity | ]. now apply (search_filter sp db cmds [] [] true _ rows x c).
    - injection E as <-. eexists. split; [ reflexivity | exact D ].
  Qed.
  Lemma dataset_ok : forall m n t a b c, dataset_table m n = Some t ->
    t_datamodel_standalone (mkDataModel m n (Some "search"%string) a b c) None = Ok (DSource t).
  Proof.
    intros m n t a b c H. unfold t_datamodel_standalone. cbn [dm_search_mode opt_str_eqb ensure rbind dm_data_model_name dm_dataset_name].
    change (String.eqb "search" "search") with true. cbn [ensure rbind].
    destruct m as [m|]; [ | discriminate H ]. destruct n as [n|]; cbn [dataset_table] in H; [ | now injection H as <- ].
    destruct (after_dot n) as [rest|] eqn:A; [ | discriminate H ]. cbn [option_map] in H. injection H as <-. now rewrite (split_dot n rest A).
  Qed.
  Lemma datamodel_first : forall env c n rows, env_rt env = Disallow ->
    same_as (CDataModel c) = Some (n, []) -> plain_name_text n = true -> db n = Some rows -> makes env (CDataModel c) None rows.
  Proof.
    intros env c n rows R H Pn Edb st. destruct c as [m d mode a b e]. cbn [same_as dm_search_mode dm_data_model_name dm_dataset_name] in H.
    destruct mode as [mode|]; [ | discriminate H ]. destruct (String.eqb mode "search") eqn:M; [ | discriminate H ]. apply String.eqb_eq in M. subst mode.
    destruct (dataset_table m d) as [t|] eqn:T; [ | discriminate H ]. injection H as <-.
    exists st, (DSource t). split; [ | now apply source_sem ].
    cbn [transform_command]. rewrite R. cbn [select_rt]. rewrite (dataset_ok m d t a b e T). reflexivity.
  Qed.
  Lemma where_res : forall env e s rows out, env_rt env = Disallow -> plain_expr true e = true ->
    frame_sem (d_or_default s) rows -> rows_where (fun r => ev sp r e) rows = Some out ->
    exists d, t_where Disallow e s = Ok d /\ frame_sem d out.
  Proof.
    intros env e s rows out R P D E. destruct (where_ok sp db cmds [] [] true env e s rows out R P D E) as (d & H & F). exists d. split; [ | exact F ].
    specialize (H transform_state0). cbn [transform_command] in H. rewrite R in H. cbn [select_rt] in H. unfold bind, lift, ret in H.
    destruct (t_where Disallow e s); injection H; congruence.
  Qed.
  Lemma tstats_first : forall env o funcs m n w b t pre rows out, env_rt env = Disallow ->
    same_as (CTStats o funcs m n w b None) = Some (t, pre) -> plain_name_text t = true -> forallb plain1 pre = true ->
    db t = Some rows -> run1 sp pre rows = Some out -> makes env (CTStats o funcs m n w b None) None out.
  Proof.
    intros env o funcs m n w b t pre rows out R H Pn Pp Edb E st. cbn [same_as] in H.
    destruct (tst_prestats o || _ || _ || _ || _) eqn:Opt; [ discriminate H | ].
    destruct (dataset_table m n) as [t'|] eqn:T; [ | discriminate H ]. cbn [option_map] in H. injection H as -> <-.
    pose proof (source_sem sp db cmds t rows Pn Edb) as D.
    assert (Ok1 : tstats_ok o = true).
    { unfold tstats_ok. destruct (tst_prestats o), (tst_local o), (tst_append o), (tst_include_reduced_buckets o); try discriminate Opt; reflexivity. }
    assert (W : exists d mid, (match w with Some e => let? x := to_spark_expr Disallow e in Ok (d_where (DSource t) x) | None => Ok (DSource t) end) = Ok d
       /\ frame_sem d mid /\ step1 sp (CStats (mkStatsOpts 1 false " " false) funcs b) mid = Some out /\ plain1 (CStats (mkStatsOpts 1 false " " false) funcs b) = true).
    { destruct w as [e|].
      - cbn [app forallb run1 step1] in Pp, E. apply andb_true_iff in Pp. destruct Pp as [Pe Pp]. apply andb_true_iff in Pp. destruct Pp as [Ps _].
        destruct (rows_where (fun r => ev sp r e) rows) as [mid|] eqn:Er; [ | discriminate E ].
        destruct (where_res env e (Some (DSource t)) rows mid R Pe D Er) as (d & Ed & Fd). exists d, mid. split; [ exact Ed | split; [ exact Fd | split; [ | exact Ps ] ] ].
        cbn [step1]. destruct (stats_rows sp funcs b mid); [ exact E | discriminate E ].
      - cbn [app forallb run1] in Pp, E. apply andb_true_iff in Pp. destruct Pp as [Ps _]. exists (DSource t), rows.
        split; [ reflexivity | split; [ exact D | split; [ | exact Ps ] ] ]. destruct (step1 sp _ rows); [ exact E | discriminate E ]. }
    destruct W as (d & mid & Ed & Fd & Es & Ps).
    destruct (stats_ok sp db cmds [] [] true (mkStatsOpts 1 false " " false) funcs b (Some d) mid out Ps Fd Es) as (d' & Ed' & Fd').
    exists st, d'. split; [ | exact Fd' ]. cbn [transform_command]. rewrite R. cbn [select_rt]. unfold t_tstats_standalone, bind, lift, ret.
    rewrite Ok1. cbn [ensure]. unfold t_datamodel. cbn [select_rt]. unfold lift. rewrite (dataset_ok m n t _ _ _ T), Ed.
    unfold t_stats_standalone in Ed'. cbn [d_or_default] in Ed'.
    destruct (transform_stats_exprs Disallow d funcs) as [[d2 aggs]| |]; try discriminate Ed'. cbn [rbind] in Ed'.
    destruct b as [b|]; injection Ed' as <-; reflexivity.
  Qed.
  Lemma substring_prefix : forall n m, substring 0 (String.length n) (n ++ m) = n.
  Proof. induction n as [|c n IH]; intro m; [ destruct m; reflexivity | ]. cbn [String.length append substring]. now rewrite IH. Qed.
  Lemma raw_range : forall n, raw_count ("spark.range(0, " ++ n ++ ", 1)") = Some n.
  Proof.
    intro n. unfold raw_count. change (strip_prefix "spark.range(0, " ("spark.range(0, " ++ n ++ ", 1)")) with (Some (n ++ ", 1)")%string).
    cbv iota. rewrite (ParserFacts.length_append n ", 1)"). change (String.length ", 1)") with 4. rewrite Nat.add_sub, substring_prefix. now rewrite String.eqb_refl.
  Qed.

  Lemma range_sem : forall z, (0 <= z)%Z ->
    frame_sem (DRawSource ("spark.range(0, " ++ dec z ++ ", 1)")) (map (fun i => [("id"%string, SInt (Z.of_nat i))]) (seq 0 (Z.to_nat z))).
  Proof.
    intros z H. repeat split.
    - cbn [plain_df]. rewrite raw_range. apply dec_plain.
    - cbn [df_prog snd]. unfold raw_tree. rewrite raw_range. exact I.
    - cbn [df_prog snd]. unfold raw_tree. rewrite raw_range. unfold py_method. cbn. unfold int_arg_of. rewrite lit_dec. reflexivity.
  Qed.
  Lemma lit_column : forall d (g : nat -> Row) l n code v, frame_sem d (map g l) -> plain_name_text n = true ->
    plain_code code = true -> lit_val (code_tree code) = Some v ->
    frame_sem (d_with_column d n (CLiteral code)) (map (fun i => set_cell n v (g i)) l).
  Proof.
    intros d g l n code v D Pn Pc L. unfold d_with_column. cbn [cl_unaliased cl_unaliased_with_name fst].
    apply (with_column_sem sp db cmds [] [] true d (map g l) n (CLiteral code) (fun _ _ => Some v)); [ exact D | exact Pn | | ].
    - split; [ exact I | split; [ exact Pc | ] ]. intros sp' r w E. cbn [col_tree]. rewrite cv_lit. now rewrite L.
    - rewrite map_map. cbn [option_map]. apply (all_some_total (fun i => set_cell n v (g i))).
  Qed.
  Lemma made_ok : forall env m, env_rt env = Disallow -> (0 <= mr_count m)%Z -> plain_between dquote (mr_server m) = true ->
    mr_server_group m = None -> makes env (CMakeResults m) None (made_rows sp m).
  Proof.
    intros env m R H Ps Pg st.
    assert (D0 : frame_sem (d_with_column (DRawSource ("spark.range(0, " ++ dec (mr_count m) ++ ", 1)")) "_time" (c_func "current_timestamp" []))
       (map (fun i => [("id", SInt (Z.of_nat i)); ("_time", sp_fn sp "current_timestamp" [])]%string) (seq 0 (Z.to_nat (mr_count m))))).
    { apply (with_column_sem sp db cmds [] [] true _ _ "_time" (c_func "current_timestamp" []) (fun sp _ => Some (sp_fn sp "current_timestamp"%string []))
        _ (range_sem (mr_count m) H) eq_refl).
      - apply (sem_fn "current_timestamp" []); [ reflexivity | constructor | ]. intros sp' r v E. exists []. split; [ constructor | exact E ].
      - rewrite map_map. cbn [option_map]. apply (all_some_total (fun i => set_cell "_time" (sp_fn sp "current_timestamp" []) [("id"%string, SInt (Z.of_nat i))])). }
    cbn [transform_command]. rewrite R. cbn [select_rt]. unfold bind, lift, ret, t_makeresults.
    exists st. destruct (mr_annotate m) eqn:A.
    - eexists. split; [ reflexivity | ]. rewrite Pg. unfold made_rows, made_row. rewrite A.
      assert (N : forall d (g : nat -> Row) (l : list nat) n, plain_name_text n = true -> frame_sem d (map g l) ->
        frame_sem (d_with_column d n (CLiteral "None")) (map (fun i => set_cell n SNull (g i)) l)).
      { intros d g l n Pn D. now apply lit_column. }
      apply (N _ _ _ "_raw"%string eq_refl) in D0. apply (N _ _ _ "host"%string eq_refl) in D0.
      apply (N _ _ _ "source"%string eq_refl) in D0. apply (N _ _ _ "sourcetype"%string eq_refl) in D0.
      apply (fun D => lit_column _ _ _ "splunk_server" (dq ++ mr_server m ++ dq) (SStr (mr_server m)) D eq_refl (quoted_plain _ Ps)) in D0;
        [ | now rewrite quoted_between ].
      apply (N _ _ _ "splunk_server_group"%string eq_refl) in D0. exact D0.
    - eexists. split; [ reflexivity | ]. unfold made_rows, made_row. rewrite A. exact D0.
  Qed.
  Lemma first_ok : forall env c n pre rows out, env_rt env = Disallow -> keeps_order env -> same_as c = Some (n, pre) ->
    plain_name_text n = true -> forallb plain1 pre = true -> db n = Some rows -> run1 sp pre rows = Some out -> makes env c None out.
  Proof.
    intros env c n pre rows out R K T Pn Pp Edb E. destruct c; try discriminate T.
    - assert (X : pre = []) by (cbn [same_as] in T; destruct (dm_search_mode c); [ | discriminate T ];
        destruct (String.eqb _ _); [ | discriminate T ]; destruct (dataset_table _ _); [ | discriminate T ]; now injection T).
      subst pre. injection E as <-. now apply (datamodel_first env c n).
    - cbn [same_as] in T. destruct (take_index e) as [[m c]|] eqn:X; [ | discriminate T ].
      assert (T2 : m = n /\ pre = match c with Some x => [CSearch x] | None => [] end) by (destruct c; injection T as <- <-; auto).
      destruct T2 as [-> ->]. apply (search_first env e n c rows out); auto.
      + destruct c as [x|]; [ | exact I ]. cbn [forallb plain1] in Pp. now rewrite andb_true_r in Pp.
      + destruct c as [x|]; [ | exact E ]. cbn [run1 step1] in E. destruct (search_rows sp x rows); exact E.
    - assert (by_prefix = None) by (cbn [same_as] in T; destruct by_prefix; [ discriminate T | reflexivity ]). subst by_prefix.
      now apply (tstats_first env o exprs datamodel nodename where_condition by_fields n pre rows out).
  Qed.

  (** ** One command, whole pipelines *)
  Definition other (c : Command) : bool := match c with CJoin _ _ | CMultiSearch _ => false | _ => true end.
  Definition is_multi (c : Command) : bool := match c with CMultiSearch _ => true | _ => false end.
  Section Induct.
    Variable P : Command -> Prop.
    Hypothesis Pjoin : forall o p, Forall P p -> P (CJoin o p).
    Hypothesis Pmulti : forall ps, Forall (Forall P) ps -> P (CMultiSearch ps).
    Hypothesis Pother : forall c, other c = true -> P c.
    Fixpoint command_induct (c : Command) : P c :=
      let all := fix all p : Forall P p := match p with [] => Forall_nil P | c :: p' => Forall_cons c (command_induct c) (all p') end in
      match c with
      | CJoin o p => Pjoin o p (all p)
      | CMultiSearch ps =>
          Pmulti ps ((fix each ps : Forall (Forall P) ps :=
            match ps with [] => Forall_nil (Forall P) | p :: ps' => Forall_cons p (all p) (each ps') end) ps)
      | c => Pother c eq_refl
      end.
  End Induct.
  Definition command_good (env : Env) (c : Command) : Prop :=
    forall first s rows out, plain_command first c = true -> (is_multi c = false -> frame_sem (d_or_default s) rows) ->
      step sp db c rows = Some out -> makes env c s out.
  Lemma commands_ok : forall env p d rows out, Forall (command_good env) p -> forallb (plain_command false) p = true ->
    frame_sem d rows -> steps (step sp db) p rows = Some out ->
    forall st, exists st' d', run_commands (transform_command env) p (Some d) st = (st', Ok (Some d')) /\ frame_sem d' out.
  Proof.
    intros env p. induction p as [|c p IH]; intros d rows out G P D E st.
    - injection E as <-. exists st, d. auto.
    - inversion G as [|? ? Gc Gp]; subst. cbn [forallb] in P. apply andb_true_iff in P. destruct P as [Pc Pp]. cbn [steps] in E.
      destruct (step sp db c rows) as [mid|] eqn:Ec; [ | discriminate E ].
      destruct (Gc false (Some d) rows mid Pc (fun _ => D) Ec st) as (st1 & d1 & E1 & F1).
      destruct (IH d1 mid out Gp Pp F1 E st1) as (st2 & d2 & E2 & F2). exists st2, d2. split; [ | exact F2 ].
      cbn [run_commands]. unfold bind. now rewrite E1.
  Qed.
  Lemma pipe_ok : forall env p out, env_rt env = Disallow -> keeps_order env -> Forall (command_good env) p ->
    plain_pipeline p = true -> run sp db p = Some out ->
    forall st, exists st' d, run_commands (transform_command env) p None st = (st', Ok (Some d)) /\ frame_sem d out.
  Proof.
    intros env p out R K G P E st. unfold run, run_pipe, plain_pipeline, plain_pipe in *. destruct p as [|c p]; [ discriminate P | ].
    apply andb_true_iff in P. destruct P as [Pc Pp]. inversion G as [|? ? Gc Gp]; subst.
    destruct (first_rows sp db (step sp db) c) as [rows|] eqn:F; [ | discriminate E ].
    assert (M : makes env c None rows).
    { unfold first_rows, plain_first in *. destruct (same_as c) as [[n pre]|] eqn:T.
      - apply andb_true_iff in Pc. destruct Pc as [Pn Pp']. destruct (db n) as [r|] eqn:Edb; [ | discriminate F ].
        now apply (first_ok env c n pre r).
      - assert (Made : (exists m, c = CMakeResults m) \/ (plain_command true c = true /\
            (step sp db c [] = Some rows /\ is_multi c = true \/ exists r, db "main"%string = Some r /\ step sp db c r = Some rows))).
        { destruct c; try (right; split; [ exact Pc | right; destruct (db "main"%string) as [r|]; [ exists r; auto | discriminate F ] ]).
          - left. eauto.
          - right. auto. }
        destruct Made as [[m ->]|[P1 [[E1 I1]|(r & Er & E1)]]].
        + apply andb_true_iff in Pc. destruct Pc as [Pc Pg]. apply andb_true_iff in Pc. destruct Pc as [Pz Ps]. apply Z.leb_le in Pz.
          injection F as <-. apply made_ok; auto. now destruct (mr_server_group m).
        + apply (Gc true None [] rows P1); [ congruence | exact E1 ].
        + apply (Gc true None r rows P1); [ | exact E1 ]. intros _. now apply source_sem. }
    destruct (M st) as (st1 & d & E1 & F1). destruct (commands_ok env p d rows out Gp Pp F1 E st1) as (st2 & d2 & E2 & F2).
    exists st2, d2. split; [ | exact F2 ]. cbn [run_commands]. unfold bind. now rewrite E1.
  Qed.
  Lemma unions_ok : forall env ps outs cur rows, env_rt env = Disallow -> keeps_order env -> Forall (Forall (command_good env)) ps ->
    forallb plain_pipeline ps = true -> all_some (map (run sp db) ps) = Some outs -> frame_sem cur rows ->
    forall st, exists st' d, run_unions (transform_command env) ps (Some cur) st = (st', Ok (Some d)) /\ frame_sem d (rows ++ List.concat outs).
  Proof.
    intros env ps. induction ps as [|p ps IH]; intros outs cur rows R K G P E D st.
    - injection E as <-. exists st, cur. rewrite app_nil_r. auto.
    - inversion G as [|? ? Gp Gps]; subst. cbn [forallb] in P. apply andb_true_iff in P. destruct P as [Pp Pps]. cbn [map all_some] in E.
      destruct (run sp db p) as [o|] eqn:Ep; [ | discriminate E ]. destruct (all_some (map (run sp db) ps)) as [os|] eqn:Eps; [ | discriminate E ].
      injection E as <-. destruct (pipe_ok env p o R K Gp Pp Ep st) as (st1 & d & E1 & F1).
      destruct (IH os (DUnionByName cur d) (rows ++ o) R K Gps Pps eq_refl (union_sem cur d rows o D F1) st1) as (st2 & d2 & E2 & F2).
      exists st2, d2. cbn [List.concat]. rewrite app_assoc. split; [ | exact F2 ]. cbn [run_unions]. unfold bind. now rewrite E1.
  Qed.
  Lemma command_ok : forall env c, env_rt env = Disallow -> keeps_order env -> command_good env c.
  Proof.
    intros env c R K. induction c as [o p G|ps G|c O] using command_induct; intros first s rows out P D E.
    - cbn [plain_command] in P. apply andb_true_iff in P. destruct P as [P Pp]. apply andb_true_iff in P. destruct P as [P Pf].
      apply andb_true_iff in P. destruct P as [P Pn]. apply andb_true_iff in P. destruct P as [Pm Pk].
      cbn [step] in E. destruct (run_pipe sp db (step sp db) p) as [right|] eqn:Er; [ | discriminate E ]. injection E as <-.
      intro st. destruct (pipe_ok env p right R K G Pp Er st) as (st1 & d & E1 & F1).
      destruct (join_sem o s d rows right (D eq_refl) F1 Pk Pn Pf) as (d2 & E2 & F2). exists st1, d2. split; [ | exact F2 ].
      cbn [transform_command]. rewrite R. cbn [select_rt]. unfold bind, lift, ret. rewrite Pm. cbn [ensure]. rewrite E1, E2. reflexivity.
    - cbn [plain_command] in P. apply andb_true_iff in P. destruct P as [P Pp]. apply andb_true_iff in P. destruct P as [_ Pn].
      cbn [step] in E. destruct ps as [|p ps]; [ discriminate Pn | ]. inversion G as [|? ? Gp Gps]; subst.
      cbn [forallb] in Pp. apply andb_true_iff in Pp. destruct Pp as [Pp Pps]. cbn [map all_some] in E.
      destruct (run_pipe sp db (step sp db) p) as [o|] eqn:Ep; [ | discriminate E ].
      destruct (all_some (map (run_pipe sp db (step sp db)) ps)) as [os|] eqn:Eps; [ | discriminate E ]. injection E as <-.
      intro st. destruct (pipe_ok env p o R K Gp Pp Ep st) as (st1 & d & E1 & F1).
      destruct (unions_ok env ps os d o R K Gps Pps Eps F1 st1) as (st2 & d2 & E2 & F2). exists st2, d2. split; [ | exact F2 ].
      cbn [transform_command]. rewrite R. cbn [select_rt run_unions]. unfold bind, ret, lift. rewrite E1. cbv iota beta. rewrite E2. reflexivity.
    - apply translates_makes. assert (P1 : plain1 c = true) by (destruct c; try discriminate O; exact P).
      assert (E1 : step1 sp c rows = Some out) by (destruct c; try discriminate O; exact E).
      apply (command1_ok sp db cmds [] [] true env c s rows out R P1); [ | exact E1 ]. apply D. now destruct c.
  Qed.
  Lemma run_ok : forall env p out, env_rt env = Disallow -> keeps_order env -> plain_pipeline p = true -> run sp db p = Some out ->
    forall st, exists st' d, run_commands (transform_command env) p None st = (st', Ok (Some d)) /\ frame_sem d out.
  Proof. intros env p out R K. apply pipe_ok; auto. apply Forall_forall. intros c _. now apply command_ok. Qed.
  Lemma frame_computes : forall d rows o, frame_sem d rows ->
    (computes sp db cmds (code_to_string (render_df d)) o <-> o = OFrame None rows).
  Proof.
    intros d rows o (P & _ & A & _ & F). unfold computes. split.
    - intros (a & t & R & X). apply (read_program_iff d P) in R. rewrite (surjective_pairing (df_prog d)) in R. injection R as -> ->.
      rewrite A in X. cbn [exec] in X. rewrite F in X. now injection X as <-.
    - intros ->. exists (fst (df_prog d)), (snd (df_prog d)). split; [ apply (read_program_iff d P); symmetry; apply surjective_pairing | ].
      rewrite A. exact F.
  Qed.
  Lemma pipeline_ok : forall env p out, env_rt env = Disallow -> keeps_order env -> plain_pipeline p = true -> run sp db p = Some out ->
    exists code, render_pyspark env p = Ok code /\ forall o, computes sp db cmds code o <-> o = OFrame None out.
  Proof.
    intros env p out R K P E. destruct (run_ok env p out R K P E transform_state0) as (st' & d & Ed & Fd).
    unfold render_pyspark, transform_pipeline. rewrite Ed. cbn [snd rbind dataframes]. eexists. split; [ reflexivity | ].
    intro o. now apply frame_computes.
  Qed.
End Runs.
