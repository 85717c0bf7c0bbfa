(** Proofs for C75 *)
From Coq Require Import String List Permutation Lia.
Import ListNotations.
From Verif Require Import Str SplAst PyAst Render Functions Transpile Commands SpecPipe TreeFacts NamesFacts ScopeFacts SpecPy SpecCol SpecFrame ReadFacts ProgramFacts SpecNames.
From Verif Require FrameFacts.
Open Scope string_scope.
Open Scope list_scope.

Section Names.
Variable rt : Rt.
Definition okn (f : string) : Prop := contains "." f = false \/ (rt <> Disallow /\ exists g, f = ("functions." ++ g)%string).
Definition base := provided rt.
Lemma in_base : forall x, In x ["True"; "False"; "None"; "F"; "spark"] -> In x base.
Proof. intros x H. apply in_or_app. now left. Qed.
Lemma in_rt : forall x, rt <> Disallow -> In x ["commands"; "functions"] -> In x base.
Proof. intros x R H. apply in_or_app. right. destruct rt; auto. now elim R. Qed.
Lemma names_fold : forall l e, names (fold_left PAttr l e) = names e.
Proof. induction l as [|x l IH]; intro e; [ reflexivity | ]. cbn [fold_left]. now rewrite IH. Qed.
Lemma path_names : forall g, names (py_path ("functions." ++ g)) = ["functions"].
Proof.
  intro g. unfold py_path. change ("functions." ++ g)%string with (String "f" (String "u" (String "n" (String "c" (String "t" (String "i" (String "o" (String "n" (String "s" (String "." g)))))))))).
  cbn [split_on Ascii.eqb Bool.eqb]. now rewrite names_fold.
Qed.
Lemma code_names : forall code, plain_code code = true -> incl (names (code_tree code)) base.
Proof.
  intros [|c s] H; [ discriminate | ]. unfold plain_code in H. unfold code_tree.
  destruct (py_quote c); [ intros x [] | ]. destruct (py_digit c); [ intros x [] | ].
  destruct (Ascii.eqb c "-"); [ intros x [] | ]. destruct (raw_start (String c s)); [ intros x [] | ].
  intros x [<-|[]]. apply in_base. unfold str_in in H. apply existsb_exists in H as (y & I & E). apply String.eqb_eq in E. subst y.
  cbn in I |- *. tauto.
Qed.
Lemma incl_flat : forall A (f : A -> list string) l b, Forall (fun x => incl (f x) b) l -> incl (flat_map f l) b.
Proof. intros A f l b H. induction H as [|x l Hx Hl IH]; [ intros y [] | ]. cbn. now apply incl_app. Qed.
Lemma flat_map_map : forall A B (f : A -> B) (g : B -> list string) l, flat_map g (map f l) = flat_map (fun x => g (f x)) l.
Proof. induction l as [|x l IH]; [ reflexivity | ]. cbn. now rewrite IH. Qed.
Lemma Forall_concat_in : forall A B (P : B -> Prop) (f : A -> list B) l x, Forall P (List.concat (map f l)) -> In x l -> Forall P (f x).
Proof.
  intros A B P f l x H I. rewrite Forall_forall in *. intros y Hy. apply H. apply in_concat. exists (f x). split; [ now apply in_map | exact Hy ].
Qed.
Lemma int_names : forall z, incl (names (py_int z)) base.
Proof. intro z. apply code_names, FrameFacts.dec_plain. Qed.
Definition PN (e : PExpr) : Prop := plain_pexpr e = true -> PW okn e -> incl (names (pexpr_tree e)) base.
Definition CN (c : ColumnLike) : Prop := plain_col c = true -> W okn c -> incl (names (col_tree c)) base.
Lemma args_names : forall l, Forall PN l -> forallb plain_pexpr l = true -> Forall (N okn) (List.concat (map subcolumns_of l)) ->
  incl (flat_map names (map pexpr_tree l)) base.
Proof.
  intros l H P F. rewrite flat_map_map. apply incl_flat. rewrite Forall_forall in *. intros x Hx. apply H; auto.
  - rewrite forallb_forall in P. now apply P.
  - unfold PW. apply Forall_forall. intros y Hy. apply F. apply in_concat. exists (subcolumns_of x). split; [ now apply in_map | exact Hy ].
Qed.
Lemma F_in : In "F" base. Proof. apply in_base. cbn. tauto. Qed.
Lemma spark_in : In "spark" base. Proof. apply in_base. cbn. tauto. Qed.
Lemma incl1 : forall (x : string) l, In x l -> incl [x] l. Proof. intros x l H y [<-|[]]. exact H. Qed.
Lemma incl0 : forall l : list string, incl [] l. Proof. intros l y []. Qed.
Lemma col_names : forall e, PN e.
Proof.
  apply (pexpr_induct CN PN); unfold CN, PN, W, PW.
  - intros n _ _. cbn [col_tree]. unfold py_F. cbn. apply incl1, F_in.
  - intros n P _. cbn [col_tree]. unfold py_F. cbn [names flat_map app]. rewrite !app_nil_r. apply (incl_app (incl1 _ _ F_in)), (code_names _ P).
  - intros e f l He Hl P F. cbn [plain_col] in P. rewrite !Bool.andb_true_iff in P. destruct P as [[[P1 P2] P3] P4].
    cbn [subcolumns] in F. inversion F as [|? ? _ F2]; subst. apply Forall_app in F2 as [F2 F3].
    cbn [col_tree]. unfold py_method. cbn [names flat_map]. rewrite app_nil_r. apply incl_app; [ now apply He | ]. now apply args_names.
  - intros f l Hl P F. cbn [plain_col] in P. apply Bool.andb_true_iff in P as [P1 P2].
    cbn [subcolumns] in F. inversion F as [|? ? F1 F2]; subst. cbn [col_tree names flat_map]. rewrite app_nil_r.
    apply incl_app; [ | now apply args_names ]. destruct F1 as [_ [K|[R [g ->]]]].
    + rewrite K. apply incl1, F_in.
    + destruct (contains "." ("functions." ++ g)); [ | apply incl1, F_in ]. rewrite path_names. apply incl1. apply in_rt; [ exact R | cbn; tauto ].
  - intros e n He P F. cbn [plain_col] in P. rewrite !Bool.andb_true_iff in P. destruct P as [[P1 P2] P3].
    cbn [subcolumns] in F. inversion F as [|? ? _ F2]; subst. cbn [col_tree]. unfold py_method. cbn [names flat_map app]. rewrite app_nil_r. now apply He.
  - intros op l r Hl Hr P F. cbn [plain_col] in P. rewrite !Bool.andb_true_iff in P. destruct P as [[P1 P2] P3].
    cbn [subcolumns] in F. inversion F as [|? ? _ F2]; subst. apply Forall_app in F2 as [F2 F3]. cbn [col_tree names]. apply incl_app; auto.
  - intros r Hr P F. cbn [plain_col] in P. rewrite !Bool.andb_true_iff in P. destruct P as [P1 P2].
    cbn [subcolumns] in F. inversion F as [|? ? _ F2]; subst. cbn [col_tree names]. auto.
  - intros c Hc P F. now apply Hc.
  - intros c P _. now apply code_names.
Qed.

(** Runtime arguments: no frames inside, so no lines before them *)
Definition RN (r : RuntimeExpr) : Prop := plain_rt r = true -> Forall (PW okn) (rt_exprs r) -> rt <> Disallow ->
  fst (rt_prog r) = [] /\ incl (names (snd (rt_prog r))) base.
Lemma kw_names : forall (l : list (string * RuntimeExpr)), Forall (fun kv => RN (snd kv)) l ->
  (forall kv, In kv l -> plain_rt (snd kv) = true) -> Forall (PW okn) (List.concat (map (fun kv => rt_exprs (snd kv)) l)) -> rt <> Disallow ->
  incl (flat_map (fun kv => names (snd kv)) (map (fun kv => (fst kv, snd (rt_prog (snd kv)))) l)) base.
Proof.
  intros l H P F R. rewrite flat_map_map. cbn [snd]. apply incl_flat. rewrite Forall_forall in H |- *. intros x Hx. apply H; auto.
  apply (Forall_concat_in _ _ _ (fun kv => rt_exprs (snd kv)) l x F Hx).
Qed.
Lemma list_names : forall l, Forall RN l -> forallb plain_rt l = true -> Forall (PW okn) (List.concat (map rt_exprs l)) -> rt <> Disallow ->
  incl (flat_map names (map (fun x => snd (rt_prog x)) l)) base.
Proof.
  intros l H P F R. rewrite flat_map_map. apply incl_flat. rewrite Forall_forall in H |- *. intros x Hx. apply H; auto.
  - rewrite forallb_forall in P. now apply P.
  - apply (Forall_concat_in _ _ _ rt_exprs l x F Hx).
Qed.

(** Programs *)
Lemma known_weaken : forall a k e e', incl base k -> (forall k', incl base k' -> incl (names e) k' -> incl (names e') k') ->
  known_first k a e -> known_first k a e'.
Proof.
  induction a as [|[n x] a IH]; intros k e e' B W H; cbn in *; [ auto | ]. destruct H as [H1 H2]. split; [ exact H1 | ].
  eapply IH; [ | exact W | exact H2 ]. now apply incl_tl.
Qed.
Lemma known_snoc : forall a k e n, known_first k a e -> known_first k (a ++ [(n, e)]) (PName n).
Proof.
  induction a as [|[m x] a IH]; intros k e n H; cbn in *.
  - split; [ exact H | ]. intros y [<-|[]]. now left.
  - destruct H as [H1 H2]. split; [ exact H1 | now apply IH ].
Qed.
Definition DNm (d : DataFrame) : Prop := plain_df d = true -> D okn rt d ->
  known_first base (fst (df_prog d)) (snd (df_prog d)) /\ (inline d = true -> fst (df_prog d) = []) /\
  incl (map fst (fst (df_prog d))) (assigned (frags d)).
Lemma D_step : forall d, D okn rt d -> DN okn rt d.
Proof. intros d H. unfold D in H. destruct d; cbn [frames] in H; now inversion H. Qed.
Lemma method_known : forall a e m args, known_first base a e -> incl (flat_map names args) base -> known_first base a (py_method e m args).
Proof.
  intros a e m args H A. eapply known_weaken; [ apply incl_refl | | exact H ]. intros k' B I. unfold py_method. cbn [names flat_map].
  rewrite app_nil_r. apply incl_app; [ exact I | ]. eapply incl_tran; eauto.
Qed.
Lemma cols_names : forall l, forallb plain_col l = true -> Forall (PW okn) (map PCol l) -> incl (flat_map names (map col_tree l)) base.
Proof.
  intros l P F. rewrite flat_map_map. apply incl_flat. apply Forall_forall. intros c Hc. rewrite forallb_forall in P.
  apply (col_names (PCol c)); [ now apply P | ]. rewrite Forall_forall in F. apply F. now apply in_map.
Qed.
Lemma assigned_lines : forall d, match d with DRuntime _ _ _ _ _ | DNamed _ _ => True | _ => False end ->
  assigned (frags d) = assigned (List.concat (map (fun l => l ++ [FEndLine]) (f_lines (frag_df d)))).
Proof.
  intros d H. unfold frags, f_all. rewrite assigned_app. destruct d; try contradiction; cbn [frag_df f_expr assigned]; now rewrite app_nil_r.
Qed.
(** A line more *)
Lemma assigned_more : forall d (l1 l2 : list (list Frag)) n l3,
  incl (assigned (List.concat (map (fun l => l ++ [FEndLine]) l1)))
       (assigned (List.concat (map (fun l => l ++ [FEndLine]) (l1 ++ l2 ++ [FAssign n :: l3])) ++ d)) /\
  In n (assigned (List.concat (map (fun l => l ++ [FEndLine]) (l1 ++ l2 ++ [FAssign n :: l3])) ++ d)).
Proof.
  intros d l1 l2 n l3. rewrite !map_app, !concat_app, !assigned_app. split.
  - intros x H. apply in_or_app. left. apply in_or_app. now left.
  - apply in_or_app. left. apply in_or_app. right. apply in_or_app. right. now left.
Qed.
Lemma no_lines : forall A (f : A -> Prog) l, (forall x, In x l -> fst (f x) = []) -> List.concat (map (fun x => fst (f x)) l) = [].
Proof. intros A f l H. induction l as [|x l IH]; [ reflexivity | ]. cbn. rewrite H by now left. apply IH. intros y Hy. apply H. now right. Qed.
Lemma concat_frames : forall (l : list DataFrame) d, Forall (DN okn rt) l -> incl (frames d) l -> D okn rt d.
Proof. intros l d H I. unfold D. rewrite Forall_forall in *. auto. Qed.
Lemma df_names : forall d, DNm d.
Proof.
  apply (df_induct DNm RN).
  - intros d _ P. discriminate.
  - intros e P F _. split; [ reflexivity | ]. apply col_names; [ exact P | ]. cbn in F. now inversion F.
  - intros l H P F R. split; [ reflexivity | ]. cbn [rt_prog snd names]. rewrite flat_map_map. cbn [fst snd names app]. apply incl_flat.
    cbn [plain_rt] in P. rewrite forallb_forall in P. cbn [rt_exprs] in F. rewrite Forall_forall in H |- *. intros x Hx. apply H; auto.
    + specialize (P x Hx). now apply Bool.andb_true_iff in P.
    + apply (Forall_concat_in _ _ _ (fun kv => rt_exprs (snd kv)) l x F Hx).
  - intros l H P F R. split; [ reflexivity | ]. cbn [rt_prog snd names]. now apply list_names.
  - intros f l k Hl Hk P F R. split; [ reflexivity | ]. cbn [plain_rt] in P. rewrite !Bool.andb_true_iff in P. destruct P as [[[P1 P2] P3] P4].
    cbn [rt_exprs] in F. apply Forall_app in F as [F1 F2]. cbn [rt_prog snd names]. apply incl_app; [ | apply incl_app ].
    + rewrite path_names. apply incl1. apply in_rt; [ exact R | cbn; tauto ].
    + now apply list_names.
    + apply kw_names; auto. intros kv I. rewrite forallb_forall in P3. specialize (P3 kv I). now apply Bool.andb_true_iff in P3.
  - intros n P _. cbn. split; [ apply incl1, spark_in | split; [ reflexivity | apply incl0 ] ].
  - intros n P _. cbn [plain_df] in P. cbn [df_prog fst snd known_first map]. split; [ | split; [ reflexivity | apply incl0 ] ].
    unfold raw_tree. destruct (raw_count n) as [c|]; [ | discriminate ]. unfold py_method. cbn [names flat_map app]. rewrite !app_nil_r.
    apply (incl_app (incl1 _ _ spark_in)). now apply code_names.
  - intros n s f l k Hs Hl Hk P DD. cbn [plain_df] in P. rewrite !Bool.andb_true_iff in P. destruct P as [[[[[P1 P2] P3] P4] P5] P6].
    pose proof (D_step _ DD) as (E & _ & R). specialize (R I). cbn [step_exprs] in E. apply Forall_app in E as [E1 E2].
    assert (L1 : List.concat (map (fun x => fst (rt_prog x)) l) = []).
    { apply no_lines. intros x Hx. rewrite Forall_forall in Hl. apply Hl; auto.
      - rewrite forallb_forall in P4. now apply P4.
      - apply (Forall_concat_in _ _ _ rt_exprs l x E1 Hx). }
    assert (K : forall kv, In kv k -> plain_rt (snd kv) = true).
    { intros kv Hx. rewrite forallb_forall in P5. specialize (P5 kv Hx). now apply Bool.andb_true_iff in P5. }
    assert (L2 : List.concat (map (fun kv => fst (rt_prog (snd kv))) k) = []).
    { apply (no_lines _ (fun kv : string * RuntimeExpr => rt_prog (snd kv))). intros x Hx. rewrite Forall_forall in Hk. apply Hk; auto.
      apply (Forall_concat_in _ _ _ (fun kv => rt_exprs (snd kv)) k x E2 Hx). }
    assert (S : let q := match s with Some d => df_prog d | None => ([], PName "None") end in
      known_first base (fst q) (snd q) /\
      incl (map fst (fst q)) (assigned (List.concat (map (fun l => l ++ [FEndLine]) (f_lines (match s with Some d => frag_df d | None => mkFCode [] [FText "None"] end)))))).
    { destruct s as [d|]; cbn zeta.
      - apply Bool.andb_true_iff in P2 as [O Pd]. destruct (Hs d eq_refl Pd) as (A & B & C).
        + eapply concat_frames; [ exact DD | ]. cbn [frames]. apply incl_tl, incl_appl, incl_refl.
        + split; [ exact A | ].
          assert (Z : match d with DRuntime _ _ _ _ _ | DNamed _ _ => True | _ => False end \/ inline d = true) by (destruct d; auto).
          destruct Z as [Z|Z]; [ now rewrite <- (assigned_lines d Z) | rewrite (B Z); apply incl0 ].
      - split; [ | apply incl0 ]. cbn. apply incl1, in_base. cbn. tauto. }
    cbn zeta in S. destruct S as [S1 S2]. unfold DNm in *. cbn [df_prog fst snd]. rewrite L1, L2. cbn [app].
    split; [ | split; [ discriminate | ] ].
    + apply known_snoc. eapply known_weaken; [ apply incl_refl | | exact S1 ]. intros k' B I. cbn [names flat_map].
      apply incl_app; [ apply incl1, B, in_rt; [ exact R | cbn; tauto ] | ]. apply incl_app; [ apply incl_app; [ exact I | ] | ].
      * eapply incl_tran; [ now apply list_names | exact B ].
      * eapply incl_tran; [ now apply kw_names | exact B ].
    + rewrite map_app. unfold frags. cbn [frag_df]. unfold f_all. cbn [f_lines f_expr].
      set (la := List.concat (map f_lines (map frag_rexpr l))).
      set (lk := List.concat (map (fun kv : string * FCode => f_lines (snd kv)) (map (fun kv : string * RuntimeExpr => (fst kv, frag_rexpr (snd kv))) k))).
      match goal with |- incl _ (assigned (List.concat (map _ (?l1 ++ la ++ lk ++ [FAssign n :: ?l3])) ++ ?d)) =>
        destruct (assigned_more d l1 (la ++ lk) n l3) as [M1 M2]; rewrite <- app_assoc in M1, M2 end.
      apply incl_app; [ eapply incl_tran; [ exact S2 | exact M1 ] | ]. cbn [map fst]. now apply incl1.
  - intros d s Hd IH P DD.
    assert (Ds : D okn rt s).
    { eapply concat_frames; [ exact DD | ]. destruct d; try contradiction; subst; cbn [frames]; apply incl_tl, incl_refl. }
    pose proof (D_step _ DD) as (E & _ & _).
    assert (FR : forall t, incl (assigned (frags s)) (assigned (f_all (mkFCode [] (f_all (frag_df s) ++ [FText t]))))).
    { intros t x H. unfold f_all at 1. cbn [f_lines f_expr map List.concat app]. rewrite assigned_app. apply in_or_app. now left. }
    destruct d; try contradiction; subst; cbn [plain_df] in P; rewrite ?Bool.andb_true_iff in P; cbn [step_exprs] in E.
    + destruct P as [[P1 P2] P3]. destruct (IH P2 Ds) as (A & B & C). unfold DNm. cbn [df_prog fst snd]. split; [ now apply known_snoc | ].
      split; [ discriminate | ]. rewrite map_app. unfold frags. cbn [frag_df]. unfold f_all. cbn [f_lines f_expr].
      assert (Z : match s with DRuntime _ _ _ _ _ | DNamed _ _ => True | _ => False end \/ inline s = true) by (destruct s; auto).
      match goal with |- incl _ (assigned (List.concat (map _ (?l1 ++ [FAssign ?n :: ?l3])) ++ ?d)) =>
        destruct (assigned_more d l1 [] n l3) as [M1 M2]; cbn [app] in M1, M2 end.
      apply incl_app; [ | cbn [map fst]; now apply incl1 ].
      destruct Z as [Z|Z]; [ rewrite (assigned_lines s Z) in C; eapply incl_tran; [ exact C | exact M1 ] | rewrite (B Z); apply incl0 ].
    + destruct P as [[P1 P2] P3]. destruct (IH P1 Ds) as (A & B & C). split; [ apply method_known; [ exact A | now apply cols_names ] | ]. split; [ exact B | eapply incl_tran; [ exact C | apply FR ] ].
    + destruct P as [P1 P2]. destruct (IH P1 Ds) as (A & B & C). split; [ | split; [ exact B | eapply incl_tran; [ exact C | apply FR ] ] ].
      apply method_known; [ exact A | ]. cbn. rewrite app_nil_r. inversion E; subst. now apply col_names.
    + destruct P as [P1 P2]. destruct (IH P1 Ds) as (A & B & C). split; [ | split; [ exact B | eapply incl_tran; [ exact C | apply FR ] ] ].
      apply method_known; [ exact A | ]. cbn. rewrite app_nil_r, flat_map_map. apply incl_flat, Forall_forall. intros c Hc.
      rewrite forallb_forall in P2. specialize (P2 c Hc). destruct c as [c|n]; [ | apply incl0 ]. cbn [con_tree plain_con] in *.
      apply (col_names (PCol c)); [ exact P2 | ]. rewrite Forall_forall in E. apply E. apply in_concat. exists [PCol c]. split; [ | now left ].
      apply in_map_iff. exists (CNColumn c). now split.
    + destruct P as [[P1 P2] P3]. destruct (IH P1 Ds) as (A & B & C). split; [ apply method_known; [ exact A | now apply cols_names ] | ]. split; [ exact B | eapply incl_tran; [ exact C | apply FR ] ].
    + destruct P as [[P1 P2] P3]. destruct (IH P1 Ds) as (A & B & C). split; [ | split; [ exact B | eapply incl_tran; [ exact C | apply FR ] ] ].
      apply method_known; [ exact A | ]. cbn [flat_map names app]. rewrite app_nil_r. inversion E; subst. now apply (col_names (PCol column)).
    + destruct P as [[P1 P2] P3]. destruct (IH P1 Ds) as (A & B & C). split; [ | split; [ exact B | eapply incl_tran; [ exact C | apply FR ] ] ].
      apply method_known; [ exact A | apply incl0 ].
    + destruct P as [[P1 P2] P3]. destruct (IH P1 Ds) as (A & B & C). split; [ apply method_known; [ exact A | now apply cols_names ] | ]. split; [ exact B | eapply incl_tran; [ exact C | apply FR ] ].
    + destruct (IH P Ds) as (A & B & C). split; [ | split; [ exact B | eapply incl_tran; [ exact C | apply FR ] ] ].
      apply method_known; [ exact A | ]. cbn [flat_map]. rewrite app_nil_r. apply int_names.
    + destruct (IH P Ds) as (A & B & C). split; [ | split; [ exact B | eapply incl_tran; [ exact C | apply FR ] ] ].
      apply method_known; [ exact A | ]. cbn [flat_map]. rewrite app_nil_r. apply int_names.
    + destruct P as [P1 P2]. destruct (IH P1 Ds) as (A & B & C). split; [ | split; [ exact B | eapply incl_tran; [ exact C | apply FR ] ] ].
      apply method_known; [ exact A | apply incl0 ].
    + destruct P as [[[P1 P2] P3] P4]. destruct (IH P1 Ds) as (A & B & C). split; [ | split; [ exact B | eapply incl_tran; [ exact C | apply FR ] ] ].
      apply method_known; [ exact A | ]. rewrite flat_map_map. apply incl_flat, Forall_forall. intros e He. rewrite forallb_forall in P4.
      rewrite Forall_forall in E. apply col_names; auto.
  - intros s o IHs IHo P DD. cbn [plain_df] in P. rewrite !Bool.andb_true_iff in P. destruct P as [[P1 P2] P3].
    destruct (IHs P1) as (A & B & C); [ eapply concat_frames; [ exact DD | cbn [frames]; apply incl_tl, incl_appl, incl_refl ] | ].
    destruct (IHo P2) as (A2 & B2 & C2); [ eapply concat_frames; [ exact DD | cbn [frames]; apply incl_tl, incl_appr, incl_refl ] | ].
    rewrite (B2 P3) in A2. cbn [known_first] in A2. split; [ | split; [ exact B | ] ].
    + cbn [df_prog fst snd]. eapply known_weaken; [ apply incl_refl | | exact A ]. intros k' Bk I. cbn [names flat_map snd]. rewrite !app_nil_r.
      apply incl_app; [ exact I | ]. apply incl_app; [ eapply incl_tran; [ exact A2 | exact Bk ] | ]. apply incl1, Bk, in_base. cbn. tauto.
    + eapply incl_tran; [ exact C | ]. intros x Hx. unfold frags. cbn [frag_df]. unfold f_all at 1. cbn [f_lines f_expr map List.concat app].
      rewrite assigned_app. apply in_or_app. now left.
  - intros s o c t IHs IHo P DD. pose proof (D_step _ DD) as (E & _ & _). cbn [step_exprs] in E.
    cbn [plain_df] in P. rewrite !Bool.andb_true_iff in P. destruct P as [[[[P1 P2] P3] P4] P5].
    destruct (IHs P1) as (A & B & C); [ eapply concat_frames; [ exact DD | cbn [frames]; apply incl_tl, incl_appl, incl_refl ] | ].
    destruct (IHo P2) as (A2 & B2 & C2); [ eapply concat_frames; [ exact DD | cbn [frames]; apply incl_tl, incl_appr, incl_refl ] | ].
    rewrite (B2 P3) in A2. cbn [known_first] in A2. split; [ | split; [ exact B | ] ].
    + cbn [df_prog fst snd]. apply method_known; [ exact A | ]. cbn [flat_map names]. rewrite app_nil_r. apply incl_app; [ exact A2 | ].
      inversion E; subst. now apply col_names.
    + eapply incl_tran; [ exact C | ]. intros x Hx. unfold frags. cbn [frag_df]. unfold f_all at 1. cbn [f_lines f_expr map List.concat app].
      rewrite assigned_app. apply in_or_app. now left.
Qed.
End Names.

Lemma assigned_df : forall env p d, transform_pipeline env p = Ok (Some d) -> forall n, In n (assigned (frags d)) -> exists k, n = nm k.
Proof.
  intros env p d H n I. unfold transform_pipeline in H. destruct (run_commands _ p None _) as [st r] eqn:E. cbn in H. subst r.
  assert (F : Forall (CK env) p) by (apply Forall_forall; intros; apply cmd_OK).
  destruct (run_OK env p F 0 _ _ _ _ (Nat.le_0_l _) (OKS_none _ _) E) as [_ K].
  destruct (K d eq_refl) as (G & ks & P & N & _). eapply Permutation_in in I; [ | exact P ]. apply in_map_iff in I as (k & <- & _). now exists k.
Qed.
Lemma render_frame : forall env p code, render_pyspark env p = Ok code ->
  (transform_pipeline env p = Ok None /\ code = "") \/ exists d, transform_pipeline env p = Ok (Some d) /\ code = code_to_string (render_df d).
Proof.
  intros env p code H. unfold render_pyspark in H. destruct (transform_pipeline env p) as [[d|]| |]; cbn [rbind] in H; try discriminate; injection H as <-.
  - right. exists d. now split.
  - now left.
Qed.
Lemma names_provided : forall env p d assignments result,
  (forall c f, occurs c p -> In f (command_calls c) -> contains "." f = false) ->
  transform_pipeline env p = Ok (Some d) -> plain_df d = true -> render_pyspark env p = Ok (code_to_string (render_df d)) /\
  (python_program (code_to_string (render_df d)) assignments result ->
   known_first (provided (env_rt env)) assignments result /\ forall n, In n (map fst assignments) -> ~ In n (provided (env_rt env))).
Proof.
  intros [rt ho gr] p d assignments result HO H P. split; [ unfold render_pyspark; now rewrite H | ]. intro Q.
  apply (read_program_iff d P) in Q. destruct (df_prog d) as [a e] eqn:E. injection Q as -> ->.
  assert (DD : D (okn rt) rt d).
  { eapply pipeline_D; [ intros f Hf; now left | | | exact H ].
    - destruct rt; [ now left | right | right ]; intro f; right; (split; [ discriminate | now exists f ]).
    - intros c Hc. apply Forall_forall. intros f Hf. left. eapply HO; eauto. }
  destruct (df_names rt d P DD) as (K & _ & A). rewrite E in K, A. cbn [fst snd] in K, A. split; [ exact K | ].
  intros n Hn Hb. apply A in Hn. destruct (assigned_df _ _ _ H n Hn) as [k ->]. unfold nm in Hb.
  unfold provided in Hb. cbn [env_rt] in Hb. apply in_app_or in Hb as [Hb|Hb]; [ | destruct rt; cbn in Hb ];
    repeat (destruct Hb as [Hb|Hb]; [ discriminate Hb | ]); contradiction.
Qed.
