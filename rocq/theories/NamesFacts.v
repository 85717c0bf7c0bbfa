(** C17, C18, C19: the pieces of the rendered text *)
From Coq Require Import Lia Permutation.
From Verif Require Import Str SplAst PyAst Functions Transpile Render Commands SpecPipe PipeFacts AllowFacts TreeFacts.
Open Scope string_scope.

Section DfInd.
  Variables (P : DataFrame -> Prop) (Q : RuntimeExpr -> Prop).
  Hypothesis Hd : forall d, P d -> Q (RDataFrame d).
  Hypothesis He : forall e, Q (RExpr e).
  Hypothesis Hdict : forall l, Forall (fun kv => Q (snd kv)) l -> Q (RDict l).
  Hypothesis Hlist : forall l, Forall Q l -> Q (RList l).
  Hypothesis Hfunc : forall f l k, Forall Q l -> Forall (fun kv => Q (snd kv)) k -> Q (RFunc f l k).
  Hypothesis Hsrc : forall n, P (DSource n).
  Hypothesis Hraw : forall n, P (DRawSource n).
  Hypothesis Hrt : forall n s f l k, (forall d, s = Some d -> P d) -> Forall Q l -> Forall (fun kv => Q (snd kv)) k ->
    P (DRuntime n s f l k).
  Hypothesis Hstep : forall d s, match d with
    | DNamed s' _ | DSelect s' _ | DWhere s' _ | DGroupBy s' _ | DAggregation s' _
    | DWithColumn s' _ _ | DWithColumnRenamed s' _ _ | DOrderBy s' _ | DLimit s' _ | DTail s' _
    | DAlias s' _ | DArbitraryMethod s' _ _ => s' = s | _ => False end -> P s -> P d.
  Hypothesis Hunion : forall s o, P s -> P o -> P (DUnionByName s o).
  Hypothesis Hjoin : forall s o c t, P s -> P o -> P (DJoin s o c t).
  Fixpoint df_induct (d : DataFrame) : P d :=
    let go := (fix go l : Forall Q l :=
          match l with nil => Forall_nil _ | x :: l' => Forall_cons _ (rt_induct x) (go l') end) in
    let gok := (fix gok l : Forall (fun kv => Q (snd kv)) l :=
          match l with nil => Forall_nil _ | (k, x) :: l' => Forall_cons _ (rt_induct x : Q (snd (k, x))) (gok l') end) in
    match d with
    | DSource n => Hsrc n
    | DRawSource n => Hraw n
    | DRuntime n s f l k => Hrt n s f l k
        (match s with Some d0 => fun d E => match E in _ = o return match o with Some d => P d | None => True end with eq_refl => df_induct d0 end
                    | None => fun d E => False_ind _ (match E in _ = o return match o with Some _ => False | None => True end with eq_refl => I end) end)
        (go l) (gok k)
    | DUnionByName s o => Hunion s o (df_induct s) (df_induct o)
    | DJoin s o c t => Hjoin s o c t (df_induct s) (df_induct o)
    | DNamed s n => Hstep (DNamed s n) s eq_refl (df_induct s)
    | DSelect s n => Hstep (DSelect s n) s eq_refl (df_induct s)
    | DWhere s n => Hstep (DWhere s n) s eq_refl (df_induct s)
    | DGroupBy s n => Hstep (DGroupBy s n) s eq_refl (df_induct s)
    | DAggregation s n => Hstep (DAggregation s n) s eq_refl (df_induct s)
    | DWithColumn s n c => Hstep (DWithColumn s n c) s eq_refl (df_induct s)
    | DWithColumnRenamed s n c => Hstep (DWithColumnRenamed s n c) s eq_refl (df_induct s)
    | DOrderBy s n => Hstep (DOrderBy s n) s eq_refl (df_induct s)
    | DLimit s n => Hstep (DLimit s n) s eq_refl (df_induct s)
    | DTail s n => Hstep (DTail s n) s eq_refl (df_induct s)
    | DAlias s n => Hstep (DAlias s n) s eq_refl (df_induct s)
    | DArbitraryMethod s n l => Hstep (DArbitraryMethod s n l) s eq_refl (df_induct s)
    end
  with rt_induct (r : RuntimeExpr) : Q r :=
    let go := (fix go l : Forall Q l :=
          match l with nil => Forall_nil _ | x :: l' => Forall_cons _ (rt_induct x) (go l') end) in
    let gok := (fix gok l : Forall (fun kv => Q (snd kv)) l :=
          match l with nil => Forall_nil _ | (k, x) :: l' => Forall_cons _ (rt_induct x : Q (snd (k, x))) (gok l') end) in
    match r with
    | RDataFrame d => Hd d (df_induct d)
    | RExpr e => He e
    | RDict l => Hdict l (gok l)
    | RList l => Hlist l (go l)
    | RFunc f l k => Hfunc f l k (go l) (gok k)
    end.
End DfInd.

(** ** Spelling the pieces gives the rendered text *)
Definition SP (fc : FCode) (c : PythonCode) : Prop :=
  map spell (f_lines fc) = preface c /\ spell (f_expr fc) = primary c.
Lemma spell_cons : forall f l, spell (f :: l) = spell1 f ++ spell l.
Proof. reflexivity. Qed.
Lemma app_assoc_s : forall a b c : string, (a ++ b) ++ c = a ++ b ++ c.
Proof. induction a; intros; cbn; [ reflexivity | now rewrite IHa ]. Qed.
Lemma app_nil_s : forall a : string, a ++ "" = a.
Proof. induction a; cbn; [ reflexivity | now rewrite IHa ]. Qed.
Lemma spell_app : forall a b, spell (a ++ b)%list = spell a ++ spell b.
Proof. induction a as [|x a IH]; intro b; [ reflexivity | ]. cbn [app]. rewrite !spell_cons, IH. now rewrite app_assoc_s. Qed.
Lemma spell_text : forall s, spell [FText s] = s.
Proof. intro. unfold spell. cbn. apply app_nil_s. Qed.
Lemma spell_join : forall sep l, spell (frag_join sep l) = join sep (map spell l).
Proof.
  intros sep. induction l as [|x [|y l] IH]; [ reflexivity | reflexivity | ].
  cbn [frag_join map join] in *. rewrite spell_app, spell_cons, IH. cbn [spell1]. reflexivity.
Qed.
Lemma spell_all : forall fc c, SP fc c -> spell (f_all fc) = code_to_string c.
Proof.
  intros fc c [H1 H2]. unfold f_all, code_to_string. rewrite spell_app, H2. f_equal. rewrite <- H1. clear.
  induction (f_lines fc) as [|l ls IH]; [ reflexivity | ]. cbn [map List.concat]. rewrite !spell_app, IH.
  unfold spell at 2. cbn. reflexivity.
Qed.
Definition SPd (d : DataFrame) := SP (frag_df d) (render_df d).
Definition SPr (r : RuntimeExpr) := SP (frag_rexpr r) (render_rexpr r).
Lemma map_spell_r : forall l, Forall SPr l -> map spell (map (fun x => f_expr (frag_rexpr x)) l) = map (fun x => primary (render_rexpr x)) l.
Proof. intros l H. induction H as [|x l [_ Hx] Hl IH]; [ reflexivity | ]. cbn [map]. now rewrite Hx, IH. Qed.
Lemma map_spell_k : forall (l : list (string * RuntimeExpr)), Forall (fun kv => SPr (snd kv)) l ->
  map spell (map (fun kv => FText (fst kv ++ "=") :: f_expr (frag_rexpr (snd kv))) l) = map (fun kv => kwarg (fst kv) (primary (render_rexpr (snd kv)))) l.
Proof.
  intros l H. induction H as [|x l [_ Hx] Hl IH]; [ reflexivity | ]. cbn [map]. rewrite spell_cons, Hx, IH. unfold kwarg. cbn [spell1].
  now rewrite app_assoc_s.
Qed.
Lemma lines_r : forall l, Forall SPr l -> map spell (List.concat (map f_lines (map frag_rexpr l))) = List.concat (map preface (map render_rexpr l)).
Proof. intros l H. induction H as [|x l [Hx _] Hl IH]; [ reflexivity | ]. cbn [map List.concat]. now rewrite map_app, Hx, IH. Qed.
Lemma lines_k : forall (l : list (string * RuntimeExpr)), Forall (fun kv => SPr (snd kv)) l ->
  map spell (List.concat (map (fun kv : string * FCode => f_lines (snd kv)) (map (fun kv => (fst kv, frag_rexpr (snd kv))) l)))
  = List.concat (map (fun kv : string * PythonCode => preface (snd kv)) (map (fun kv => (fst kv, render_rexpr (snd kv))) l)).
Proof. intros l H. induction H as [|x l [Hx _] Hl IH]; [ reflexivity | ]. cbn [map List.concat fst snd]. now rewrite map_app, Hx, IH. Qed.
Lemma map_map_k : forall l, map (fun kv : string * FCode => FText (fst kv ++ "=") :: f_expr (snd kv)) (map (fun kv : string * RuntimeExpr => (fst kv, frag_rexpr (snd kv))) l)
  = map (fun kv => FText (fst kv ++ "=") :: f_expr (frag_rexpr (snd kv))) l.
Proof. intro l. rewrite map_map. reflexivity. Qed.
Lemma map_map_k2 : forall l, map (fun kv : string * PythonCode => kwarg (fst kv) (primary (snd kv))) (map (fun kv : string * RuntimeExpr => (fst kv, render_rexpr (snd kv))) l)
  = map (fun kv => kwarg (fst kv) (primary (render_rexpr (snd kv)))) l.
Proof. intro l. rewrite map_map. reflexivity. Qed.
Lemma spell_df : forall d, SPd d.
Proof.
  apply (df_induct SPd SPr); unfold SPd, SPr.
  - auto.
  - intro e. split; [ reflexivity | apply spell_text ].
  - intros l H. split; [ reflexivity | ]. cbn [frag_rexpr render_rexpr f_expr primary]. rewrite spell_cons, spell_app, spell_join, spell_text.
    cbn [spell1]. do 3 f_equal. induction H as [|x l [_ Hx] Hl IH]; [ reflexivity | ]. cbn [map]. rewrite IH, spell_cons, Hx. cbn [spell1]. now rewrite !app_assoc_s.
  - intros l H. split; [ reflexivity | ]. cbn [frag_rexpr render_rexpr f_expr primary]. rewrite spell_cons, spell_app, spell_join, spell_text.
    cbn [spell1]. do 3 f_equal. now apply map_spell_r.
  - intros f l k H1 H2. split; [ reflexivity | ]. cbn [frag_rexpr render_rexpr f_expr primary]. rewrite spell_cons, spell_app, spell_join, spell_text.
    cbn [spell1]. rewrite map_app, map_spell_r, map_spell_k by assumption. now rewrite !app_assoc_s.
  - intro n. split; [ reflexivity | apply spell_text ].
  - intro n. split; [ reflexivity | apply spell_text ].
  - intros n s f l k Hs Hl Hk. cbn [frag_df render_df]. rewrite map_map_k, map_map_k2.
    set (sf := match s with Some d => frag_df d | None => mkFCode [] [FText "None"] end).
    set (sc := match s with Some d => Some (render_df d) | None => None end).
    assert (S1 : map spell (f_lines sf) = match sc with Some c => preface c | None => [] end).
    { subst sf sc. destruct s as [d|]; [ apply (Hs d eq_refl) | reflexivity ]. }
    assert (S2 : spell (f_expr sf) = match sc with Some c => primary c | None => "None" end).
    { subst sf sc. destruct s as [d|]; [ apply (Hs d eq_refl) | reflexivity ]. }
    clearbody sf sc. split; cbn [f_lines f_expr preface primary].
    + rewrite !map_app, S1, lines_r, lines_k by assumption. do 3 f_equal. cbn [map]. f_equal.
      rewrite !spell_cons, spell_app, spell_join, spell_text. cbn [map spell1]. rewrite S2, map_app.
      rewrite (map_map frag_rexpr f_expr), (map_map render_rexpr primary), map_spell_r, map_spell_k by assumption.
      rewrite !app_assoc_s. reflexivity.
    + unfold spell. cbn. now rewrite app_nil_s.
  - intros d s Hd Hs. pose proof (spell_all _ _ Hs) as A.
    destruct d; try contradiction; subst; cbn [frag_df render_df];
      try (split; cbn [f_lines f_expr preface primary]; [ reflexivity | rewrite spell_app, spell_text, A; reflexivity ]).
    destruct Hs as [H1 H2]. split; cbn [f_lines f_expr preface primary].
    + rewrite map_app, H1. cbn [map]. rewrite spell_cons, H2. cbn [spell1]. now rewrite app_assoc_s.
    + unfold spell. cbn. now rewrite app_nil_s.
  - intros s o Hs Ho. pose proof (spell_all _ _ Hs) as A. pose proof (spell_all _ _ Ho) as B. cbn [frag_df render_df].
    split; cbn [f_lines f_expr preface primary]; [ reflexivity | ]. rewrite spell_app, spell_cons, spell_app, spell_text, A, B. reflexivity.
  - intros s o c t Hs Ho. pose proof (spell_all _ _ Hs) as A. pose proof (spell_all _ _ Ho) as B. cbn [frag_df render_df].
    split; cbn [f_lines f_expr preface primary]; [ reflexivity | ]. rewrite spell_app, spell_cons, spell_app, spell_text, A, B. reflexivity.
Qed.
Lemma spell_frags : forall d, spell (frags d) = code_to_string (render_df d).
Proof. intro d. apply spell_all. apply spell_df. Qed.

(** ** C17 *)
Lemma no_runtime_inert : forall d, (forall x, In x (frames d) -> ~ is_runtime x) -> f_lines (frag_df d) = [] /\ Forall (fun f => exists s, f = FText s) (frags d).
Proof.
  apply (df_induct (fun d => (forall x, In x (frames d) -> ~ is_runtime x) -> f_lines (frag_df d) = [] /\ Forall (fun f => exists s, f = FText s) (frags d)) (fun _ => True)); auto.
  - intros n _. split; [ reflexivity | repeat constructor; eauto ].
  - intros n _. split; [ reflexivity | repeat constructor; eauto ].
  - intros n s f l k _ _ _ H. elim (H (DRuntime n s f l k)); [ now left | exact I ].
  - intros d s Hd IH H.
    assert (X : forall x, In x (frames s) -> ~ is_runtime x).
    { intros x Hx. apply H. destruct d; try contradiction; subst; cbn [frames]; now right. }
    destruct (IH X) as [L F]. 
    destruct d; try contradiction; subst; try (split; [ reflexivity | ]; unfold frags, f_all in *; cbn [frag_df f_lines f_expr map List.concat app]; apply Forall_app; split; [ exact F | repeat constructor; eauto ]).
    elim (H (DNamed s name)); [ now left | exact I ].
  - intros s o IHs IHo H. destruct IHs as [L1 F1]; [ intros; apply H; cbn [frames]; right; apply in_or_app; auto | ].
    destruct IHo as [L2 F2]; [ intros; apply H; cbn [frames]; right; apply in_or_app; auto | ].
    split; [ reflexivity | ]. unfold frags, f_all in *. cbn [frag_df f_lines f_expr map List.concat app]. apply Forall_app. split; [ exact F1 | ].
    constructor; eauto. apply Forall_app. split; [ exact F2 | repeat constructor; eauto ].
  - intros s o c t IHs IHo H. destruct IHs as [L1 F1]; [ intros; apply H; cbn [frames]; right; apply in_or_app; auto | ].
    destruct IHo as [L2 F2]; [ intros; apply H; cbn [frames]; right; apply in_or_app; auto | ].
    split; [ reflexivity | ]. unfold frags, f_all in *. cbn [frag_df f_lines f_expr map List.concat app]. apply Forall_app. split; [ exact F1 | ].
    constructor; eauto. apply Forall_app. split; [ exact F2 | repeat constructor; eauto ].
Qed.
Lemma standalone_code : forall ho gr p d,
  (forall c f, occurs c p -> In f (command_calls c) -> contains "." f = false) ->
  transform_pipeline (mkEnv Disallow ho gr) p = Ok (Some d) ->
  (forall x, In x (frames d) -> ~ is_runtime x)
  /\ (forall f, In f (frags d) -> exists s, f = FText s)
  /\ (forall f args, In (CFunctionCall f args) (all_columns d) -> contains "." f = false).
Proof.
  intros ho gr p d HO H.
  assert (DD : D (fun f => contains "." f = false) Disallow d).
  { eapply pipeline_D; [ auto | now left | | exact H ]. intros c Hc. apply Forall_forall. intros f Hf. eapply HO; eauto. }
  unfold D in DD. rewrite Forall_forall in DD.
  assert (R : forall x, In x (frames d) -> ~ is_runtime x).
  { intros x Hx Hr. destruct (DD x Hx) as (_ & _ & K). now apply K in Hr. }
  split; [ exact R | ]. split.
  - apply Forall_forall. now apply no_runtime_inert.
  - intros f args Hf. unfold all_columns in Hf. apply in_concat in Hf. destruct Hf as (l & Hl & Hf).
    apply in_map_iff in Hl. destruct Hl as (x & <- & Hx). apply in_concat in Hf. destruct Hf as (l & Hl & Hf).
    apply in_map_iff in Hl. destruct Hl as (e & <- & He). destruct (DD x Hx) as (K & _). rewrite Forall_forall in K. specialize (K e He).
    unfold PW in K. rewrite Forall_forall in K. apply K in Hf. exact (proj2 Hf).
Qed.
(** ** C22 *)
Lemma operands_clean : forall env p d, transform_pipeline env p = Ok (Some d) ->
  (forall c, In c (all_columns d) -> operands_unaliased c)
  /\ (forall x e, In x (frames d) -> In e (step_conditions x) -> ~ is_alias_of e).
Proof.
  intros [rt ho gr] p d H.
  assert (DD : D (fun _ => True) rt d).
  { eapply pipeline_D; [ auto | now right | | exact H ]. intros c Hc. apply Forall_forall. auto. }
  unfold D in DD. rewrite Forall_forall in DD. split.
  - intros c Hf. unfold all_columns in Hf. apply in_concat in Hf. destruct Hf as (l & Hl & Hf).
    apply in_map_iff in Hl. destruct Hl as (x & <- & Hx). apply in_concat in Hf. destruct Hf as (l & Hl & Hf).
    apply in_map_iff in Hl. destruct Hl as (e & <- & He). destruct (DD x Hx) as (K & _). rewrite Forall_forall in K. specialize (K e He).
    unfold PW in K. rewrite Forall_forall in K. apply K in Hf. exact (proj1 Hf).
  - intros x e Hx He. destruct (DD x Hx) as (_ & K & _). rewrite Forall_forall in K. auto.
Qed.
