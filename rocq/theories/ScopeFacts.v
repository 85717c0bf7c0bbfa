(** C18: the names of intermediate data frames *)
From Coq Require Import Lia Permutation DecimalString DecimalPos DecimalZ.
From Verif Require Import Str SplAst PyAst Functions Transpile Render Commands SpecPipe PipeFacts AllowFacts TreeFacts NamesFacts ShapeFacts.
Open Scope string_scope.

(** ** Names *)
Lemma dec_inj : forall a b, dec a = dec b -> a = b.
Proof.
  assert (K : forall z, NilZero.int_of_string (dec z) = Some (Z.to_int z)).
  { intro z. unfold dec. apply NilZero.isi; destruct z; cbn; try discriminate; intro E; injection E as E; now apply Unsigned.to_uint_nonnil in E. }
  intros a b E. pose proof (K a) as Ka. pose proof (K b) as Kb. rewrite E, Kb in Ka. injection Ka as Ka.
  rewrite <- (DecimalZ.of_to a), <- (DecimalZ.of_to b). now rewrite Ka.
Qed.
Definition nm (k : nat) : string := "df_" ++ dec_nat k.
Lemma nm_inj : forall a b, nm a = nm b -> a = b.
Proof. intros a b E. unfold nm in E. cbn in E. injection E as E. unfold dec_nat in E. apply dec_inj in E. now apply Nat2Z.inj. Qed.

(** ** Walking through the pieces *)
Inductive sc : list string -> list string -> list Frag -> list string -> list string -> Prop :=
| S_nil : forall o d, sc o d [] o d
| S_text : forall o d s l o' d', sc o d l o' d' -> sc o d (FText s :: l) o' d'
| S_assign : forall o d n l o' d', sc (n :: o) d l o' d' -> sc o d (FAssign n :: l) o' d'
| S_end : forall o d n l o' d', sc o (n :: d) l o' d' -> sc (n :: o) d (FEndLine :: l) o' d'
| S_use : forall o d n l o' d', In n d -> sc o d l o' d' -> sc o d (FUse n :: l) o' d'.
Lemma sc_app : forall o d a o1 d1 b o2 d2, sc o d a o1 d1 -> sc o1 d1 b o2 d2 -> sc o d (a ++ b) o2 d2.
Proof. intros o d a o1 d1 b o2 d2 H. revert o2 d2. induction H; intros o2 d2 K; cbn [app]; auto; constructor; auto. Qed.
Lemma sc_scoped : forall o d l d', sc o d l [] d' -> scoped o d l.
Proof. intros o d l d' H. remember [] as o'. induction H; subst; cbn [scoped]; auto. Qed.
Lemma sc_text : forall l o d, sc o d (map FText l) o d.
Proof. induction l; intros; cbn [map]; constructor; auto. Qed.
Definition bal (l : list Frag) : Prop := exists nw, forall o d, sc o d l o (nw ++ d)%list.
Lemma bal_app : forall a b, bal a -> bal b -> bal (a ++ b).
Proof.
  intros a b [n1 H1] [n2 H2]. exists (n2 ++ n1)%list. intros o d. rewrite <- app_assoc. eapply sc_app; eauto.
Qed.
Lemma bal_text : forall s, bal [FText s].
Proof. intro s. exists []. intros o d. constructor. constructor. Qed.
Definition lns (c : FCode) : list Frag := List.concat (map (fun l => l ++ [FEndLine])%list (f_lines c)).
Definition fgood (c : FCode) : Prop :=
  exists nw, (forall o d, sc o d (lns c) o (nw ++ d)%list)
    /\ exists nw2, forall o d, incl nw d -> sc o d (f_expr c) o (nw2 ++ d)%list.
Lemma fgood_all : forall c, fgood c -> bal (f_all c).
Proof.
  intros c (nw & H1 & nw2 & H2). exists (nw2 ++ nw)%list. intros o d. rewrite <- app_assoc. eapply sc_app; [ apply H1 | ].
  apply H2. apply incl_appl. apply incl_refl.
Qed.
Lemma bal_fgood : forall l, bal l -> fgood (mkFCode [] l).
Proof. intros l [nw H]. exists []. split; [ intros; constructor | ]. exists nw. intros o d _. apply H. Qed.

Lemma assigned_app : forall a b, assigned (a ++ b) = (assigned a ++ assigned b)%list.
Proof. induction a as [|[] a IH]; intro b; cbn [app assigned]; auto. now rewrite IH. Qed.
Lemma assigned_text : forall l, assigned (map FText l) = [].
Proof. induction l; cbn; auto. Qed.

(** Text fragments in argument lists *)
Definition texts (l : list Frag) : Prop := exists t, l = map FText t.
Lemma args_shape : forall args kw, plain_args args kw ->
  List.concat (map f_lines (map frag_rexpr args)) = []
  /\ List.concat (map (fun kv : string * FCode => f_lines (snd kv)) (map (fun kv : string * RuntimeExpr => (fst kv, frag_rexpr (snd kv))) kw)) = []
  /\ exists ls, (map f_expr (map frag_rexpr args) ++
       map (fun kv : string * FCode => FText (fst kv ++ "=") :: f_expr (snd kv)) (map (fun kv => (fst kv, frag_rexpr (snd kv))) kw))%list = map (map FText) ls.
Proof.
  intros args kw [A K].
  assert (X : List.concat (map f_lines (map frag_rexpr args)) = [] /\ exists ls, map f_expr (map frag_rexpr args) = map (map FText) ls).
  { induction A as [|x l [L [t T]] Hl [IH1 [ls IH2]]]; [ split; [ reflexivity | now exists [] ] | ]. cbn [map List.concat].
    rewrite L, IH1, T, IH2. split; [ reflexivity | now exists (t :: ls) ]. }
  assert (Y : List.concat (map (fun kv : string * FCode => f_lines (snd kv)) (map (fun kv : string * RuntimeExpr => (fst kv, frag_rexpr (snd kv))) kw)) = []
     /\ exists ls, map (fun kv : string * FCode => FText (fst kv ++ "=") :: f_expr (snd kv)) (map (fun kv : string * RuntimeExpr => (fst kv, frag_rexpr (snd kv))) kw) = map (map FText) ls).
  { induction K as [|x l [L [t T]] Hl [IH1 [ls IH2]]]; [ split; [ reflexivity | now exists [] ] | ]. cbn [map List.concat fst snd].
    rewrite L, IH1, T, IH2. split; [ reflexivity | ]. exists (((fst x ++ "=")%string :: t) :: ls). reflexivity. }
  destruct X as [X1 [lx X2]], Y as [Y1 [ly Y2]]. split; auto. split; auto. exists (lx ++ ly)%list. now rewrite X2, Y2, map_app.
Qed.
Lemma join_first : forall sep x ls, exists t, frag_join sep (x :: map (map FText) ls) = (x ++ map FText t)%list.
Proof.
  intros sep x [|y ls]; [ exists []; cbn; now rewrite app_nil_r | ]. destruct (join_text sep (y :: ls)) as [t T].
  exists (sep :: t). cbn [frag_join map] in *. now rewrite T.
Qed.
(** The code of a runtime call: the lines of the source, and one more *)
Lemma runtime_code : forall n s f args kw, plain_args args kw ->
  exists t, frag_df (DRuntime n s f args kw) =
    let c := match s with Some d => frag_df d | None => mkFCode [] [FText "None"] end in
    mkFCode (f_lines c ++ [FAssign n :: FText ("commands." ++ f ++ "(") :: f_expr c ++ map FText t])%list [FUse n].
Proof.
  intros n s f args kw H. destruct (args_shape args kw H) as (A & B & ls & C). cbn [frag_df].
  set (c := match s with Some d => frag_df d | None => mkFCode [] [FText "None"] end). clearbody c.
  cbn zeta. rewrite A, B. cbn [app].
  destruct (join_first ", " (f_expr c) ls) as [t T]. exists (t ++ [")"])%list. f_equal. f_equal. 
  cbn [map]. rewrite <- C in T. rewrite T, map_app. cbn [map]. now rewrite <- app_assoc.
Qed.

(** ** The invariant *)
Definition OKN (lo hi : nat) (d : DataFrame) : Prop :=
  fgood (frag_df d) /\ exists ks, Permutation (assigned (frags d)) (map nm ks) /\ NoDup ks /\ Forall (fun k => lo <= k < hi) ks.
Definition OKS (lo hi : nat) (s : tstate) : Prop := forall d, s = Some d -> OKN lo hi d.
Lemma OKN_weaken : forall lo hi lo' hi' d, lo' <= lo -> hi <= hi' -> OKN lo hi d -> OKN lo' hi' d.
Proof.
  intros lo hi lo' hi' d H1 H2 (G & ks & E & N & F). split; auto. exists ks. split; auto. split; auto.
  eapply Forall_impl; [ | exact F ]. cbn. intros. lia.
Qed.
Lemma OKN_plain : forall lo hi d, f_lines (frag_df d) = [] -> texts (frags d) -> OKN lo hi d.
Proof.
  intros lo hi d L [t T]. split.
  - assert (E : f_expr (frag_df d) = map FText t) by (unfold frags, f_all in T; rewrite L in T; exact T).
    exists []. unfold lns. rewrite L, E. split; [ intros; constructor | ]. exists []. intros. apply sc_text.
  - exists []. rewrite T, assigned_text. split; [ apply Permutation_refl | split; constructor ].
Qed.
Lemma OKN_source : forall lo hi n, OKN lo hi (DSource n).
Proof. intros. apply OKN_plain; [ reflexivity | ]. now exists ["spark.table('" ++ n ++ "')"]. Qed.
Lemma OKN_raw : forall lo hi n, OKN lo hi (DRawSource n).
Proof. intros. apply OKN_plain; [ reflexivity | ]. now exists [n]. Qed.
Lemma step_code : forall d s, is_step d s -> exists t, frag_df d = mkFCode [] (frags s ++ [FText t]).
Proof. intros d s H. destruct d; try contradiction; cbn in H; subst; cbn [frag_df]; unfold frags; eauto. Qed.
Lemma OKN_step : forall lo hi d s, is_step d s -> OKN lo hi s -> OKN lo hi d.
Proof.
  intros lo hi d s H (G & ks & E & N & F). destruct (step_code d s H) as [t T]. split.
  - rewrite T. apply bal_fgood. apply bal_app; [ now apply fgood_all | apply bal_text ].
  - exists ks. unfold frags. rewrite T. unfold f_all. cbn [f_lines f_expr map List.concat app]. rewrite assigned_app. cbn [assigned].
    rewrite app_nil_r. auto.
Qed.
Lemma NoDup_app2 : forall A (a b : list A), NoDup a -> NoDup b -> (forall x, In x a -> In x b -> False) -> NoDup (a ++ b).
Proof.
  intros A a b Ha Hb H. induction Ha as [|x a Hx Ha IH]; [ exact Hb | ]. cbn [app]. constructor.
  - intro K. apply in_app_or in K. destruct K as [K|K]; [ auto | ]. apply (H x); [ now left | exact K ].
  - apply IH. intros y Hy. apply H. now right.
Qed.
Lemma OKN_two : forall lo mid hi a b d t1 t2, frag_df d = mkFCode [] (frags a ++ FText t1 :: frags b ++ [FText t2]) ->
  lo <= mid -> mid <= hi -> OKN lo mid a -> OKN mid hi b -> OKN lo hi d.
Proof.
  intros lo mid hi a b d t1 t2 E L1 L2 (Ga & ka & Ea & Na & Fa) (Gb & kb & Eb & Nb & Fb). split.
  - rewrite E. apply bal_fgood. apply bal_app; [ now apply fgood_all | ].
    change (FText t1 :: frags b ++ [FText t2])%list with ([FText t1] ++ frags b ++ [FText t2])%list.
    apply bal_app; [ apply bal_text | ]. apply bal_app; [ now apply fgood_all | apply bal_text ].
  - exists (ka ++ kb)%list. unfold frags at 1. rewrite E. unfold f_all. cbn [f_lines f_expr map List.concat app].
    rewrite assigned_app. cbn [assigned]. rewrite assigned_app, map_app. cbn [assigned]. rewrite app_nil_r. split; [ now apply Permutation_app | ]. split.
    + apply NoDup_app2; auto. intros x Hx Hy. rewrite Forall_forall in Fa, Fb. specialize (Fa x Hx). specialize (Fb x Hy). lia.
    + apply Forall_app. split; [ eapply Forall_impl; [ | exact Fa ] | eapply Forall_impl; [ | exact Fb ] ]; cbn; intros; lia.
Qed.
Lemma OKN_runtime : forall lo k s f args kw, lo <= k -> plain_args args kw -> OKS lo k s ->
  OKN lo (S k) (DRuntime (nm k) s f args kw).
Proof.
  intros lo k s f args kw L P H. destruct (runtime_code (nm k) s f args kw P) as [t T].
  set (c := match s with Some d => frag_df d | None => mkFCode [] [FText "None"] end) in *. cbn zeta in T.
  assert (G : fgood c /\ exists ks, Permutation (assigned (f_all c)) (map nm ks) /\ NoDup ks /\ Forall (fun j => lo <= j < k) ks).
  { subst c. destruct s as [d|]; [ exact (H d eq_refl) | ]. split; [ apply bal_fgood; apply bal_text | ].
    exists []. split; [ reflexivity | split; constructor ]. }
  clearbody c. destruct G as ((nw & S1 & nw2 & S2) & ks & E & N & F). split.
  - rewrite T. exists (nm k :: nw2 ++ nw)%list. split.
    + intros o d. unfold lns in *. cbn [f_lines]. rewrite map_app, concat_app. eapply sc_app; [ apply S1 | ].
      cbn [map List.concat]. rewrite app_nil_r. cbn [app]. apply S_assign. apply S_text. rewrite <- app_assoc.
      eapply sc_app; [ apply S2; apply incl_appl; apply incl_refl | ]. eapply sc_app; [ apply sc_text | ].
      rewrite <- app_assoc. apply S_end. apply S_nil.
    + exists []. intros o d I. cbn [f_expr]. apply S_use; [ apply I; now left | apply S_nil ].
  - exists (k :: ks). unfold frags. rewrite T. unfold f_all in *. cbn [f_lines f_expr]. split; [ | split ].
    + rewrite map_app, concat_app, !assigned_app. rewrite assigned_app in E. cbn [map List.concat assigned app].
      rewrite !assigned_app, assigned_text. cbn [assigned app]. rewrite !app_nil_r.
      apply Permutation_sym. cbn [map]. etransitivity; [ | apply Permutation_middle ]. apply perm_skip. now apply Permutation_sym.
    + constructor; auto. intro K. rewrite Forall_forall in F. apply F in K. lia.
    + constructor; [ lia | ]. eapply Forall_impl; [ | exact F ]. cbn. intros. lia.
Qed.

Lemma OKN_built : forall g lo hi d0 d, built g d0 d -> OKN lo hi d0 -> OKN lo hi d.
Proof.
  intros g lo hi d0 d H H0. induction H.
  - exact H0.
  - apply OKN_source.
  - apply OKN_raw.
  - eapply OKN_step; eauto.
  - destruct IHbuilt as (G & ks & E & N & F).
    assert (Z : lo <= hi \/ hi < lo) by lia. destruct Z as [Z|Z].
    + eapply (OKN_two lo hi hi s (DSource n)); [ reflexivity | lia | lia | | apply OKN_source ]. split; eauto.
    + destruct ks as [|k ks]; [ | inversion F; lia ].
      assert (W : OKN lo lo s) by (split; auto; exists []; auto).
      assert (W2 : OKN lo lo (DUnionByName s (DSource n))) by (eapply (OKN_two lo lo lo s (DSource n)); [ reflexivity | lia | lia | exact W | apply OKN_source ]).
      destruct W2 as (G2 & ks2 & E2 & N2 & F2). split; auto. exists ks2. split; auto. split; auto.
      destruct ks2; [ constructor | inversion F2; lia ].
Qed.
Lemma OKS_default : forall lo hi s, OKS lo hi s -> OKN lo hi (d_or_default s).
Proof. intros lo hi [d|] H; [ now apply H | apply OKN_source ]. Qed.
Lemma OKS_none : forall lo hi, OKS lo hi None.
Proof. intros lo hi d E. discriminate. Qed.

Definition CK (env : Env) (c : Command) : Prop := forall lo st st' s s', lo <= st_df st -> OKS lo (st_df st) s ->
  transform_command env c s st = (st', Ok s') -> st_df st <= st_df st' /\ OKS lo (st_df st') s'.
Lemma run_OK : forall env p, Forall (CK env) p -> forall lo st st' s s', lo <= st_df st -> OKS lo (st_df st) s ->
  run_commands (transform_command env) p s st = (st', Ok s') -> st_df st <= st_df st' /\ OKS lo (st_df st') s'.
Proof.
  intros env p F. induction F as [|c p Hc Hp IH]; intros lo st st' s s' L HS H; cbn [run_commands] in H.
  - injection H as <- <-. auto.
  - apply bind_inv in H. destruct H as (s1 & a & E1 & E2). destruct (Hc _ _ _ _ _ L HS E1) as [L1 H1].
    destruct (IH lo _ _ _ _ (Nat.le_trans _ _ _ L L1) H1 E2) as [L2 H2]. split; auto. lia.
Qed.
Lemma unions_OK : forall env ps, Forall (Forall (CK env)) ps -> forall lo st st' cur r, lo <= st_df st -> OKS lo (st_df st) cur ->
  run_unions (transform_command env) ps cur st = (st', Ok r) -> st_df st <= st_df st' /\ OKS lo (st_df st') r.
Proof.
  intros env ps F. induction F as [|p ps Hp Hps IH]; intros lo st st' cur r L HS H; cbn [run_unions] in H.
  - injection H as <- <-. auto.
  - apply bind_inv in H. destruct H as (s1 & a & E1 & E2).
    destruct (run_OK env p Hp (st_df st) st s1 None a (le_n _) (OKS_none _ _) E1) as [L1 H1].
    destruct a as [d|]; [ | discriminate ].
    assert (X : OKS lo (st_df s1) (Some match cur with None => d | Some c => DUnionByName c d end)).
    { intros x E. injection E as <-. destruct cur as [c|].
      - eapply OKN_two; [ reflexivity | exact L | exact L1 | exact (HS c eq_refl) | exact (H1 d eq_refl) ].
      - eapply OKN_weaken; [ exact L | apply le_n | exact (H1 d eq_refl) ]. }
    destruct (IH lo _ _ _ _ (Nat.le_trans _ _ _ L L1) X E2) as [L2 H2]. split; auto. lia.
Qed.
Lemma cmd_OK : forall env c, CK env c.
Proof.
  intros env. induction c using cmd_induct; intros lo st st' s s' L HS HT.
  - cbn [transform_command] in HT. apply only_none in HT. destruct HT as (_ & x & E & ->).
    apply bind_inv in E. destruct E as (s1 & u & E0 & E). apply lift_inv in E0. destruct E0 as [-> _].
    apply bind_inv in E. destruct E as (s2 & r & E & EJ). apply lift_inv in EJ. destruct EJ as [-> EJ].
    destruct (run_OK env p H (st_df st) st s2 None r (le_n _) (OKS_none _ _) E) as [L1 H1]. split; auto.
    unfold t_join in EJ. destruct r as [r|]; [ | discriminate ]. apply rbind_inv in EJ. destruct EJ as (ty & _ & EJ).
    apply rbind_inv in EJ. destruct EJ as (cd & _ & EJ). injection EJ as <-. intros d Ed. injection Ed as <-.
    eapply OKN_two; [ reflexivity | exact L | exact L1 | | ].
    + eapply OKN_step; [ reflexivity | now apply OKS_default ].
    + eapply OKN_step; [ reflexivity | exact (H1 r eq_refl) ].
  - cbn [transform_command] in HT. destruct ps as [|p ps].
    + destruct (env_rt env); [ injection HT as <- <-; auto | injection HT as <- <-; auto | discriminate ].
    + apply only_none in HT. destruct HT as (_ & x & E & ->). apply bind_inv in E. destruct E as (s1 & r & E & E2).
      destruct r as [d|]; [ | discriminate ]. injection E2 as -> ->.
      exact (unions_OK env (p :: ps) H lo st _ None _ L (OKS_none _ _) E).
  - destruct (cmd_shape env c s st st' s' H HT) as (d & -> & [[B E]|(_ & _ & f & args & kw & B & P & E)]).
    + rewrite E. split; auto. intros x Ex. injection Ex as <-. eapply OKN_built; [ exact B | now apply OKS_default ].
    + rewrite E. split; [ lia | ]. intros x Ex. injection Ex as <-. eapply OKN_built; [ exact B | ]. now apply OKN_runtime.
Qed.
Lemma names_scoped : forall env p d, transform_pipeline env p = Ok (Some d) ->
  NoDup (assigned (frags d)) /\ scoped [] [] (frags d).
Proof.
  intros env p d H. unfold transform_pipeline in H. destruct (run_commands _ p None _) as [st r] eqn:E. cbn in H. subst r.
  assert (F : Forall (CK env) p) by (apply Forall_forall; intros; apply cmd_OK).
  destruct (run_OK env p F 0 _ _ _ _ (Nat.le_0_l _) (OKS_none _ _) E) as [_ K].
  destruct (K d eq_refl) as (G & ks & P & N & _). split.
  - eapply Permutation_NoDup; [ apply Permutation_sym; exact P | ]. apply FinFun.Injective_map_NoDup; [ exact nm_inj | exact N ].
  - destruct (fgood_all _ G) as [nw B]. apply (sc_scoped _ _ _ (nw ++ [])%list). apply B.
Qed.
