(** C19: assignments and one expression *)
From Coq Require Import Lia Permutation.
From Verif Require Import Str SplAst PyAst Functions Transpile Render Commands SpecPipe PipeFacts AllowFacts TreeFacts NamesFacts ShapeFacts ScopeFacts.
Open Scope string_scope.

Definition plain (d : DataFrame) : Prop := f_lines (frag_df d) = [] /\ texts (frags d).
Definition two (d a b : DataFrame) : Prop :=
  exists t1 t2, frag_df d = mkFCode [] (frags a ++ FText t1 :: frags b ++ [FText t2]).
(** Properties kept by every command that has no runtime version *)
Definition closed (G : DataFrame -> Prop) : Prop :=
  (forall d, plain d -> G d) /\ (forall d s, is_step d s -> G s -> G d) /\ (forall d a b, two d a b -> G a -> plain b -> G d).
Lemma texts_app : forall a b, texts a -> texts b -> texts (a ++ b).
Proof. intros a b [x ->] [y ->]. exists (x ++ y)%list. now rewrite map_app. Qed.
Lemma texts_one : forall s, texts [FText s].
Proof. intro s. now exists [s]. Qed.
Lemma texts_cons : forall s l, texts l -> texts (FText s :: l).
Proof. intros s l [x ->]. now exists (s :: x). Qed.
Lemma frags_flat : forall d l, frag_df d = mkFCode [] l -> frags d = l.
Proof. intros d l E. unfold frags, f_all. now rewrite E. Qed.
Lemma closed_plain : closed plain.
Proof.
  split; [ auto | split ].
  - intros d s H [_ P]. destruct (step_code d s H) as [t T]. split; [ now rewrite T | ].
    rewrite (frags_flat _ _ T). apply texts_app; [ exact P | apply texts_one ].
  - intros d a b (t1 & t2 & T) [_ Pa] [_ Pb]. split; [ now rewrite T | ]. rewrite (frags_flat _ _ T).
    apply texts_app; [ exact Pa | ]. apply texts_cons. apply texts_app; [ exact Pb | apply texts_one ].
Qed.
Lemma plain_source : forall n, plain (DSource n).
Proof. intro n. split; [ reflexivity | ]. now exists ["spark.table('" ++ n ++ "')"]. Qed.
Lemma plain_raw : forall n, plain (DRawSource n).
Proof. intro n. split; [ reflexivity | ]. now exists [n]. Qed.
Lemma closed_built : forall G g d0 d, closed G -> built g d0 d -> G d0 -> G d.
Proof.
  intros G g d0 d (C1 & C2 & C3) B H. induction B; auto.
  - apply C1, plain_source.
  - apply C1, plain_raw.
  - eapply C2; eauto.
  - eapply C3; [ exists ".unionByName(", ", allowMissingColumns=True,)"; reflexivity | exact IHB | apply plain_source ].
Qed.
Definition GS (G : DataFrame -> Prop) (s : tstate) : Prop := forall d, s = Some d -> G d.
Lemma GS_default : forall G s, closed G -> GS G s -> G (d_or_default s).
Proof. intros G [d|] (C & _) H; [ now apply H | apply C, plain_source ]. Qed.
Lemma GS_none : forall G, GS G None.
Proof. intros G d E. discriminate. Qed.
Definition bare (p : list Command) : Prop := forall c, occurs c p -> ~ has_runtime c.
Lemma bare_cons : forall c p, bare (c :: p) -> bare [c] /\ bare p.
Proof.
  intros c p H. split; intros x Hx; apply H.
  - inversion Hx as [? Hi|? o q Hi Hq|? qs q Hi Hq Hc]; subst; destruct Hi as [Hi|[]]; subst.
    + apply OC_here. now left.
    + eapply OC_join; [ now left | exact Hq ].
    + eapply OC_multisearch; [ now left | exact Hq | exact Hc ].
  - inversion Hx as [? Hi|? o q Hi Hq|? qs q Hi Hq Hc]; subst.
    + apply OC_here. now right.
    + eapply OC_join; [ right; eauto | exact Hq ].
    + eapply OC_multisearch; [ right; eauto | exact Hq | exact Hc ].
Qed.
Definition CB (env : Env) (c : Command) : Prop := forall G, closed G -> bare [c] -> forall st st' s s', GS G s ->
  transform_command env c s st = (st', Ok s') -> GS G s'.
Lemma run_bare : forall env p, Forall (CB env) p -> forall G, closed G -> bare p -> forall st st' s s', GS G s ->
  run_commands (transform_command env) p s st = (st', Ok s') -> GS G s'.
Proof.
  intros env p F G C. induction F as [|c p Hc Hp IH]; intros HB st st' s s' HS H; cbn [run_commands] in H.
  - now injection H as <- <-.
  - apply bare_cons in HB. destruct HB as [B1 B2]. apply bind_inv in H. destruct H as (s1 & a & E1 & E2).
    exact (IH B2 _ _ _ _ (Hc G C B1 _ _ _ _ HS E1) E2).
Qed.
Lemma unions_bare : forall env ps, Forall (Forall (CB env)) ps -> Forall bare ps -> forall st st' cur r, GS plain cur ->
  run_unions (transform_command env) ps cur st = (st', Ok r) -> GS plain r.
Proof.
  intros env ps F. induction F as [|p ps Hp Hps IH]; intros HB st st' cur r HS H; cbn [run_unions] in H.
  - now injection H as <- <-.
  - inversion HB; subst. apply bind_inv in H. destruct H as (s1 & a & E1 & E2).
    assert (K : GS plain a) by (eapply (run_bare env p Hp plain closed_plain); [ assumption | apply GS_none | exact E1 ]).
    destruct a as [d|]; [ | discriminate ]. eapply IH; [ assumption | | exact E2 ].
    intros x E. injection E as <-. destruct cur as [c|]; [ | now apply K ]. destruct closed_plain as (_ & _ & C3).
    eapply C3; [ exists ".unionByName(", ", allowMissingColumns=True,)"; reflexivity | now apply HS | now apply K ].
Qed.
Lemma cmd_bare : forall env c, CB env c.
Proof.
  intros env. induction c using cmd_induct; intros G C HB st st' s s' HS HT.
  - cbn [transform_command] in HT. apply only_none in HT. destruct HT as (_ & x & E & ->).
    apply bind_inv in E. destruct E as (s1 & u & E0 & E). apply lift_inv in E0. destruct E0 as [-> _].
    apply bind_inv in E. destruct E as (s2 & r & E & EJ). apply lift_inv in EJ. destruct EJ as [-> EJ].
    assert (B : bare p). { intros c Hc. apply HB. eapply OC_join; [ now left | exact Hc ]. }
    pose proof (run_bare env p H plain closed_plain B _ _ _ _ (GS_none _) E) as K.
    unfold t_join in EJ. destruct r as [r|]; [ | discriminate ]. apply rbind_inv in EJ. destruct EJ as (ty & _ & EJ).
    apply rbind_inv in EJ. destruct EJ as (cd & _ & EJ). injection EJ as <-. intros d Ed. injection Ed as <-.
    pose proof (GS_default G s C HS) as X. destruct C as (C1 & C2 & C3). destruct closed_plain as (_ & P2 & _).
    eapply C3; [ eexists _, _; reflexivity | eapply C2; [ reflexivity | exact X ] | eapply P2; [ reflexivity | now apply K ] ].
  - cbn [transform_command] in HT. destruct ps as [|p ps].
    + destruct (env_rt env); [ now injection HT as <- <- | now injection HT as <- <- | discriminate ].
    + apply only_none in HT. destruct HT as (_ & x & E & ->). apply bind_inv in E. destruct E as (s1 & r & E & E2).
      destruct r as [d|]; [ | discriminate ]. injection E2 as -> ->.
      assert (K : GS plain (Some x)).
      { eapply (unions_bare env (p :: ps) H); [ | apply GS_none | exact E ]. apply Forall_forall. intros q Hq c Hc. apply HB.
        eapply OC_multisearch; [ now left | exact Hq | exact Hc ]. }
      destruct C as (C1 & _). intros d Ed. apply C1. now apply K.
  - destruct (cmd_shape env c s st st' s' H HT) as (d & -> & [[B E]|(_ & R & _)]).
    + intros x Ex. injection Ex as <-. eapply closed_built; [ exact C | exact B | now apply GS_default ].
    + elim (HB c); [ apply OC_here; now left | exact R ].
Qed.

(** ** Runtime calls *)
(** The command has a runtime version, and its translation, alone, is one call of the runtime library *)
Definition is_call (env : Env) (c : Command) : Prop :=
  has_runtime c /\ exists n f args kw, transform_pipeline env [c] = Ok (Some (DRuntime n None f args kw)).
Lemma built_not_rt : forall g d0 d, built g d0 d -> ~ is_runtime d0 -> ~ is_runtime d.
Proof. intros g d0 d B H. destruct B; auto. destruct d; cbn in *; auto. Qed.
Lemma built_rt : forall n s f a k d, built False (DRuntime n s f a k) d -> is_runtime d -> d = DRuntime n s f a k.
Proof. intros n s f a k d B H. destruct B; auto; try contradiction. destruct d; cbn in *; contradiction. Qed.
Lemma call_lift : forall A (R : res A) f g h (m : tstate -> M DataFrame) env c,
  (forall s st, transform_command env c s st = (do d <- or_else (do x <- lift R; d_runtime s f (g x) (h x)) (m s); ret (Some d)) st) ->
  (forall st st' d, m None st = (st', Ok d) -> ~ is_runtime d) ->
  forall st st' n f' a k, transform_command env c None st = (st', Ok (Some (DRuntime n None f' a k))) ->
  forall s st, transform_command env c s st = (mkSt (S (st_df st)) (st_hash st), Ok (Some (DRuntime (df_name st) s f' a k))).
Proof.
  intros A [x| | ] f g h m env c H N st st' n f' a k E s st2; rewrite H in E |- *; cbn in E |- *.
  - injection E as <- <- <- <- <-. reflexivity.
  - unfold bind, or_else in E. cbn in E. destruct (m None st) as [s1 [d| | ]] eqn:F; try discriminate. apply N in F.
    injection E as <- ->. elim F. exact I.
  - discriminate.
Qed.
Lemma call_any : forall ho gr c, is_call (mkEnv Allow ho gr) c ->
  exists f args kw, plain_args args kw /\ forall s st, transform_command (mkEnv Allow ho gr) c s st
    = (mkSt (S (st_df st)) (st_hash st), Ok (Some (DRuntime (df_name st) s f args kw))).
Proof.
  intros ho gr c (HR & n & f & args & kw & H). set (env := mkEnv Allow ho gr) in *.
  unfold transform_pipeline in H. destruct (run_commands _ [c] None _) as [st1 r1] eqn:E. cbn in H. subst r1.
  cbn [run_commands] in E. apply bind_inv in E. destruct E as (s1 & a & E & E2). injection E2 as -> ->.
  assert (NS : ~ has_subsearch c) by (destruct c; cbn in HR |- *; auto).
  exists f, args, kw. split.
  - destruct (cmd_shape env c None _ _ _ NS E) as (d & Ed & [[B _]|(_ & R & f' & args' & kw' & B & P & _)]).
    + injection Ed as <-. elim (built_not_rt _ _ _ B); [ auto | exact I ].
    + injection Ed as <-. apply built_rt in B; [ | exact I ]. now injection B as _ _ -> ->.
  - destruct c; cbn in HR; try contradiction.
    + eapply (call_lift unit (Ok tt) "data_model" (fun _ => []) (fun _ => [ ("data_model_name", RExpr (pylit_opt_str (dm_data_model_name c)));
      ("dataset_name", RExpr (pylit_opt_str (dm_dataset_name c)));
      ("search_mode", RExpr (pylit_opt_str (dm_search_mode c)));
      ("strict_fields", RExpr (pylit_bool (dm_strict_fields c)));
      ("allow_old_summaries", RExpr (pylit_bool (dm_allow_old_summaries c)));
      ("summaries_only", RExpr (pylit_bool (dm_summaries_only c))) ]) (fun s => lift (t_datamodel_standalone c s)));
       [ intros s st; reflexivity | | exact E ]. intros st st' d F.
      apply lift_inv in F. destruct F as [_ F]. unfold t_datamodel_standalone in F. apply rbind_inv in F. destruct F as (_ & _ & F).
      destruct (dm_data_model_name c), (dm_dataset_name c); try discriminate; injection F as <-; auto.
    + eapply (call_lift _ (rtraverse _ _) "eval" (fun _ => []) (fun kw => kw) (fun s => lift (t_eval_go Allow _ (d_or_default s)))); [ intros s st; reflexivity | | exact E ]. intros st st' d F.
      apply lift_inv in F. destruct F as [_ F]. apply (eval_go_built True) in F. eapply built_not_rt; [ exact F | auto ].
    + eapply (call_lift unit (Ok tt) "fill_null" (fun _ => []) (fun _ => [ ("value", RExpr (pylit_str value));
      ("fields", match fields with
                 | Some l => RList (map (fun f => RExpr (pylit_str f)) l)
                 | None => RExpr pylit_none
                 end) ]) (fun s => lift (t_fillnull_standalone value s))); [ intros s st; reflexivity | | exact E ]. intros st st' d F.
      apply lift_inv in F. destruct F as [_ F]. injection F as <-. auto.
    + eapply (call_lift _ (rtraverse _ _) "search" lefts rights (fun s => t_search_standalone env e s)); [ intros s st; reflexivity | | exact E ]. intros st st' d F.
      unfold t_search_standalone in F. apply bind_inv in F. destruct F as (s2 & [ind cond] & E1 & F). apply bind_inv in F.
      destruct F as (s3 & d0 & E2 & F).
      destruct cond; [ apply bind_inv in F; destruct F as (s4 & x & _ & F); injection F as _ <-; auto | injection F as _ <- ].
      destruct ind; [ injection E2 as _ <-; auto | ]. apply bind_inv in E2. destruct E2 as (s4 & ord & _ & E2).
      destruct (index_union ord) eqn:U; [ | discriminate ]. injection E2 as _ ->.
      eapply built_not_rt; [ eapply (index_union_built True (DSource "main") _ _ I U) | auto ].
    + eapply (call_lift _ (rtraverse _ _) "stats" (fun _ => []) (fun kw => by_runtime _ ++ kw)%list (fun s => lift (t_stats_standalone Allow _ _ s))); [ intros s st; reflexivity | | exact E ]. intros st st' d F.
      apply lift_inv in F. destruct F as [_ F]. unfold t_stats_standalone in F. apply rbind_inv in F. destruct F as ([d1 x] & _ & F).
      injection F as <-. auto.
    + set (R := let? _ := ensure (tstats_ok o) in
           let? w := match where_condition with Some e => let? x := to_spark_expr Allow e in Ok [("where", RExpr x)] | None => Ok [] end in
           let? k := rtraverse (transform_stats_runtime_expr Allow) exprs in Ok (w, k)).
      eapply (call_lift _ R "tstats" (fun _ => [])
        (fun wk => [("from_", RDict [("datamodel", opt_pylit datamodel); ("nodename", opt_pylit nodename)])]
           ++ match tst_fill_null_value o with Some v => [("fill_null_value", RExpr (pylit_str v))] | None => [] end
           ++ fst wk ++ by_runtime by_fields ++ snd wk)%list (fun s => t_tstats_standalone Allow o exprs datamodel nodename where_condition by_fields by_prefix s)); [ | | exact E ].
      * intros s st. cbn [transform_command env_rt env select_rt]. unfold t_tstats_runtime, R. unfold bind, or_else, lift.
        destruct (ensure _); [ | reflexivity | reflexivity ]. cbn [rbind].
        destruct (match where_condition with Some _ => _ | None => _ end); [ | reflexivity | reflexivity ]. cbn [rbind].
        destruct (rtraverse _ _); reflexivity.
      * intros st st' d F. cbn beta in F. unfold t_tstats_standalone in F. apply bind_inv in F. destruct F as (s1 & u & _ & F).
        apply bind_inv in F. destruct F as (s2 & d0 & _ & F). apply bind_inv in F. destruct F as (s3 & d1 & _ & F).
        apply bind_inv in F. destruct F as (s4 & [d2 x] & _ & F). apply bind_inv in F. destruct F as (s5 & y & _ & F).
        injection F as _ <-. auto.
Qed.

(** ** Assignments, then an expression *)
Definition line (n : string) (body : list Frag) : list Frag := FAssign n :: body.
Definition rlines (c : FCode) : Prop :=
  (exists l, f_lines c = map (fun a => line (fst a) (snd a)) l /\ Forall (fun a => Forall inert (snd a)) l) /\ Forall inert (f_expr c).
Lemma texts_inert : forall l, texts l -> Forall inert l.
Proof. intros l [t ->]. induction t; constructor; auto. exact I. Qed.
Lemma plain_rlines : forall d, plain d -> rlines (frag_df d).
Proof.
  intros d [L T]. split; [ exists []; split; [ now rewrite L | constructor ] | ]. apply texts_inert. unfold frags, f_all in T. now rewrite L in T.
Qed.
Lemma rlines_statements : forall c, rlines c -> statements (f_all c).
Proof.
  intros c ((l & E & F) & X). exists l, (f_expr c). split; auto. unfold f_all. rewrite E. f_equal. f_equal. rewrite map_map.
  apply map_ext. intros [n b]. reflexivity.
Qed.
Lemma statements_app : forall l x, statements l -> Forall inert x -> statements (l ++ x).
Proof. intros l x (ls & e & -> & F & X) Y. exists ls, (e ++ x)%list. rewrite app_assoc. split; auto. split; auto. apply Forall_app. auto. Qed.
Lemma closed_statements : closed (fun d => statements (frags d)).
Proof.
  split; [ | split ].
  - intros d H. apply rlines_statements. now apply plain_rlines.
  - intros d s H K. destruct (step_code d s H) as [t T]. rewrite (frags_flat _ _ T). apply statements_app; auto.
    constructor; [ exact I | constructor ].
  - intros d a b (t1 & t2 & T) K [_ P]. rewrite (frags_flat _ _ T). apply statements_app; auto.
    constructor; [ exact I | ]. apply Forall_app. split; [ now apply texts_inert | ]. constructor; [ exact I | constructor ].
Qed.
Lemma run_calls : forall ho gr R, Forall (is_call (mkEnv Allow ho gr)) R -> forall st st' s s',
  GS (fun d => rlines (frag_df d)) s ->
  run_commands (transform_command (mkEnv Allow ho gr)) R s st = (st', Ok s') -> GS (fun d => rlines (frag_df d)) s'.
Proof.
  intros ho gr R F. induction F as [|c R Hc HR IH]; intros st st' s s' HS H; cbn [run_commands] in H.
  - now injection H as <- <-.
  - apply bind_inv in H. destruct H as (s1 & a & E1 & E2). eapply IH; [ | exact E2 ].
    destruct (call_any ho gr c Hc) as (f & args & kw & P & Q). rewrite Q in E1. injection E1 as <- <-. intros d Ed. injection Ed as <-.
    destruct (runtime_code (df_name st) s f args kw P) as [t T]. cbn zeta in T.
    set (k := match s with Some d => frag_df d | None => mkFCode [] [FText "None"] end) in *.
    assert (G : rlines k).
    { subst k. destruct s as [d|]; [ now apply HS | ]. split; [ exists []; split; [ reflexivity | constructor ] | repeat constructor ]. }
    clearbody k. rewrite T. destruct G as ((l & El & Fl) & X). split; cbn [f_lines f_expr]; [ | repeat constructor ].
    exists (l ++ [(df_name st, FText ("commands." ++ f ++ "(") :: f_expr k ++ map FText t)%list])%list. split.
    + rewrite map_app, El. reflexivity.
    + apply Forall_app. split; auto. constructor; [ | constructor ]. cbn [snd]. constructor; [ exact I | ]. apply Forall_app. split; auto.
      apply texts_inert. now exists t.
Qed.
Lemma run_app : forall (cmd : Command -> tstate -> M tstate) a b s st st' s', run_commands cmd (a ++ b) s st = (st', Ok s') ->
  exists s1 t1, run_commands cmd a s st = (t1, Ok s1) /\ run_commands cmd b s1 t1 = (st', Ok s').
Proof.
  intros cmd. induction a as [|c a IH]; intros b s st st' s' H; cbn [app run_commands] in *.
  - eexists _, _. split; [ reflexivity | exact H ].
  - apply bind_inv in H. destruct H as (t1 & x & E1 & E2). apply IH in E2. destruct E2 as (s2 & t2 & E2 & E3). exists s2, t2.
    split; auto. unfold bind. now rewrite E1.
Qed.
Lemma statements_allow : forall ho gr A R B d, bare A -> bare B -> (forall c, In c R -> is_call (mkEnv Allow ho gr) c) ->
  transform_pipeline (mkEnv Allow ho gr) (A ++ R ++ B)%list = Ok (Some d) -> statements (frags d).
Proof.
  intros ho gr A R B d HA HB HR H. unfold transform_pipeline in H. destruct (run_commands _ _ None _) as [st r] eqn:E. cbn in H. subst r.
  apply run_app in E. destruct E as (s1 & t1 & E1 & E). apply run_app in E. destruct E as (s2 & t2 & E2 & E3).
  assert (F : forall p, Forall (CB (mkEnv Allow ho gr)) p) by (intro p; apply Forall_forall; intros; apply cmd_bare).
  pose proof (run_bare _ A (F A) plain closed_plain HA _ _ _ _ (GS_none _) E1) as P1.
  assert (P2 : GS (fun d => rlines (frag_df d)) s2).
  { eapply run_calls; [ apply Forall_forall; exact HR | | exact E2 ]. intros x Hx. apply plain_rlines. now apply P1. }
  assert (P3 : GS (fun d => statements (frags d)) s2). { intros x Hx. apply rlines_statements. now apply P2. }
  exact (run_bare _ B (F B) _ closed_statements HB _ _ _ _ P3 E3 d eq_refl).
Qed.
Lemma statements_disallow : forall ho gr p d, transform_pipeline (mkEnv Disallow ho gr) p = Ok (Some d) -> 
  statements (frags d) /\ assigned (frags d) = [].
Proof.
  intros ho gr p d H. assert (DD : D (fun _ => True) Disallow d).
  { eapply pipeline_D; [ auto | now right | | exact H ]. intros c Hc. apply Forall_forall. auto. }
  unfold D in DD. rewrite Forall_forall in DD.
  assert (R : forall x, In x (frames d) -> ~ is_runtime x).
  { intros x Hx Hr. destruct (DD x Hx) as (_ & _ & K). now apply K in Hr. }
  destruct (no_runtime_inert d R) as [L F].
  assert (T : texts (frags d)).
  { revert F. generalize (frags d). intros l F. induction F as [|x l [s ->] Fl IH]; [ now exists [] | now apply texts_cons ]. }
  split.
  - apply rlines_statements. apply plain_rlines. now split.
  - destruct T as [t ->]. apply assigned_text.
Qed.

(** ** Deciding it on examples *)
Fixpoint stmts (st : nat) (l : list Frag) : bool :=
  match l, st with
  | nil, 1 => false
  | nil, _ => true
  | FAssign _ :: l', 0 => stmts 1 l'
  | FAssign _ :: _, _ => false
  | FEndLine :: l', 1 => stmts 0 l'
  | FEndLine :: _, _ => false
  | _ :: l', 1 => stmts 1 l'
  | _ :: l', _ => stmts 2 l'
  end.
Lemma stmts_expr : forall e, Forall inert e -> stmts 2 e = true.
Proof. intros e H. induction H as [|[] l Hx Hl IH]; cbn in *; auto; contradiction. Qed.
Lemma stmts_line : forall b l, Forall inert b -> stmts 1 (b ++ FEndLine :: l) = stmts 0 l.
Proof. intros b l H. induction H as [|[] b Hx Hl IH]; cbn in *; auto; contradiction. Qed.
Lemma statements_stmts : forall l, statements l -> stmts 0 l = true.
Proof.
  intros l (ls & e & -> & F & X). induction F as [|[n b] ls Hb Hls IH].
  - cbn. inversion X as [|x e' Hx He]; subst; [ reflexivity | ]. destruct x; cbn in *; try contradiction; now apply stmts_expr.
  - cbn [map List.concat fst snd]. cbn [app stmts]. rewrite <- !app_assoc. cbn [app]. rewrite stmts_line by exact Hb. exact IH.
Qed.
