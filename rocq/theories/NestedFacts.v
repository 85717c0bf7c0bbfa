(** Facts: a call of the library on a frame made from another such call is written with an
    assignment inside its arguments. *)
From Coq Require Import Lia.
From Verif Require Import Str SplAst PyAst Functions Transpile Render Commands SpecPipe PipeFacts AllowFacts TreeFacts NamesFacts ShapeFacts ScopeFacts StatementFacts ComposeFacts SpecCall SpecAfter CallFacts CallMore.
Open Scope string_scope.
Open Scope list_scope.

(** An assignment that does not begin a line *)
Definition inner (l : list Frag) : Prop := exists a x n b, l = a ++ x :: FAssign n :: b /\ x <> FEndLine.
Lemma inner_stmts : forall l st, inner l -> stmts st l = false.
Proof.
  intros l st (a & x & n & b & -> & X). revert st. induction a as [|y a IH]; intro st; cbn [app].
  - destruct x, st as [|[|[|st]]]; try (now elim X); reflexivity.
  - destruct y, st as [|[|[|st]]]; cbn [stmts]; auto.
Qed.
Lemma inner_no : forall l, inner l -> ~ statements l.
Proof. intros l I S. apply statements_stmts in S. rewrite (inner_stmts _ _ I) in S. discriminate. Qed.
Lemma inner_l : forall l r, inner l -> inner (l ++ r).
Proof. intros l r (a & x & n & b & -> & X). exists a, x, n, (b ++ r). split; [ | exact X ]. now rewrite <- app_assoc. Qed.
Lemma inner_r : forall l r, inner r -> inner (l ++ r).
Proof. intros l r (a & x & n & b & -> & X). exists (l ++ a), x, n, b. split; [ | exact X ]. now rewrite <- app_assoc. Qed.
Lemma inner_cons : forall x r, inner r -> inner (x :: r).
Proof. intros x r H. exact (inner_r [x] r H). Qed.

Definition nested (c : FCode) : Prop := (exists l, In l (f_lines c) /\ inner l) \/ inner (f_expr c).
Lemma nested_all : forall c, nested c -> inner (f_all c).
Proof.
  intros c [(l & I & N)|N]; unfold f_all; [ | now apply inner_r ]. apply inner_l.
  induction (f_lines c) as [|y ls IH]; [ contradiction | ]. cbn [map List.concat]. destruct I as [->|I]; [ now apply inner_l, inner_l | apply inner_r; auto ].
Qed.
Lemma nested_step : forall d s, is_step d s -> nested (frag_df s) -> nested (frag_df d).
Proof. intros d s H N. destruct (step_code d s H) as [t ->]. right. cbn [f_expr]. apply inner_l. now apply nested_all. Qed.
Lemma nested_built : forall (g : Prop) d0 d, ~ g -> built g d0 d -> nested (frag_df d0) -> nested (frag_df d).
Proof. intros g d0 d G B N. induction B; try contradiction; auto. eapply nested_step; eauto. Qed.
Lemma nested_call : forall n d f args kw, plain_args args kw -> nested (frag_df d) -> nested (frag_df (DRuntime n (Some d) f args kw)).
Proof.
  intros n d f args kw P N. destruct (runtime_code n (Some d) f args kw P) as [t ->]. cbv zeta. left. cbn [f_lines].
  destruct N as [(l & I & N)|N]; [ exists l; split; [ apply in_or_app; now left | exact N ] | ].
  eexists. split; [ apply in_or_app; right; left; reflexivity | ]. apply inner_cons, inner_cons. now apply inner_l.
Qed.
Lemma cmd_nested : forall env c d st st' s', ~ starts_over c -> nested (frag_df d) -> transform_command env c (Some d) st = (st', Ok s') ->
  exists d', s' = Some d' /\ nested (frag_df d').
Proof.
  intros env c d st st' s' NS Hx H. destruct c; try (cbn in NS; elim NS; exact I);
    try (let A := fresh in match type of H with transform_command _ ?c0 _ _ = _ => assert (A : ~ has_subsearch c0) by (intro A; exact A) end;
      destruct (cmd_shape env _ (Some d) st st' s' A H) as (d' & -> & [[B E]|(_ & _ & f & args & kw & B & P & E)]);
      exists d'; (split; [ reflexivity | ]);
      [ eapply nested_built; [ | exact B | exact Hx ];
        intros [R|R]; [ first [ contradiction | cbn [restarts starts_over] in *; apply NS; intro Z; exact (no_index _ Z R) ] | discriminate ]
      | eapply (nested_built False); [ auto | exact B | ]; now apply nested_call ]).
  - cbn [transform_command] in H. apply only_none in H. destruct H as (_ & y & E & ->).
    apply bind_inv in E. destruct E as (s1 & u & E0 & E). apply lift_inv in E0. destruct E0 as [-> _].
    apply bind_inv in E. destruct E as (s2 & r & E & EJ). apply lift_inv in EJ. destruct EJ as [-> EJ].
    unfold t_join in EJ. destruct r as [r|]; [ | discriminate ]. apply rbind_inv in EJ. destruct EJ as (ty & _ & EJ).
    apply rbind_inv in EJ. destruct EJ as (cd & _ & EJ). injection EJ as <-. eexists. split; [ reflexivity | ].
    unfold d_join. cbn [frag_df]. right. cbn [f_expr]. apply inner_l. unfold f_all at 1. cbn [f_lines f_expr map List.concat app]. apply inner_l. now apply nested_all.
  - cbn [transform_command] in H. cbn in NS. match type of NS with ?l <> [] -> False => destruct l | ~ (?l <> []) => destruct l end; [ | elim NS; discriminate ].
    destruct (env_rt env); try discriminate; injection H as _ <-; eauto.
Qed.
Lemma run_nested : forall env q d st st' s', (forall c, In c q -> ~ starts_over c) -> nested (frag_df d) ->
  run_commands (transform_command env) q (Some d) st = (st', Ok s') -> exists d', s' = Some d' /\ nested (frag_df d').
Proof.
  intros env. induction q as [|c q IH]; intros d st st' s' N Hx H; cbn [run_commands] in H.
  - injection H as _ <-. eauto.
  - apply bind_inv in H. destruct H as (s1 & a & E1 & E2). apply cmd_nested in E1; auto; [ | apply N; now left ].
    destruct E1 as (d1 & -> & N1). eapply IH; [ | exact N1 | exact E2 ]. intros x I. apply N. now right.
Qed.

(** Lines are assignments *)
Definition begins (l : list Frag) : Prop := exists n b, l = FAssign n :: b.
Lemma lines_begin : forall d, Forall begins (f_lines (frag_df d)).
Proof.
  apply (df_induct (fun d => Forall begins (f_lines (frag_df d))) (fun r => Forall begins (f_lines (frag_rexpr r)))); intros; try (constructor; fail); auto.
  - cbn [frag_df]. cbv zeta. cbn [f_lines]. apply Forall_app. split; [ destruct s as [d|]; [ auto | constructor ] | ].
    apply Forall_app. split.
    { rewrite map_map. clear -H0. induction H0; cbn [map List.concat]; [ constructor | now apply Forall_app ]. }
    apply Forall_app. split.
    { rewrite map_map. cbn [snd]. clear -H1. induction H1; cbn [map List.concat]; [ constructor | now apply Forall_app ]. }
    constructor; [ | constructor ]. unfold begins. eauto.
  - destruct d; try contradiction; subst; try (constructor; fail). cbn [frag_df]. cbv zeta. cbn [f_lines]. apply Forall_app. split; [ assumption | ].
    constructor; [ | constructor ]. unfold begins. eauto.
Qed.
Lemma call_begins : forall n s f args kw, plain_args args kw -> begins (frags (DRuntime n s f args kw)).
Proof.
  intros n s f args kw P. pose proof (lines_begin (DRuntime n s f args kw)) as L. unfold frags, f_all.
  destruct (runtime_code n s f args kw P) as [t E]. rewrite E in *. cbv zeta in *. cbn [f_lines f_expr] in *.
  set (c := match s with Some d => frag_df d | None => _ end) in *. destruct (f_lines c) as [|l ls]; cbn [app map List.concat] in *.
  - unfold begins. eauto.
  - inversion L as [|? ? (m & b & ->) _]; subst. unfold begins. cbn [app]. eauto.
Qed.
Lemma step_begins : forall d s, is_step d s -> begins (frags s) -> f_lines (frag_df d) = [] /\ begins (f_expr (frag_df d)).
Proof. intros d s H (n & b & E). destruct (step_code d s H) as [t ->]. cbn [f_lines f_expr]. rewrite E. split; [ reflexivity | ]. unfold begins. cbn [app]. eauto. Qed.
Lemma over_begins : forall d0 d, built False d0 d -> begins (frags d0) -> begins (frags d).
Proof.
  intros d0 d B N. induction B as [| | |d s H B IH|]; try contradiction; auto. destruct (step_begins d s H IH) as [L E].
  unfold frags, f_all. rewrite L. exact E.
Qed.

Lemma call_made : forall env c s st st' s', handed_over (env_rt env) c -> transform_command env c s st = (st', Ok s') ->
  exists n f args kw, s' = Some (DRuntime n s f args kw) /\ plain_args args kw.
Proof.
  intros env c s st st' s' HO H. destruct (handed env c s st st' s' HO H) as (n & f & args & kw & ->). exists n, f, args, kw. split; [ reflexivity | ].
  assert (NS : ~ has_subsearch c) by (destruct c; cbn in HO; try contradiction; intro Z; exact Z).
  destruct (cmd_shape env c _ _ _ _ NS H) as (d' & Ed & [[B _]|(_ & _ & f' & args' & kw' & B & P & _)]); injection Ed as <-.
  - exfalso. apply (built_mono _ True) in B; [ | auto ]. apply built_call in B. destruct s as [d0|]; [ | discriminate B ]. cbn [d_or_default] in B.
    assert (X : depth d0 = S (depth d0)) by (rewrite B at 1; reflexivity). lia.
  - inversion B as [E| | |d1 s1 H0 B1|]; subst; try exact P; try contradiction; destruct H0.
Qed.
Lemma method_made : forall env c d st st' s', method_command c -> transform_command env c (Some d) st = (st', Ok s') ->
  exists d' x, s' = Some d' /\ is_step d' x /\ built False d x.
Proof.
  intros env c d st st' s' M H. destruct c; try contradiction; cbn [transform_command] in H; apply only_inv in H; destruct H as (d' & -> & _ & H); exists d'.
  all: try (injection H as <-; eexists; split; [ reflexivity | ]; split; [ reflexivity | apply B_refl ]).
  - unfold t_head in H. apply rbind_inv in H. destruct H as (n & _ & H). injection H as <-. eexists. split; [ reflexivity | ]; split; [ reflexivity | apply B_refl ].
  - unfold t_regex in H. apply rbind_inv in H. destruct H as ([f i] & _ & H). injection H as <-. eexists. split; [ reflexivity | ]; split; [ reflexivity | apply B_refl ].
  - unfold t_sort in H. apply rbind_inv in H. destruct H as (k & _ & H). injection H as <-. destruct (_ =? 0)%Z.
    + eexists. split; [ reflexivity | ]; split; [ reflexivity | apply B_refl ].
    + eexists. split; [ reflexivity | ]; split; [ reflexivity | ]. st1. apply B_refl.
  - unfold t_where in H. apply rbind_inv in H. destruct H as (k & _ & H). injection H as <-. eexists. split; [ reflexivity | ]; split; [ reflexivity | apply B_refl ].
Qed.
Lemma call_method_call : forall env p c1 c2 c3 q d, handed_over (env_rt env) c1 -> method_command c2 -> handed_over (env_rt env) c3 ->
  (forall c, In c q -> ~ starts_over c) -> transform_pipeline env (p ++ c1 :: c2 :: c3 :: q) = Ok (Some d) -> ~ statements (frags d).
Proof.
  intros env p c1 c2 c3 q d H1 M H3 N H. unfold transform_pipeline in H.
  destruct (run_commands _ (p ++ _) None _) as [st r] eqn:E. cbn in H. subst r.
  apply StatementFacts.run_app in E. destruct E as (s0 & t0 & _ & E). cbn [run_commands] in E.
  apply bind_inv in E. destruct E as (t1 & s1 & E1 & E). apply bind_inv in E. destruct E as (t2 & s2 & E2 & E). apply bind_inv in E. destruct E as (t3 & s3 & E3 & E).
  destruct (call_made _ _ _ _ _ _ H1 E1) as (n & f & args & kw & -> & P1).
  destruct (method_made _ _ _ _ _ _ M E2) as (d2 & x & -> & S & B).
  destruct (call_made _ _ _ _ _ _ H3 E3) as (n3 & f3 & args3 & kw3 & -> & P3).
  destruct (step_begins d2 x S (over_begins _ _ B (call_begins _ _ _ _ _ P1))) as [L (m & b & Em)].
  assert (X : nested (frag_df (DRuntime n3 (Some d2) f3 args3 kw3))).
  { destruct (runtime_code n3 (Some d2) f3 args3 kw3 P3) as [t ->]. cbv zeta. left. cbn [f_lines]. rewrite L, Em.
    eexists. split; [ left; reflexivity | ]. exists [FAssign n3], (FText ("commands." ++ f3 ++ "(")), m, (b ++ map FText t). split; [ reflexivity | discriminate ]. }
  destruct (run_nested _ _ _ _ _ _ N X E) as (d' & Ed & Nd). injection Ed as <-. apply inner_no. now apply nested_all.
Qed.
