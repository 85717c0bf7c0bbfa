(** Facts about notebook cells *)
From Verif Require Import Str SplAst PyAst Render Functions Transpile Commands CmdParser Macros Format Api.
From Verif Require Import SpecPipe SpecPy PyFacts SpecFrame SpecNames NameUseFacts SpecPyRun Notebook SpecNotebook.
Open Scope string_scope.
Open Scope list_scope.

Section Ind.
Variable P : Py -> Prop.
Hypothesis HN : forall s, P (PName s).
Hypothesis HM : forall s, P (PNum s).
Hypothesis HS : forall s, P (PStr s).
Hypothesis HA : forall e n, P e -> P (PAttr e n).
Hypothesis HC : forall f args kw, P f -> Forall P args -> Forall (fun kv => P (snd kv)) kw -> P (PCall f args kw).
Hypothesis HU : forall o e, P e -> P (PUn o e).
Hypothesis HB : forall o l r, P l -> P r -> P (PBin o l r).
Hypothesis HL : forall l, Forall P l -> P (PList l).
Hypothesis HD : forall l, Forall (fun kv => P (fst kv) /\ P (snd kv)) l -> P (PDict l).
Fixpoint py_induction (e : Py) : P e :=
  match e with
  | PName s => HN s
  | PNum s => HM s
  | PStr s => HS s
  | PAttr e n => HA e n (py_induction e)
  | PCall f args kw => HC f args kw (py_induction f)
      ((fix all l : Forall P l := match l with [] => Forall_nil _ | x :: l' => Forall_cons _ (py_induction x) (all l') end) args)
      ((fix all l : Forall (fun kv => P (snd kv)) l := match l with [] => Forall_nil _ | x :: l' => Forall_cons _ (py_induction (snd x)) (all l') end) kw)
  | PUn o e => HU o e (py_induction e)
  | PBin o l r => HB o l r (py_induction l) (py_induction r)
  | PList l => HL l ((fix all l : Forall P l := match l with [] => Forall_nil _ | x :: l' => Forall_cons _ (py_induction x) (all l') end) l)
  | PDict l => HD l ((fix all l : Forall (fun kv => P (fst kv) /\ P (snd kv)) l :=
      match l with [] => Forall_nil _ | x :: l' => Forall_cons _ (conj (py_induction (fst x)) (py_induction (snd x))) (all l') end) l)
  end.
End Ind.

Section N.
Variables V S : Type.
Variable m : Machine V S.

Lemma after_ext : forall A B (x y : Act S A) (f g : A -> Act S B) s, (forall s, x s = y s) -> (forall a s, f a s = g a s) -> after x f s = after y g s.
Proof. intros A B x y f g s H K. unfold after. rewrite H. destruct (y s) as [[a|] s']; [ apply K | reflexivity ]. Qed.
Lemma all_ext : forall A B (f g : A -> Act S B) l, Forall (fun a => forall s, f a s = g a s) l -> forall s, act_all f l s = act_all g l s.
Proof.
  intros A B f g l H. induction H as [|a l Ha Hl IH]; intro s; [ reflexivity | ]. cbn [act_all].
  apply after_ext; [ exact Ha | ]. intros b s1. apply after_ext; [ exact IH | reflexivity ].
Qed.
(** An expression depends on the names it mentions only *)
Lemma ev_ext : forall e look look', (forall n, In n (names e) -> python_constant n = false -> look n = look' n) -> forall s, ev m look e s = ev m look' e s.
Proof.
  intro e. induction e as [x|x|x|e n IH|f args kw IHf IHa IHk|o e IH|o l r IHl IHr|l IH|l IH] using py_induction; intros look look' H s; cbn [ev]; try reflexivity.
  - destruct (python_constant x) eqn:C; [ reflexivity | ]. rewrite (H x (or_introl eq_refl) C). reflexivity.
  - apply after_ext; [ intro; now apply IH | reflexivity ].
  - cbn [names] in H. apply after_ext; [ | intros fv s1; apply after_ext; [ | intros vs s2; apply after_ext; [ | reflexivity ] ] ].
    + intro. apply IHf. intros n Hn. apply H, in_or_app. now left.
    + apply all_ext. rewrite Forall_forall in IHa |- *. intros a Ia s2. apply (IHa a Ia). intros n Hn. apply H.
      apply in_or_app. right. apply in_or_app. left. apply in_flat_map. eauto.
    + apply all_ext. rewrite Forall_forall in IHk |- *. intros a Ia s3. apply after_ext; [ | reflexivity ]. intro s4. apply (IHk a Ia). intros n Hn. apply H.
      apply in_or_app. right. apply in_or_app. right. apply in_flat_map. eauto.
  - apply after_ext; [ intro; now apply IH | reflexivity ].
  - cbn [names] in H. apply after_ext; [ | intros a s1; apply after_ext; [ | reflexivity ] ]; intro; [ apply IHl | apply IHr ]; intros n Hn; apply H, in_or_app; auto.
  - cbn [names] in H. apply after_ext; [ | reflexivity ]. apply all_ext. rewrite Forall_forall in IH |- *. intros a Ia s1. apply (IH a Ia).
    intros n Hn. apply H, in_flat_map. eauto.
  - cbn [names] in H. apply after_ext; [ | reflexivity ]. apply all_ext. rewrite Forall_forall in IH |- *. intros a Ia s1. destruct (IH a Ia) as [I1 I2].
    apply after_ext; [ | intros b s2; apply after_ext; [ | reflexivity ] ]; intro s3; [ apply I1 | apply I2 ]; intros n Hn; apply H, in_flat_map; exists a; split; try exact Ia; apply in_or_app; auto.
Qed.

(** A program whose names are known gives its value, whatever the globals are *)
Lemma program_runs : forall g a r known l look s,
  known_first known a r -> (forall n, In n known -> python_constant n = true \/ (exists v, l n = Some v /\ look n = Some v)) ->
  after (exec_body V S m g (map (fun a => SAssign (fst a) (snd a)) a) l) (fun l' => ev m (look_in V l' g) r) s = value_of_program m look a r s.
Proof.
  intros g a. induction a as [|[n e] a IH]; intros r known l look s K H.
  - cbn [map exec_body value_of_program]. unfold after, ret. cbn [known_first] in K. apply ev_ext. intros x Hx C.
    destruct (H x (K x Hx)) as [H'|(v & H1 & H2)]; [ congruence | ]. unfold look_in. now rewrite H1, H2.
  - cbn [known_first] in K. destruct K as [K1 K2]. cbn [map exec_body value_of_program fst snd].
    assert (E : ev m (look_in V l g) e s = ev m look e s).
    { apply ev_ext. intros x Hx C. destruct (H x (K1 x Hx)) as [H'|(v & H1 & H2)]; [ congruence | ]. unfold look_in. now rewrite H1, H2. }
    assert (X : forall v s', ev m look e s = (Some v, s') ->
      after (exec_body V S m g (map (fun a => SAssign (fst a) (snd a)) a) (set l n v)) (fun l' => ev m (look_in V l' g) r) s' = value_of_program m (set look n v) a r s');
      [ | unfold after in *; rewrite E; destruct (ev m look e s) as [[v|] s']; [ now apply X | reflexivity ] ].
    intros v s' _. apply (IH r (n :: known)); [ exact K2 | ]. intros x [<-|Hx].
    + right. exists v. unfold set. now rewrite String.eqb_refl.
    + unfold set. destruct (x =? n)%string; [ right; now exists v | ]. now apply H.
Qed.
Lemma exec_program : forall g a r known l look s,
  known_first known a r -> (forall n, In n known -> python_constant n = true \/ (exists v, l n = Some v /\ look n = Some v)) ->
  exec_with_return V S m (statements a r) g l s = after (value_of_program m look a r) (fun v => ret (Some v)) s.
Proof.
  intros g a r known l look s K H. unfold exec_with_return, statements. rewrite rev_app_distr. cbn [rev app]. rewrite rev_involutive.
  pose proof (program_runs g a r known l look s K H) as E. unfold after in *. rewrite <- E.
  destruct (exec_body V S m g (map (fun a => SAssign (fst a) (snd a)) a) l s) as [[l'|] s']; reflexivity.
Qed.

(** ** C81 *)
Lemma cell_changes : forall fm order groups pr c ns s out shown ns' s',
  run_cell V S m fm order groups pr c ns s = (out, shown, ns', s') ->
  (forall n, n <> c_var c -> ns' n = ns n) /\ (c_dry c = true \/ out = CellRaises -> forall n, ns' n = ns n).
Proof.
  intros fm order groups pr c ns s out shown ns' s' H. unfold run_cell in H.
  destruct (convert_spl_to_pyspark fm (c_format c) (mkEnv (cell_rt c) order groups) (c_text c)) as [[code| |]|];
    try (injection H as <- <- <- <-; split; intros; reflexivity).
  destruct (c_dry c) eqn:D; [ injection H as <- <- <- <-; split; intros; reflexivity | ].
  destruct (pr_session V S pr s) as [[sp|] s1]; [ | injection H as <- <- <- <-; split; intros; reflexivity ].
  destruct (pr_read V S pr code) as [body|]; [ | injection H as <- <- <- <-; split; intros; reflexivity ].
  destruct (exec_with_return V S m body ns (magic_locals V S pr sp) s1) as [[v|] s2]; [ | injection H as <- <- <- <-; split; intros; reflexivity ].
  injection H as <- <- <- <-. split.
  - intros n Hn. unfold set. destruct (String.eqb_spec n (c_var c)); [ contradiction | reflexivity ].
  - intros [X|X]; discriminate X.
Qed.
Lemma notebook_changes : forall fm order groups pr l ns s ns' s' n,
  run_notebook V S m fm order groups pr l ns s = (ns', s') ->
  Forall (fun x => match x with Spl _ _ c => c_var c <> n | Other _ _ f => forall ns s, fst (f ns s) n = ns n end) l -> ns' n = ns n.
Proof.
  intros fm order groups pr l. induction l as [|x l IH]; intros ns s ns' s' n H F; [ now injection H as <- <- | ].
  inversion F as [|x' l' Hx Hl]; subst. cbn [run_notebook] in H. destruct x as [c|f].
  - destruct (run_cell V S m fm order groups pr c ns s) as [[[out shown] ns1] s1] eqn:E. rewrite (IH _ _ _ _ n H Hl).
    apply cell_changes in E as [E _]. apply E. congruence.
  - destruct (f ns s) as [ns1 s1] eqn:E. rewrite (IH _ _ _ _ n H Hl). specialize (Hx ns s). now rewrite E in Hx.
Qed.

(** ** C82 *)
Lemma cell_value : forall fm order groups pr c p d a r ns s spark s1,
  let env := mkEnv (cell_rt c) order groups in
  let code := code_to_string (render_df d) in
  let run := if c_format c then safe_format_python_code fm code else code in
  parse (c_text c) = Some (Ok p) -> (forall k f, occurs k p -> In f (command_calls k) -> contains "." f = false) ->
  transform_pipeline env p = Ok (Some d) -> plain_df d = true -> python_program code a r ->
  pr_read V S pr run = Some (statements a r) -> c_dry c = false -> pr_session V S pr s = (Some spark, s1) ->
  run_cell V S m fm order groups pr c ns s =
  match value_of_program m (four_names (pr_commands V S pr) (pr_functions V S pr) spark (pr_F V S pr)) a r s1 with
  | (Some v, s2) => (Done, if c_print c then [run] else [], set ns (c_var c) v, s2)
  | (None, s2) => (CellRaises, if c_print c then [run] else [], ns, s2)
  end.
Proof.
  intros fm order groups pr c p d a r ns s spark s1 env code run P D T PL PP R DR SE.
  destruct (names_provided env p d a r D T PL) as [RE K]. specialize (K PP). destruct K as [K _].
  unfold run_cell, convert_spl_to_pyspark. rewrite P. cbn [option_map rbind]. unfold render_pyspark_formatted.
  fold env. rewrite RE. cbn [rbind]. fold code. fold run. rewrite DR, SE, R.
  rewrite (exec_program ns a r (provided (env_rt env)) (magic_locals V S pr spark) (four_names (pr_commands V S pr) (pr_functions V S pr) spark (pr_F V S pr)) s1 K).
  - unfold after, ret. destruct (value_of_program m _ a r s1) as [[v|] s2]; reflexivity.
  - intros n Hn. unfold provided in Hn.
    assert (I : In n ["True"; "False"; "None"; "F"; "spark"; "commands"; "functions"]).
    { apply in_app_or in Hn as [Hn|Hn]; [ cbn in *; tauto | ]. destruct (env_rt env); cbn in *; tauto. }
    cbn in I. repeat (destruct I as [<-|I]; [ first [ left; reflexivity | right; eexists; split; reflexivity ] | ]). contradiction.
Qed.
End N.
