(** Facts: formatting the generated code. *)
From Verif Require Import Str SplAst PyAst Render Functions Transpile Commands CmdParser Api Macros MacroSubFacts SpecText Format SpecFormat.
Open Scope string_scope.

Lemma rust_space_spec : forall c, rust_space c = true <-> white_space c.
Proof.
  intro c. unfold white_space. split.
  - destruct c as [[] [] [] [] [] [] [] []]; vm_compute; intro H; try discriminate H; tauto.
  - cbn [In]. intros [<-|[<-|[<-|[<-|[<-|[<-|[]]]]]]]; reflexivity.
Qed.
Lemma spaces : forall a, sforall rust_space a = true -> all_chars white_space a.
Proof. induction a as [|c a IH]; [ reflexivity | ]. cbn [sforall all_chars]. rewrite andb_true_iff, rust_space_spec. tauto. Qed.
Lemma trim_spec : forall s, without_margins s (rust_trim s).
Proof.
  intro s. unfold rust_trim. destruct (lstrip_spec rust_space s) as (a & E1 & A & H1). set (s1 := lstrip_by rust_space s) in *.
  destruct (rstrip_spec rust_space s1) as (b & E2 & B & H2). set (t := rstrip_by rust_space s1) in *. split; [ | split ].
  - exists a, b. rewrite <- E2. auto using spaces.
  - intros c r E W. apply rust_space_spec in W. rewrite E in E2. destruct s1 as [|d s1]; [ discriminate E2 | ]. cbn in E2. injection E2 as -> _. congruence.
  - intros c r E W. apply rust_space_spec in W. rewrite (H2 r c E) in W. discriminate W.
Qed.
Lemma safe_spec : forall fm code,
  (exists text, formats fm code text /\ without_margins text (safe_format_python_code fm code)) \/
  ((forall text, ~ formats fm code text) /\ safe_format_python_code fm code = code).
Proof.
  intros fm code. unfold safe_format_python_code, format_python_code, formats.
  destruct (fm_import fm) as [u|m] eqn:E1; [ | right; split; [ intros t ((x & X) & _); discriminate X | reflexivity ] ].
  destruct (fm_mode fm) as [v|m] eqn:E2; [ | right; split; [ intros t (_ & (x & X) & _); discriminate X | now destruct (contains _ m) ] ].
  destruct (fm_format fm code) as [t|m] eqn:E3; [ | right; split; [ intros t (_ & _ & X); discriminate X | now destruct (contains _ m) ] ].
  left. exists t. split; [ repeat split; eauto | apply trim_spec ].
Qed.
Lemma render_formatted : forall fm env p,
  (forall code, render_pyspark env p = Ok code -> exists out, render_pyspark_formatted fm true env p = Ok out /\
     ((exists text, formats fm code text /\ without_margins text out) \/ ((forall text, ~ formats fm code text) /\ out = code))) /\
  ((forall code, render_pyspark env p <> Ok code) -> render_pyspark_formatted fm true env p = render_pyspark env p) /\
  render_pyspark_formatted fm false env p = render_pyspark env p.
Proof.
  intros fm env p. unfold render_pyspark_formatted. split; [ | split ].
  - intros code ->. cbn [rbind]. eexists. split; [ reflexivity | apply safe_spec ].
  - intro H. destruct (render_pyspark env p) as [c| | ] eqn:E; try reflexivity. exfalso. exact (H c eq_refl).
  - now destruct (render_pyspark env p).
Qed.
Lemma convert_formatted : forall fm env s,
  (forall code, transpile env s = Some (Ok code) -> exists out, convert_spl_to_pyspark fm true env s = Some (Ok out) /\
     ((exists text, formats fm code text /\ without_margins text out) \/ ((forall text, ~ formats fm code text) /\ out = code))) /\
  ((forall code, transpile env s <> Some (Ok code)) -> convert_spl_to_pyspark fm true env s = transpile env s) /\
  convert_spl_to_pyspark fm false env s = transpile env s.
Proof.
  intros fm env s. unfold convert_spl_to_pyspark, transpile. destruct (parse s) as [[p| | ]|]; cbn [option_map rbind];
    try (split; [ intros code E; discriminate E | split; [ reflexivity | reflexivity ] ]).
  destruct (render_formatted fm env p) as (A & B & C). rewrite C. split; [ | split; [ | reflexivity ] ].
  - intros code E. injection E as E. destruct (A code E) as (out & -> & H). eauto.
  - intro H. rewrite B; [ reflexivity | ]. intros code E. apply (H code). now rewrite E.
Qed.
