(** From the text of an eval command to the Python program that is generated for it *)
From Verif Require Import Str SplAst PyAst Render Functions Transpile Commands Nom Lexer Parser CmdParser.
From Verif Require Import Api SpecText SpecExpr ExprFacts EvalFacts ParserFacts.
From Verif Require Import SpecPy PyFacts SpecCol SpecFrame ReadFacts ReadTree FrameFacts ProgramFacts.
Open Scope string_scope.

Lemma eval_program : forall env name t s c,
  env_rt env = Disallow -> field_name name -> wf t -> writes 9 t s ->
  eval_column Disallow (meaning t) = Ok c ->
  transpile env ("eval " ++ name ++ "=" ++ s) = Some (Ok (code_to_string (render_df (d_with_column d_default name c)))).
Proof.
  intros env name t s c R N W T E. unfold transpile. rewrite (parse_eval1 name t s N W T). cbn [option_map rbind].
  unfold render_pyspark, transform_pipeline. cbn [run_commands transform_command]. unfold bind. rewrite R.
  cbn [select_rt lift t_eval_go]. rewrite E. reflexivity.
Qed.
Lemma all_chars_sforall : forall (P : ascii -> Prop) (b : ascii -> bool) s, (forall c, P c -> b c = true) -> all_chars P s -> sforall b s = true.
Proof.
  intros P b s H. induction s as [|c s IH]; [ reflexivity | ]. intros [Hc Hs]. cbn [sforall]. rewrite (H c Hc). now apply IH.
Qed.
Lemma name_char_plain : forall q c, In q [squote; dquote] -> name_char c ->
  negb (Ascii.eqb c q || py_backslash c || py_break c) = true.
Proof.
  intros q c I N. apply negb_true_iff, not_true_is_false. intro E.
  assert (Hc : c = q \/ nat_of_ascii c = 92 \/ nat_of_ascii c = 10 \/ nat_of_ascii c = 13 \/ nat_of_ascii c = 0).
  { apply orb_prop in E as [E|E]; [ apply orb_prop in E as [E|E] | ].
    - apply Ascii.eqb_eq in E. auto.
    - unfold py_backslash in E. apply Nat.eqb_eq in E. auto.
    - unfold py_break in E. apply orb_prop in E as [E|E]; [ apply orb_prop in E as [E|E] | ]; apply Nat.eqb_eq in E; auto. }
  assert (Hn : nat_of_ascii c = 95 \/ 48 <= nat_of_ascii c <= 57 \/ 65 <= nat_of_ascii c <= 90 \/ 97 <= nat_of_ascii c <= 122).
  { unfold name_char, letter, digit in N. destruct N as [N|[N|N]]; [ lia | lia | subst c; left; reflexivity ]. }
  destruct Hc as [->|Hc]; [ | lia ].
  cbn [In] in I; destruct I as [<-|[<-|[]]]; cbn in Hn; lia.
Qed.
Lemma fchar_plain : forall q c, In q [squote; dquote] -> fchar c ->
  negb (Ascii.eqb c q || py_backslash c || py_break c) = true.
Proof.
  intros q c I [[N|N]| ->].
  - now apply name_char_plain.
  - cbn in I, N. destruct I as [<-|[<-|[]]]; destruct N as [<-|[<-|[<-|[<-|[<-|[]]]]]]; reflexivity.
  - cbn in I. destruct I as [<-|[<-|[]]]; reflexivity.
Qed.
Lemma ident_text_plain : forall q n, In q [squote; dquote] -> field_name n -> plain_between q n = true.
Proof.
  intros q n I H. unfold plain_between. apply (all_chars_sforall fchar); [ intros; now apply fchar_plain | now apply fname_chars ].
Qed.
Lemma without_last_app : forall s q, without_last (s ++ one_char q) = s.
Proof.
  induction s as [|c s IH]; intro q; [ reflexivity | ]. cbn [append without_last]. rewrite IH. destruct s; reflexivity.
Qed.
Lemma plain_quoted : forall q s, py_quote q = true -> plain_between q s = true -> plain_code (String q (s ++ one_char q)) = true.
Proof.
  intros q s Q P. cbn [plain_code]. rewrite Q. rewrite without_last_app. rewrite (proj1 (stands_unquoted q s) (between_stands q s P)). now rewrite String.eqb_refl.
Qed.
Lemma ident_name_text : forall n, field_name n -> plain_name_text n = true.
Proof. intros n H. apply ident_text_plain; [ cbn [In]; auto | exact H ]. Qed.
(** A quoted text is copied between quotes, whatever it is *)
Lemma text_copied : forall env name s, env_rt env = Disallow -> field_name name -> plain_string s ->
  transpile env ("eval " ++ name ++ "=" ++ in_quotes s) = Some (Ok ("spark.table('main').withColumn('" ++ name ++ "', F.lit('" ++ s ++ "'),)")).
Proof.
  intros env name s R N P.
  rewrite (eval_program env name (TStr s) (in_quotes s) (CLiteral (sq ++ s ++ sq)) R N P);
    [ | do 7 (apply W_up; [ lia | ]); apply W_str | reflexivity ].
  do 2 f_equal. unfold d_with_column, d_default. cbn -[append]. unfold code_to_string. cbn [preface primary List.concat map].
  unfold sq. rewrite ?append_assoc_s. reflexivity.
Qed.
(** The value Python gives to the copied text *)
Lemma literal_program : forall env name s v, env_rt env = Disallow -> field_name name -> plain_string s ->
  lex_run (LxStr squote "") s = Some (LxStr squote v, []) ->
  exists code, transpile env ("eval " ++ name ++ "=" ++ in_quotes s) = Some (Ok code) /\
    python_program code [] (py_method (py_table "main") "withColumn" [PStr name; py_F "lit" [PStr v]]).
Proof.
  intros env name s v R N P L. eexists. split; [ now apply text_copied | ].
  set (t1 := [TkName "spark"; TkOp "."; TkName "table"; TkOp "("; TkStr "main"; TkOp ")"; TkOp "."; TkName "withColumn"; TkOp "("]).
  set (t2 := [TkOp ","; TkName "F"; TkOp "."; TkName "lit"; TkOp "("]). set (t3 := [TkOp ")"; TkOp ","; TkOp ")"]).
  exists (t1 ++ TkStr name :: t2 ++ TkStr v :: t3)%list. split.
  - unfold lex. rewrite lex_run_app.
    replace (lex_run LxStart "spark.table('main').withColumn('") with (Some (LxStr squote "", t1)) by (vm_compute; reflexivity).
    rewrite lex_run_app, (run_str squote name "" (ident_text_plain squote name (or_introl eq_refl) N)).
    rewrite lex_run_app. replace (lex_run (LxStr squote ("" ++ name)) "', F.lit('") with (Some (LxStr squote "", TkStr name :: t2)).
    2:{ destruct name as [|c name]; [ now apply fname_chars in N | ]. vm_compute. reflexivity. }
    rewrite lex_run_app, L. replace (lex_run (LxStr squote v) "'),)") with (Some (LxStart, TkStr v :: t3)).
    2:{ destruct v as [|c v]; vm_compute; reflexivity. }
    cbn [pre lex_end app]. rewrite app_nil_r. reflexivity.
  - exists 40. unfold t1, t2, t3. cbn [app]. vm_compute. reflexivity.
Qed.
Lemma string_program : forall env name s, env_rt env = Disallow -> field_name name -> plain_string s -> stands squote false s = true ->
  exists code, transpile env ("eval " ++ name ++ "=" ++ in_quotes s) = Some (Ok code) /\
    python_program code [] (py_method (py_table "main") "withColumn" [PStr name; py_F "lit" [PStr s]]).
Proof. intros env name s R N P S. apply literal_program; auto. exact (proj1 (run_stands squote s "" eq_refl) S). Qed.
(** Texts written with backslashes before double quotes and backslashes *)
Lemma escape_chars : forall (P : ascii -> Prop) s, P (ascii_of_nat 92) -> all_chars P s -> all_chars P (escape s).
Proof.
  intros P s B. induction s as [|c s IH]; [ easy | ]. intros [Hc Hs]. cbn [escape].
  destruct (Nat.eqb (nat_of_ascii c) 34 || Nat.eqb (nat_of_ascii c) 92)%bool; cbn [all_chars]; auto.
Qed.
Lemma escape_well : forall s, well_quoted false (escape s).
Proof.
  induction s as [|c s IH]; [ reflexivity | ]. cbn [escape]. destruct (Nat.eqb (nat_of_ascii c) 34 || Nat.eqb (nat_of_ascii c) 92)%bool eqn:E.
  - cbn [well_quoted negb andb]. split; [ intros _; discriminate | ]. change (Nat.eqb (nat_of_ascii (ascii_of_nat 92)) 92) with true. split; [ discriminate | exact IH ].
  - apply orb_false_iff in E as [E1 E2]. cbn [well_quoted negb andb]. rewrite E2. split; [ intros _; now apply Nat.eqb_neq | exact IH ].
Qed.
Lemma escape_plain : forall s, match s with EmptyString => False | String c _ => ~ white c end ->
  all_chars (fun c => c <> "*"%char /\ c <> "@"%char) s -> plain_string (escape s).
Proof.
  intros s H A. split; [ | split; [ | apply escape_well ] ].
  - destruct s as [|c s]; [ destruct H | ]. cbn [escape]. destruct (Nat.eqb (nat_of_ascii c) 34 || Nat.eqb (nat_of_ascii c) 92)%bool; [ | exact H ].
    unfold white. cbn. lia.
  - apply escape_chars; [ split; discriminate | exact A ].
Qed.
Lemma run_escape : forall s w, all_chars (fun c => nat_of_ascii c <> 39 /\ py_break c = false) s ->
  lex_run (LxStr squote w) (escape s) = Some (LxStr squote (w ++ s), []).
Proof.
  induction s as [|c s IH]; intros w H; [ cbn [escape lex_run]; now rewrite append_nil_r | ]. destruct H as [[Hq Hb] H]. cbn [escape].
  destruct (Nat.eqb (nat_of_ascii c) 34 || Nat.eqb (nat_of_ascii c) 92)%bool eqn:E.
  - cbn [lex_run lex_step]. change (Ascii.eqb (ascii_of_nat 92) squote) with false. change (py_backslash (ascii_of_nat 92)) with true. cbv iota. cbn [pre].
    assert (V : escape_value c = Some (one_char c)).
    { unfold escape_value, py_backslash, py_quote. apply orb_prop in E as [E|E]; rewrite E; rewrite ?orb_true_r; reflexivity. }
    cbn [lex_run lex_step]. rewrite V. cbn [pre app]. rewrite IH by exact H. cbn [pre app]. now rewrite append_assoc_s.
  - apply orb_false_iff in E as [_ E]. cbn [lex_run lex_step].
    assert (Q : Ascii.eqb c squote = false) by (apply Ascii.eqb_neq; intros ->; now apply Hq). rewrite Q. unfold py_backslash. rewrite E, Hb.
    cbn [pre]. rewrite IH by exact H. cbn [pre app]. now rewrite append_assoc_s.
Qed.
Lemma escaped_program : forall env name s, env_rt env = Disallow -> field_name name ->
  match s with EmptyString => False | String c _ => ~ white c end ->
  all_chars (fun c => c <> "*"%char /\ c <> "@"%char /\ nat_of_ascii c <> 39 /\ ~ In (nat_of_ascii c) [0; 10; 13]) s ->
  exists code, transpile env ("eval " ++ name ++ "=" ++ in_quotes (escape s)) = Some (Ok code) /\
    python_program code [] (py_method (py_table "main") "withColumn" [PStr name; py_F "lit" [PStr s]]).
Proof.
  intros env name s R N W A. apply literal_program; auto.
  - apply escape_plain; [ exact W | ]. eapply all_chars_impl; [ | exact A ]. cbn. tauto.
  - apply run_escape. eapply all_chars_impl; [ | exact A ]. intros c (_ & _ & H1 & H2). split; [ exact H1 | ].
    unfold py_break. cbn [In] in H2. destruct (Nat.eqb_spec (nat_of_ascii c) 10); [ lia | ]. destruct (Nat.eqb_spec (nat_of_ascii c) 13); [ lia | ].
    destruct (Nat.eqb_spec (nat_of_ascii c) 0); [ lia | reflexivity ].
Qed.
Lemma well_quoted_app : forall a b x, well_quoted b a -> well_quoted false x -> well_quoted b (a ++ x).
Proof.
  induction a as [|c a IH]; intros b x H Hx; [ cbn in H; now subst b | ]. destruct H as [H1 H2]. cbn [append well_quoted]. auto.
Qed.
Lemma text_runs : forall env name s, env_rt env = Disallow -> field_name name ->
  all_chars (fun c => c <> "*"%char /\ c <> "@"%char) s -> well_quoted false s ->
  transpile env ("eval " ++ name ++ "=" ++ in_quotes ("a')+(" ++ s ++ ")+F.lit('b")) =
    Some (Ok ("spark.table('main').withColumn('" ++ name ++ "', F.lit('a')+(" ++ s ++ ")+F.lit('b'),)")).
Proof.
  intros env name s R N P W. rewrite (text_copied env name _ R N).
  - do 2 f_equal. cbn [append]. rewrite ?append_assoc_s. reflexivity.
  - split; [ cbn; unfold white; cbn; lia | ]. split.
    + apply all_chars_app. split; [ cbn; repeat split; discriminate | ]. apply all_chars_app. split; [ exact P | cbn; repeat split; discriminate ].
    + apply well_quoted_app; [ cbn; repeat split; discriminate | ]. apply well_quoted_app; [ exact W | cbn; repeat split; discriminate ].
Qed.
