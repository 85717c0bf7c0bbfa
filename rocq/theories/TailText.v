(** Facts: negative numbers after tail, from the text. *)
From Coq Require Import Lia.
From Verif Require Import Str SplAst PyAst Functions Transpile Render Commands Nom Lexer Parser CmdParser Api ParserFacts TokenFacts SpecText SpecExpr ExprFacts
  SpecSpell SpellFacts SpellOptions SpellRead DefectFacts.
Open Scope string_scope.

Lemma tail_minus_body : forall n, (- 2 ^ 63 < n < 0)%Z -> reads_body (fun _ => p_tail) (CTail (2 ^ 64 + n)) (decimal n).
Proof.
  intros n Hn. split; [ apply decimal_stops | ]. intros rest Hr. exists rest. split; [ now left | ].
  apply reads_const. unfold p_tail, p_map, p_bind.
  rewrite (p_int_decimal_ok n rest) by first [ unfold int64_nonmin; lia | now apply tok_no_digit, after_ends ]. unfold p_ret. now rewrite negative_u64 by lia.
Qed.
Lemma tail_minus : forall w b n, same_word w "tail" -> blanks b -> (- 2 ^ 63 < n < 0)%Z -> parse (w ++ b ++ decimal n) = Some (Ok [CTail (2 ^ 64 + n)])%list.
Proof.
  intros w b n Hw Hb Hn. assert (K : known "tail" (CTail (2 ^ 64 + n)) (decimal n)) by a_known tail_minus_body.
  destruct (command_read "tail" w b _ _ Hw Hb K) as [R F].
  pose proof (all_parses _ _ EmptyString EmptyString (all_one _ _ R F) (or_introl I) I) as P. cbn [append] in P. now rewrite append_nil_r in P.
Qed.
Lemma tail_minus_code : forall env w b n, env_rt env <> Require -> same_word w "tail" -> blanks b -> (- 2 ^ 63 < n < 0)%Z ->
  transpile env (w ++ b ++ decimal n) = Some (Ok ("spark.table('main').tail(" ++ dec (2 ^ 64 + n) ++ ")")).
Proof.
  intros env w b n R Hw Hb Hn. unfold transpile. rewrite tail_minus by auto. generalize (2 ^ 64 + n)%Z. intro m. cbn [option_map rbind].
  unfold render_pyspark, transform_pipeline. cbn [run_commands transform_command]. destruct (env_rt env); [ | | now elim R ]; reflexivity.
Qed.
