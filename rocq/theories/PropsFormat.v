(** C47. *)
From Verif Require Import Str SplAst PyAst Render Functions Transpile Commands CmdParser Api SpecText Format SpecFormat FormatFacts.
Open Scope string_scope.

(** C47: with format_code=True, whatever the formatter does (it may be missing, raise, or return
    any text), rendering gives a result exactly when it gives one without formatting: the
    formatter's text without the white space around it or, if the formatter fails, exactly
    the unformatted code.  With format_code=False the formatter has no influence. *)
Theorem C47_formatting_never_loses_code : forall fm env p,
  (forall code, render_pyspark env p = Ok code -> exists out, render_pyspark_formatted fm true env p = Ok out /\
     ((exists text, formats fm code text /\ without_margins text out) \/ ((forall text, ~ formats fm code text) /\ out = code))) /\
  ((forall code, render_pyspark env p <> Ok code) -> render_pyspark_formatted fm true env p = render_pyspark env p) /\
  render_pyspark_formatted fm false env p = render_pyspark env p.
Proof. exact render_formatted. Qed.
Print Assumptions C47_formatting_never_loses_code.
(** The three kinds of formatters: one that works, one that raises, none at all *)
Example C47_works : let fm := mkFormatter (Returns tt) (Returns tt) (fun c => Returns (c ++ String "010" "")) in
  render_pyspark_formatted fm true (env0 Disallow) (parsed "head 5") = Ok "spark.table('main').limit(5,)" /\
  formats fm "spark.table('main').limit(5,)" ("spark.table('main').limit(5,)" ++ String "010" "").
Proof. split; [ vm_compute; reflexivity | repeat split; now exists tt ]. Qed.
Example C47_raises :
  render_pyspark_formatted (mkFormatter (Returns tt) (Returns tt) (fun c => Raises "Cannot parse")) true (env0 Disallow) (parsed "head 5")
  = Ok "spark.table('main').limit(5,)".
Proof. vm_compute. reflexivity. Qed.
Example C47_missing :
  render_pyspark_formatted (mkFormatter (Raises "No module named black") (Returns tt) (fun c => Returns "")) true (env0 Disallow) (parsed "head 5")
  = Ok "spark.table('main').limit(5,)".
Proof. vm_compute. reflexivity. Qed.

(** C47 for query texts: convert_spl_to_pyspark against parse followed by render_pyspark
    without formatting. *)
Theorem C47_formatting_of_texts : forall fm env s,
  (forall code, transpile env s = Some (Ok code) -> exists out, convert_spl_to_pyspark fm true env s = Some (Ok out) /\
     ((exists text, formats fm code text /\ without_margins text out) \/ ((forall text, ~ formats fm code text) /\ out = code))) /\
  ((forall code, transpile env s <> Some (Ok code)) -> convert_spl_to_pyspark fm true env s = transpile env s) /\
  convert_spl_to_pyspark fm false env s = transpile env s.
Proof. exact convert_formatted. Qed.
Print Assumptions C47_formatting_of_texts.
Example C47_text : transpile (env0 Disallow) "head 5" = Some (Ok "spark.table('main').limit(5,)").
Proof. vm_compute. reflexivity. Qed.
