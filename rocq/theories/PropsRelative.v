(** C85: relative_time in eval.  [relative] (SpecRows.v) is the value: the time is moved by the
    first span, cut down to the start of the unit and moved by the second span. *)
From Coq Require Import String List ZArith.
Import ListNotations.
From Verif Require Import Str SplAst PyAst Functions Commands CmdParser Api SpecPy SpecCol SpecSpark SpecRows SpecCommands
  SpecResult SpecEffect SpecPipe SpecText SpecExpr SpecEval RowFacts ResultFacts EffectFacts EvalCalls.
Open Scope string_scope.
Open Scope list_scope.

Ltac by_running := eapply text_frame; [ vm_compute; reflexivity
  | eapply frame_gives; [ vm_compute; reflexivity | vm_compute; reflexivity | intro; vm_compute; reflexivity ] ].

(** C85: relative_time moves the time by the first span, cuts it down and moves it by the second
    span.  Partial: without the runtime, for the expressions of SpecRows and the units below. *)
Theorem C85_relative_time_partial : forall env sp db, env_rt env = Disallow -> walks_sets env ->
  forall x t st s spec rows (value : Row -> Val), db "main" = Some rows -> field_name x ->
  wf t -> writes 9 t st -> plain_expr true (meaning t) = true -> specifier s spec ->
  (forall r, In r rows -> ev sp r (meaning t) = Some (value r)) ->
  text_gives env sp db ("eval " ++ x ++ "=relative_time(" ++ st ++ ", " ++ in_quotes spec ++ ")")
    (OFrame None (map (fun r => set_cell x (relative sp r s (value r)) r) rows)).
Proof. exact relative_text. Qed.
Print Assumptions C85_relative_time_partial.
(** The hypotheses hold of relative_time(_time, -1d@d+5h) *)
Example C85_hypotheses_ex : forall sp,
  let t := TField "_time" in
  let s := mkSnapTime (Some (mkTimeSpan (-1) "days")) "days" (Some (mkTimeSpan 5 "hours")) in
  wf t /\ writes 9 t "_time" /\ plain_expr true (meaning t) = true /\ specifier s "-1d@d+5h"
  /\ ev sp [("_time", SInt 100000)] (meaning t) = Some (SInt 100000).
Proof.
  intros sp t s. split; [ | split; [ | split; [ reflexivity | split; [ | reflexivity ] ] ] ].
  - apply ExprFacts.ident_field, EvalFacts.ident_by. reflexivity.
  - apply EvalFacts.show_writes.
  - exists "-1d", "d", "+5h". split; [ reflexivity | ]. split; [ cbn; tauto | ]. split.
    + left. exists "d". split; [ cbn; tauto | split; [ cbv; split; discriminate | reflexivity ] ].
    + exists "h". split; [ cbn; tauto | split; [ cbv; split; discriminate | reflexivity ] ].
Qed.
Example C85_ex : forall sp v,
  text_gives (env0 Disallow) sp (only_main [[("_time", v)]]) "eval y=relative_time(_time, ""-1d@d+5h"")"
    (OFrame None [[("_time", v); ("y", lifted (sp_arith sp "+")
       (sp_fn sp "date_trunc" [ALit (SStr "day"); AVal (lifted (sp_arith sp "+") (sp_fn sp "to_timestamp" [AVal v])
          (sp_sql sp "INTERVAL -1 DAYS" [("_time", v)]))])
       (sp_sql sp "INTERVAL 5 HOURS" [("_time", v)]))]]).
Proof.
  intros sp v. destruct (C85_hypotheses_ex sp) as (H1 & H2 & H3 & H4 & _).
  exact (C85_relative_time_partial (env0 Disallow) sp (only_main [[("_time", v)]]) eq_refl ltac:(hnf; auto) "y" _ _ _ _ [[("_time", v)]] (fun _ => v)
    eq_refl ltac:(apply ExprFacts.ident_field, EvalFacts.ident_by; reflexivity) H1 H2 H3 H4 ltac:(intros r [<-|[]]; reflexivity)).
Qed.
(** False: @w0 is Sunday in the query language; the code cuts down to Spark's week, as for @w1
    and @w, which start on Monday. *)
Theorem C85_sunday_refuted : forall sp v,
  text_gives (env0 Disallow) sp (only_main [[("_time", v)]]) "eval y=relative_time(_time, ""@w0"")"
    (OFrame None [[("_time", v); ("y", sp_fn sp "date_trunc" [ALit (SStr "week"); AVal (sp_fn sp "to_timestamp" [AVal v])])]]).
Proof. intros. by_running. Qed.
Print Assumptions C85_sunday_refuted.
(** False: specifiers without the snap character, other days of the week, quarters, years and
    specifiers with several offsets are refused; so is a specifier in a field. *)
Theorem C85_specifiers_refuted : Forall (fun spec =>
    transpile (env0 Disallow) ("eval y=relative_time(_time, " ++ in_quotes spec ++ ")") = Some Err)
  [ "-1d"; "-7d"; "+1h"; "@w1"; "@w3"; "@q"; "@y"; "-1y@d"; "-1q@q"; "-1d@d+2h+30m"; "now" ]
  /\ transpile (env0 Disallow) "eval y=relative_time(_time, spec)" = Some Err.
Proof. split; [ repeat constructor; vm_compute; reflexivity | vm_compute; reflexivity ]. Qed.
Print Assumptions C85_specifiers_refuted.
