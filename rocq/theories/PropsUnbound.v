(** Running calls that do not bind: C48, C49 and C36.  See SpecCall.v for [binds] and
    [well_named], SpecAfter.v for [handed_over] and Runtime.v for [runs]. *)
From Coq Require Import Ascii String List ZArith.
Import ListNotations.
From Verif Require Import Str SplAst PyAst Render Functions Commands CmdParser Api SpecPipe SpecPy SpecExpr SpecFrame SpecSpark SpecText SpecCall SpecAfter
  Runtime UnboundFacts.
Open Scope string_scope.
Open Scope list_scope.

(** C48: a program one of whose calls does not bind cannot be run with the library at all,
    whatever the tables hold and wherever the call stands in the program. *)
Theorem C48_unbound_calls_fail : forall sp db column_type env p d name source f args kwargs,
  transform_pipeline env p = Ok (Some d) -> plain_df d = true ->
  In (DRuntime name source f args kwargs) (frames d) -> ~ binds f (1 + length args) (map fst kwargs) ->
  forall x, ~ runs sp db column_type (code_to_string (render_df d)) x.
Proof. exact unbound_fails. Qed.
Print Assumptions C48_unbound_calls_fail.
Example C48_unbound_ex : exists d name source args kwargs,
  transform_pipeline (env0 Allow) (parsed "search index=main | eval df=x+1, y=2 | where y>1") = Ok (Some d) /\ plain_df d = true /\
  In (DRuntime name source "eval" args kwargs) (frames d) /\ ~ binds "eval" (1 + length args) (map fst kwargs).
Proof.
  eexists _, _, _, _, _. split; [ vm_compute; reflexivity | ]. split; [ vm_compute; reflexivity | ]. split; [ right; left; reflexivity | ].
  intros (sg & I & _ & _ & K & _). cbn in I. repeat (destruct I as [E|I]; [ try discriminate E; injection E as <- | ]); try contradiction.
  destruct (K "df" (or_introl eq_refl)) as [[]|[[]|[_ N]]]. apply N. now left.
Qed.

(** C48, C36: so a command that gives a keyword named df makes the program fail, whatever
    comes before it and goes on after it. *)
Theorem C48_clashing_names_fail_refuted : forall sp db column_type env p c q d, handed_over (env_rt env) c -> ~ well_named c ->
  (forall c, In c q -> ~ starts_over c) -> transform_pipeline env (p ++ c :: q) = Ok (Some d) -> plain_df d = true ->
  forall x, ~ runs sp db column_type (code_to_string (render_df d)) x.
Proof. exact clash_fails. Qed.
Print Assumptions C48_clashing_names_fail_refuted.
Example C48_clashing_fail_ex : exists s l w d, parsed "search index=main | eval df=x+1, y=2 | where y>1" = [s] ++ CEval l :: [w] /\
  handed_over Allow (CEval l) /\ ~ well_named (CEval l) /\ ~ starts_over w /\
  transform_pipeline (env0 Allow) (parsed "search index=main | eval df=x+1, y=2 | where y>1") = Ok (Some d) /\ plain_df d = true.
Proof.
  eexists _, _, _, _. split; [ vm_compute; reflexivity | ]. split; [ discriminate | ]. split.
  - intros [_ W]. destruct (W _ (KW_eval _)) as [_ N]. apply N. now left.
  - split; [ intro H; exact H | ]. split; [ vm_compute; reflexivity | ]. vm_compute. reflexivity.
Qed.

(** C49: no program with a datamodel command can be run with the library, unless a later
    command starts over. *)
Theorem C49_datamodel_never_runs_refuted : forall env sp db column_type p m q d, env_rt env <> Disallow ->
  (forall c, In c q -> ~ starts_over c) -> transform_pipeline env (p ++ CDataModel m :: q) = Ok (Some d) -> plain_df d = true ->
  forall x, ~ runs sp db column_type (code_to_string (render_df d)) x.
Proof. exact datamodel_fails. Qed.
Print Assumptions C49_datamodel_never_runs_refuted.
Example C49_datamodel_never_ex : exists m w d, parsed "datamodel web hits search | where y>1" = [CDataModel m; w] /\ ~ starts_over w /\
  transform_pipeline (env0 Allow) (parsed "datamodel web hits search | where y>1") = Ok (Some d) /\ plain_df d = true.
Proof.
  eexists _, _, _. split; [ vm_compute; reflexivity | ]. split; [ intro H; exact H | ]. split; [ vm_compute; reflexivity | ]. vm_compute. reflexivity.
Qed.

(** C49: nor can one that begins with eval, stats or fillnull: the library takes no events
    from anywhere, where the standalone program reads the table main. *)
Theorem C49_first_commands_fail_refuted : forall sp db column_type env c q d, env_rt env <> Disallow ->
  match c with CEval _ | CStats _ _ _ | CFillNull _ _ => True | _ => False end ->
  (forall c, In c q -> ~ starts_over c) -> transform_pipeline env (c :: q) = Ok (Some d) -> plain_df d = true ->
  forall x, ~ runs sp db column_type (code_to_string (render_df d)) x.
Proof. exact first_fails. Qed.
Print Assumptions C49_first_commands_fail_refuted.
Example C49_first_commands_ex : exists l w d, parsed "eval y=x+1 | where y>1" = [CEval l; w] /\ ~ starts_over w /\
  transform_pipeline (env0 Allow) (parsed "eval y=x+1 | where y>1") = Ok (Some d) /\ plain_df d = true.
Proof.
  eexists _, _, _. split; [ vm_compute; reflexivity | ]. split; [ intro H; exact H | ]. split; [ vm_compute; reflexivity | ]. vm_compute. reflexivity.
Qed.
