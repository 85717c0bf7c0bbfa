(** C81 and C82: notebook cells.  See SpecPyRun.v and SpecNotebook.v. *)
From Coq Require Import String List.
Import ListNotations.
From Verif Require Import Str SplAst PyAst Render Functions Transpile Commands CmdParser Macros Format Api.
From Verif Require Import SpecPipe SpecPy PyFacts SpecCol SpecFrame SpecPyRun Notebook SpecNotebook NotebookFacts.
Open Scope string_scope.
Open Scope list_scope.

(** For examples: values are the expressions that made them; the world is the list of calls *)
Definition c81_machine : Machine Py (list Py) :=
  mkMachine Py (list Py) PName (fun _ => None) PNum PStr (fun v n => ret (PAttr v n)) (fun f a k s => (Some (PCall f a k), PCall f a k :: s))
    (fun o v => ret (PUn o v)) (fun o a b => ret (PBin o a b)) PList PDict.
Definition c81_read (text : string) : option (list Stmt) :=
  match program_of 100 text with Some (a, r) => Some (statements a r) | None => None end.
Definition c81_process : Process Py (list Py) :=
  mkProcess Py (list Py) (ret (PName "spark")) (PName "commands") (PName "functions") (PName "F") c81_read.
Definition c81_fm : Formatter := mkFormatter (Raises "no black") (Returns tt) (fun s => Returns s).
Definition c81_run (c : Cell) (ns : scope Py) : CellOutcome * list string * scope Py * list Py :=
  run_cell Py (list Py) c81_machine c81_fm (fun _ l => l) (fun _ => Ok nil) c81_process c ns [].

(** C81: a cell changes no variable of the notebook but the one it names, and none at all if it
    raises or is a dry run.  Lines of the program before the last leave no variables behind. *)
Theorem C81_only_its_variable : forall V S (m : Machine V S) fm order groups pr c ns s out shown ns' s',
  run_cell V S m fm order groups pr c ns s = (out, shown, ns', s') ->
  (forall n, n <> c_var c -> ns' n = ns n) /\ (c_dry c = true \/ out = CellRaises -> forall n, ns' n = ns n).
Proof. exact cell_changes. Qed.
Print Assumptions C81_only_its_variable.
(** So a variable that no cell names, and the other cells leave alone, keeps its value. *)
Theorem C81_in_every_notebook : forall V S (m : Machine V S) fm order groups pr l ns s ns' s' n,
  run_notebook V S m fm order groups pr l ns s = (ns', s') ->
  Forall (fun x => match x with Spl _ _ c => c_var c <> n | Other _ _ f => forall ns s, fst (f ns s) n = ns n end) l -> ns' n = ns n.
Proof. exact notebook_changes. Qed.
Print Assumptions C81_in_every_notebook.
Example C81_ex : exists code v s', c81_run (mkCell false true true true "df" "search index=a | eval y=len(z)") (fun n => if (n =? "df_1")%string then Some (PNum "7") else None)
    = (Done, [code], v, s') /\ v "df_1" = Some (PNum "7") /\ contains "df_1 = " code = true /\ v "df" <> None.
Proof.
  eexists _, _, _. split; [ vm_compute; reflexivity | ]. split; [ reflexivity | ]. split; [ vm_compute; reflexivity | ]. vm_compute. discriminate.
Qed.

(** C82: a cell does not depend on the notebook's variables: it runs the program of its query with
    the session, F, commands and functions, and stores its value.  Proved for the queries and
    programs of C75, and for formatted code that Python reads as it reads the code itself. *)
Theorem C82_cells_depend_on_four_names_partial : forall V S (m : Machine V S) fm order groups pr c p d a r ns s spark s1,
  let env := mkEnv (cell_rt c) order groups in
  let code := code_to_string (render_df d) in
  let run := if c_format c then safe_format_python_code fm code else code in
  parse (c_text c) = Some (Ok p) -> (forall k f, occurs k p -> In f (command_calls k) -> contains "." f = false) ->
  transform_pipeline env p = Ok (Some d) -> plain_df d = true -> python_program code a r ->
  pr_read V S pr run = Some (statements a r) -> c_dry c = false -> pr_session V S pr s = (Some spark, s1) ->
  run_cell V S m fm order groups pr c ns s =
  match value_of_program m (four_names (pr_commands V S pr) (pr_functions V S pr) spark (pr_F V S pr)) a r s1 with
  | (Some v, s2) => (Done, if c_print c then [run] else [], set ns (c_var c) v, s2)
  | (None, s2) => (CellRaises, if c_print c then [run] else [], ns, s2)
  end.
Proof. exact cell_value. Qed.
Print Assumptions C82_cells_depend_on_four_names_partial.
Example C82_ex : let c := mkCell false true true true "df" "search index=a | eval y=len(z)" in exists p d a r,
  parse (c_text c) = Some (Ok p) /\ (forall k f, occurs k p -> In f (command_calls k) -> contains "." f = false) /\
  transform_pipeline (mkEnv (cell_rt c) (fun _ l => l) (fun _ => Ok nil)) p = Ok (Some d) /\ plain_df d = true /\
  python_program (code_to_string (render_df d)) a r /\
  pr_read _ _ c81_process (safe_format_python_code c81_fm (code_to_string (render_df d))) = Some (statements a r) /\ length a = 2.
Proof.
  cbv zeta. eexists _, _, _, _. split; [ vm_compute; reflexivity | ]. split.
  - intros k f Hc Hf. inversion Hc as [? Hi|? o q Hi Hq|? qs q Hi Hq Hd]; subst; cbn in Hi;
      repeat (destruct Hi as [Hi|Hi]; [ try discriminate Hi; subst k; cbn in Hf; repeat (destruct Hf as [Hf|Hf]; [ subst f; reflexivity | ]); contradiction | ]); contradiction.
  - split; [ vm_compute; reflexivity | ]. split; [ vm_compute; reflexivity | ]. split; [ apply (program_by 100); vm_compute; reflexivity | ].
    split; vm_compute; reflexivity.
Qed.
(** False for function names with dots, which take their meaning from the notebook's variables. *)
Theorem C82_dotted_functions_refuted : let c := mkCell false false false false "df" "stats os.getcwd as c" in
  (exists v s, c81_run c (fun _ => None) = (CellRaises, [], v, s)) /\
  (exists v s, c81_run c (fun n => if (n =? "os")%string then Some (PStr "anything") else None) = (Done, [], v, s) /\
     In (PCall (PAttr (PStr "anything") "getcwd") [] []) s).
Proof.
  cbv zeta. split; eexists _, _; [ vm_compute; reflexivity | ]. split; [ vm_compute; reflexivity | vm_compute; tauto ].
Qed.
Print Assumptions C82_dotted_functions_refuted.
