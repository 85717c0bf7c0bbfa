(** The notebook cell command, /repo/python/spl_transpiler/runtime/magic.py, and the function
    it runs code with, /repo/python/spl_transpiler/runtime/utils.py.  Python itself (ast.parse,
    exec and eval with separate dicts for globals and locals) is the machine of SpecPyRun.v. *)
From Verif Require Import Str SplAst PyAst Render Functions Transpile Commands CmdParser Macros Format SpecPy SpecPyRun.
Open Scope string_scope.
Open Scope list_scope.

(** Statements that generated programs have.  Simplified: annotated and augmented assignments,
    and assignments to anything but a name, are not modelled. *)
Inductive Stmt := SAssign (n : string) (e : Py) | SExpr (e : Py).

Section Notebook.
Variables V S : Type.
Variable m : Machine V S.

(** A name in code run by exec or eval: locals first, then globals (then builtins, in [ev]) *)
Definition look_in (locals globals : scope V) : scope V :=
  fun n => match locals n with Some v => Some v | None => globals n end.
(** exec of statements: assignments go to locals *)
Fixpoint exec_body (globals : scope V) (body : list Stmt) (locals : scope V) : Act S (scope V) :=
  match body with
  | [] => ret locals
  | SAssign n e :: rest => after (ev m (look_in locals globals) e) (fun v => exec_body globals rest (set locals n v))
  | SExpr e :: rest => after (ev m (look_in locals globals) e) (fun _ => exec_body globals rest locals)
  end.
(** utils.py 9-24; the inner option is Python's None *)
Definition exec_with_return (body : list Stmt) (globals locals : scope V) : Act S (option V) :=
  match rev body with
  | [] => ret None
  | SExpr e :: before =>
      after (exec_body globals (rev before) locals) (fun l => after (ev m (look_in l globals) e) (fun v => ret (Some v)))
  | SAssign n _ :: _ =>
      after (exec_body globals body locals) (fun l => after (ev m (look_in l globals) (PName n)) (fun v => ret (Some v)))
  end.

(** What the process provides: SparkSession.builder.getOrCreate, the two modules of the runtime,
    pyspark.sql.functions, and ast.parse *)
Record Process := mkProcess {
  pr_session : Act S V; pr_commands : V; pr_functions : V; pr_F : V;
  pr_read : string -> option (list Stmt) }.
(** magic.py 16-53: the options of a cell, as argparse (not modelled) reads them from its first
    line, and its text *)
Record Cell := mkCell { c_dry : bool; c_runtime : bool; c_format : bool; c_print : bool; c_var : string; c_text : string }.
Definition cell_rt (c : Cell) : Rt := if c_runtime c then Allow else Disallow.
Definition magic_locals (pr : Process) (spark : V) : scope V :=
  set (set (set (set (fun _ => None) "commands" (pr_commands pr)) "functions" (pr_functions pr)) "spark" spark) "F" (pr_F pr).
Inductive CellOutcome := Done | CellRaises.
(** magic.py 55-80: what is displayed, the variables of the notebook afterwards *)
Definition run_cell (fm : Formatter) (order : nat -> list string -> list string) (groups : string -> res (list (Z * option string)))
  (pr : Process) (c : Cell) (ns : scope V) (s : S) : CellOutcome * list string * scope V * S :=
  match convert_spl_to_pyspark fm (c_format c) (mkEnv (cell_rt c) order groups) (c_text c) with
  | Some (Ok code) =>
      let shown := if c_print c then [code] else [] in
      if c_dry c then (Done, shown, ns, s)
      else
        match pr_session pr s with
        | (None, s1) => (CellRaises, shown, ns, s1)
        | (Some spark, s1) =>
            match pr_read pr code with
            | None => (CellRaises, shown, ns, s1)
            | Some body =>
                match exec_with_return body ns (magic_locals pr spark) s1 with
                | (None, s2) => (CellRaises, shown, ns, s2)
                | (Some v, s2) => (Done, shown, set ns (c_var c) (match v with Some v => v | None => m_const m "None" end), s2)
                end
            end
        end
  | _ => (CellRaises, [], ns, s)
  end.
(** A notebook: cells of this kind, and other cells, which do anything to the variables *)
Inductive NbCell := Spl (c : Cell) | Other (f : scope V -> S -> scope V * S).
Fixpoint run_notebook fm order groups pr (l : list NbCell) (ns : scope V) (s : S) : scope V * S :=
  match l with
  | [] => (ns, s)
  | Spl c :: l' => let '(_, _, ns', s') := run_cell fm order groups pr c ns s in run_notebook fm order groups pr l' ns' s'
  | Other f :: l' => let '(ns', s') := f ns s in run_notebook fm order groups pr l' ns' s'
  end.
End Notebook.
