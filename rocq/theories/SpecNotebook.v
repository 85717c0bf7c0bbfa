(** Specification of C81 and C82: what a cell may see and change. *)
From Coq Require Import String List.
Import ListNotations.
From Verif Require Import SpecPy SpecPyRun Notebook.
Open Scope string_scope.
Open Scope list_scope.

(** The four names every cell's program is given, and no others *)
Definition four_names {V} (commands functions spark F : V) : scope V := fun n =>
  if (n =? "commands")%string then Some commands else if (n =? "functions")%string then Some functions
  else if (n =? "spark")%string then Some spark else if (n =? "F")%string then Some F else None.
(** The statements of a program *)
Definition statements (assignments : list (string * Py)) (result : Py) : list Stmt :=
  map (fun a => SAssign (fst a) (snd a)) assignments ++ [SExpr result].
