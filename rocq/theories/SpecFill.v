(** Specification: what fillnull does when it is handed to the library. *)
From Coq Require Import String List.
Import ListNotations.
From Verif Require Import Str SplAst SpecPy SpecSpark SpecCommands SpecRuntime.
Open Scope list_scope.

(** The pipelines a call can follow: commands that stand in place, or a first call, and then
    calls *)
Definition ready (p : list Command) : Prop :=
  exists a b, p = a ++ b /\ forallb call_command b = true /\
    ((a <> [] /\ forallb frame_command a = true) \/ exists c, a = [c] /\ first_call c = true).
(** The columns to fill: those named, or all *)
Definition to_fill (fields : option (list string)) (rows : Table) (f : string) : Prop :=
  match fields with Some l => In f l | None => exists r, In r rows /\ In f (map fst r) end.
(** Every null in these columns is now the value, cast to the type of the column; no other
    cell changes *)
Definition Filled (sp : Spark) (type_of : string -> string) (value : string) (fields : option (list string)) (rows : Table) (r r' : Row) : Prop :=
  forall f,
    (to_fill fields rows f -> cell f r = SNull -> cell f r' = sp_method sp "cast" (SStr value) [ALit (SStr (type_of f))]) /\
    (~ to_fill fields rows f \/ cell f r <> SNull -> cell f r' = cell f r).
