(** Specification: commands after which a pipeline cannot be run. *)
From Verif Require Import Str SplAst PyAst Functions Transpile Render Commands SpecPipe SpecFrame SpecSpark.
Open Scope list_scope.

(** The program of p | c exists and computes nothing; nor does that of p | c | q, for any
    commands q that go on from there and any frame d made of them that can be written down. *)
Definition stuck (env : Env) (sp : Spark) (db : string -> option Table) (p : list Command) (c : Command) : Prop :=
  (exists code, render_pyspark env (p ++ [c]) = Ok code /\ forall cmds x, ~ computes sp db cmds code x) /\
  (forall q d, (forall c, In c q -> ~ starts_over c) -> transform_pipeline env (p ++ c :: q) = Ok (Some d) -> plain_df d = true ->
   forall cmds x, ~ computes sp db cmds (code_to_string (render_df d)) x).
(** The commands that are always handed to the library when it may be used, and search when
    it must be *)
Definition handed_over (rt : Rt) (c : Command) : Prop :=
  match c with CEval _ | CStats _ _ _ | CTStats _ _ _ _ _ _ _ | CDataModel _ => rt <> Disallow | CSearch _ => rt = Require | _ => False end.
(** The commands that are always written as a method of the frame they are given *)
Definition method_command (c : Command) : Prop :=
  match c with
  | CFields _ _ | CHead _ _ _ | CRegex _ _ | CSort _ _ _ | CSPath _ | CTable _ | CTail _ | CWhere _ => True
  | _ => False
  end.
