(** Specification of C74: what a user of the terminal interface typed and switched, and which
    texts are translations of it. *)
From Coq Require Import String List Permutation.
Import ListNotations.
From Verif Require Import Str SplAst Functions Transpile Commands CmdParser SpecResult Format Live.
Open Scope string_scope.

(** The text typed last *)
Definition typed (history : list Event) : string :=
  last (flat_map (fun e => match e with Types t => [t] | _ => [] end) history) "".
(** Both switches start on; every toggle turns one *)
Definition times (p : Event -> bool) (history : list Event) : nat := length (filter p history).
Definition runtime_on (history : list Event) : bool :=
  Nat.even (times (fun e => match e with TogglesRuntime => true | _ => false end) history).
Definition imports_on (history : list Event) : bool :=
  Nat.even (times (fun e => match e with TogglesImports => true | _ => false end) history).
(** The text that a typed query is translated to *)
Definition line (s : string) : string := s ++ String "010" "".
Definition heading (runtime imports : bool) : string :=
  match imports, runtime with
  | false, _ => ""
  | true, false => line "from pyspark.sql import functions as F"
  | true, true => line "from pyspark.sql import functions as F" ++ line "from spl_transpiler.runtime import commands, functions"
  end.
Definition translation fm groups (runtime imports : bool) (query out : string) : Prop :=
  exists order code, walks_sets (mkEnv (if runtime then Allow else Disallow) order groups) /\
    convert_spl_to_pyspark fm true (mkEnv (if runtime then Allow else Disallow) order groups) query = Some (Ok code) /\
    out = heading runtime imports ++ code.
(** Rust's hash sets: whatever the order, every element is met once *)
Definition fair (e : Event) : Prop :=
  match e with AppHandles order => forall i l, Permutation l (order i l) | _ => True end.
(** The user did something that asks for a translation *)
Definition asked (history : list Event) : Prop := exists e, In e history /\ match e with Types _ | TogglesRuntime | TogglesImports => True | _ => False end.
(** No message waits to be handled *)
Definition quiet (x : Screen) : Prop := to_spl x = 0 /\ to_app x = 0.
(** The user types a text and both messages it causes are handled *)
Definition types_and_waits (t : string) : list Event := [Types t; SplHandles; AppHandles (fun _ l => l)].
