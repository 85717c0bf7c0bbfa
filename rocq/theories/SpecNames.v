(** Specification of C75: the names a Python program uses, and those its surroundings provide. *)
From Coq Require Import String List.
Import ListNotations.
From Verif Require Import Str Functions SpecPy.
Open Scope string_scope.
Open Scope list_scope.

(** The names an expression looks up.  Names after a dot and before = in a call are not looked up. *)
Fixpoint names (e : Py) : list string :=
  match e with
  | PName s => [s]
  | PNum _ | PStr _ => []
  | PAttr e _ => names e
  | PCall f args kwargs => names f ++ flat_map names args ++ flat_map (fun kv => names (snd kv)) kwargs
  | PUn _ e => names e
  | PBin _ l r => names l ++ names r
  | PList l => flat_map names l
  | PDict kvs => flat_map (fun kv => names (fst kv) ++ names (snd kv)) kvs
  end.
(** A program looks up a name only if it is known, or assigned on an earlier line *)
Fixpoint known_first (known : list string) (assignments : list (string * Py)) (result : Py) : Prop :=
  match assignments with
  | [] => incl (names result) known
  | (n, e) :: later => incl (names e) known /\ known_first (n :: known) later result
  end.
(** What the import lines of the terminal interface, or the notebook magic, provide, besides
    Python's own constants; without the runtime less is needed *)
Definition provided (rt : Rt) : list string :=
  ["True"; "False"; "None"; "F"; "spark"] ++ match rt with Disallow => [] | _ => ["commands"; "functions"] end.
