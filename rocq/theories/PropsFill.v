(** C42: fillnull when it is handed to the library. *)
From Coq Require Import String Ascii List ZArith.
Import ListNotations.
From Verif Require Import Str SplAst PyAst Functions Transpile Commands Api SpecPy SpecCol SpecFrame SpecSpark SpecRows SpecCommands SpecResult SpecRuntime SpecFill FillFacts.
Open Scope string_scope.
Open Scope list_scope.

(** With the library fillnull fills the nulls of exactly the columns it names, or of all, with
    its value cast to the types of these columns, [types] being what Spark says they are.
    Missing: fillnull in first place, and after other commands that follow a call. *)
Theorem C42_with_library_partial : forall env sp db types p rows v fields type_of,
  env_rt env = Allow -> ready p -> covered sp db p rows ->
  plain_between dquote v = true -> match fields with Some l => forallb (plain_between dquote) l = true | None => True end ->
  (forall f, to_fill fields rows f -> types rows f = Some (type_of f)) ->
  exists out, lib_gives env sp db types (p ++ [CFillNull v fields]) (OFrame None out) /\ Forall2 (Filled sp type_of v fields rows) rows out.
Proof. exact lib_fill_gives. Qed.
Print Assumptions C42_with_library_partial.
Example C42_library_ex : exists p v fields, parsed "where x>4 | eval y=x+1 | fillnull value=none z" = p ++ [CFillNull v fields]
  /\ ready p /\ plain_between dquote v = true /\ match fields with Some l => forallb (plain_between dquote) l = true | None => True end
  /\ covered small_spark (only_main [[("x", SInt 5); ("z", SNull)]; [("x", SInt 3); ("z", SNull)]]) p [[("x", SInt 5); ("z", SNull); ("y", SInt 6)]].
Proof.
  eexists [_; _], _, _. split; [ vm_compute; reflexivity | ]. split; [ | split; [ vm_compute; reflexivity | split; [ vm_compute; reflexivity | right; split; vm_compute; reflexivity ] ] ].
  eexists [_], [_]. split; [ reflexivity | ]. split; [ vm_compute; reflexivity | ]. left. split; [ discriminate | vm_compute; reflexivity ].
Qed.
