(** C49: code that calls the runtime library, run with the library, gives the same result as
    standalone code.  See SpecRuntime.v for [lib_gives] and [lib_pipeline], SpecResult.v for
    [covered] and [gives], Runtime.v for the library. *)
From Coq Require Import String List ZArith.
Import ListNotations.
From Verif Require Import Str SplAst PyAst Functions Transpile Commands CmdParser Api SpecExpr SpecPy SpecCol SpecFrame SpecSpark SpecRows SpecCommands
  SpecResult SpecEffect RowFacts ResultFacts EffectFacts SpecRuntime RuntimeRuns.
Open Scope string_scope.
Open Scope list_scope.

Ltac by_running := eapply text_frame; [ vm_compute; reflexivity
  | eapply frame_gives; [ vm_compute; reflexivity | vm_compute; reflexivity | intro; vm_compute; reflexivity ] ].
Ltac by_library := eapply lib_frame_gives; [ vm_compute; reflexivity | vm_compute; reflexivity | vm_compute; reflexivity | vm_compute; reflexivity ].
Ltac by_library_failing := eapply lib_frame_fails; [ vm_compute; reflexivity | vm_compute; reflexivity | vm_compute; reflexivity | vm_compute; reflexivity ].
Definition some_rows : Table := [[("x", SInt 5); ("host", SStr "abc")]; [("x", SInt 7); ("host", SStr "q")]; [("x", SNull); ("host", SStr "q")]].
Definition ints : Table -> string -> option string := fun _ _ => Some "int".

(** For the covered pipelines that [lib_pipeline] describes, on every table, the standalone
    program and the program that calls the library both compute exactly the rows that the
    commands yield one after the other.  Missing: fillnull, datamodel, the functions and
    searches [lib_pipeline] excludes, and calls after other commands that follow a call;
    for most of them the claim is false, see below. *)
Theorem C49_library_and_standalone_agree_partial : forall env env' sp db types p rows,
  env_rt env = Disallow -> walks_sets env -> env_rt env' = Allow -> covered sp db p rows -> lib_pipeline p = true ->
  gives env sp db p (OFrame None rows) /\ lib_gives env' sp db types p (OFrame None rows).
Proof. exact both_give. Qed.
Print Assumptions C49_library_and_standalone_agree_partial.
Example C49_ex :
  let db := fun n => if String.eqb n "web" then Some [[("u", SStr "a"); ("n", SInt 5)]; [("u", SStr "b"); ("n", SInt 7)]; [("u", SStr "b"); ("n", SInt 9)]] else None in
  let p := parsed "search index=web n>5 (u=""b"" OR NOT n<6) | eval m=n+1, k=upper(u) | search m>8 | stats count as c, min(m) as least by u | sort -c | head 3 | rename c as hits | table u, hits" in
  covered small_spark db p [[("u", SStr "b"); ("hits", SInt 1)]] /\ lib_pipeline p = true.
Proof. split; [ right; split | ]; vm_compute; reflexivity. Qed.
Example C49_tstats_ex :
  let db := fun n => if String.eqb n "m.t" then Some [[("u", SStr "a")]; [("u", SStr "b")]; [("u", SStr "b")]] else None in
  let p := parsed "tstats count from datamodel=m.t where u=""b"" by u | eval k=count+1" in
  covered small_spark db p [[("u", SStr "b"); ("count", SInt 2); ("k", SInt 3)]] /\ lib_pipeline p = true.
Proof. split; [ right; split | ]; vm_compute; reflexivity. Qed.
Example C49_stats_by_time_ex :
  let row := fun t n => [("_time", SInt t); ("k", SInt 1); ("n", SInt n)] in
  let p := parsed "search index=main n>4 | stats latest(n) as late, earliest(n) as early, rate(n) as r, first(n) as top, last(n) as bottom by k | table k, late, early, r, top, bottom" in
  covered small_spark (only_main [row 30 50; row 10 5; row 20 6]%Z) p
    [[("k", SInt 1); ("late", SInt 50); ("early", SInt 5); ("r", SNull); ("top", SInt 5); ("bottom", SInt 50)]] /\ lib_pipeline p = true.
Proof. split; [ right; split | ]; vm_compute; reflexivity. Qed.
Example C49_frames_first_ex :
  let p := parsed "where x>5 | rename x as y | eval z=y+2 | table z" in
  covered small_spark (only_main some_rows) p [[("z", SInt 9)]] /\ lib_pipeline p = true.
Proof. split; [ right; split | ]; vm_compute; reflexivity. Qed.

(** C36 and C40 with the library: eval assigns from left to right, every assignment seeing the
    earlier ones, and stats groups, also when a library function is called for them. *)
Theorem C36_with_library_partial : forall env sp db types p rows l out, env_rt env = Allow -> covered sp db p rows ->
  lib_pipeline (p ++ [CEval l]) = true -> Forall (fun ne => plain_name_text (fst ne) = true /\ plain_expr true (snd ne) = true) l ->
  Forall2 (Assigns sp l) rows out -> lib_gives env sp db types (p ++ [CEval l]) (OFrame None out).
Proof. exact lib_eval_gives. Qed.
Print Assumptions C36_with_library_partial.
Theorem C40_with_library_partial : forall env sp db types p rows o funcs by_ out, env_rt env = Allow -> covered sp db p rows ->
  lib_pipeline (p ++ [CStats o funcs by_]) = true -> plain1 (CStats o funcs by_) = true ->
  stats_rows sp funcs by_ rows = Some out -> lib_gives env sp db types (p ++ [CStats o funcs by_]) (OFrame None out).
Proof. exact lib_stats_gives. Qed.
Print Assumptions C40_with_library_partial.
Example C36_library_ex : exists l, parsed "eval y=x+1, z=y+x" = [CEval l] /\ lib_pipeline (parsed "search index=main x>4" ++ [CEval l]) = true /\ Forall2 (Assigns small_spark l)
  [[("x", SInt 5)]; [("x", SInt 7)]] [[("x", SInt 5); ("y", SInt 6); ("z", SInt 11)]; [("x", SInt 7); ("y", SInt 8); ("z", SInt 15)]].
Proof.
  eexists. split; [ vm_compute; reflexivity | ]. split; [ vm_compute; reflexivity | ].
  repeat (apply Forall2_cons; [ apply assigns_assign; vm_compute; reflexivity | ]). apply Forall2_nil.
Qed.
Example C40_library_ex : exists o funcs by_, parsed "stats count as c, min(m) as least by u" = [CStats o funcs by_] /\
  lib_pipeline (parsed "search index=main m>4" ++ [CStats o funcs by_]) = true /\ plain1 (CStats o funcs by_) = true.
Proof. do 3 eexists. split; [ vm_compute; reflexivity | ]. split; vm_compute; reflexivity. Qed.

(** In general the claim is false.  A later search drops its test of a metadata field. *)
Theorem C49_same_result_refuted : ~ (forall text sp db types o o',
  text_gives (env0 Disallow) sp db text o -> lib_text_gives (env0 Allow) sp db types text o' -> o = o').
Proof.
  intro H. specialize (H "search index=main | search host=""abc""" small_spark (only_main some_rows) ints
    (OFrame None [[("x", SInt 5); ("host", SStr "abc")]]) (OFrame None some_rows)).
  discriminate H; [ by_running | by_library ].
Qed.
Print Assumptions C49_same_result_refuted.
(** A first search looks for host in a column of another name. *)
Theorem C49_first_search_refuted :
  text_gives (env0 Disallow) small_spark (only_main some_rows) "search index=main host=""abc""" (OFrame None [[("x", SInt 5); ("host", SStr "abc")]]) /\
  lib_text_gives (env0 Allow) small_spark (only_main some_rows) ints "search index=main host=""abc""" (OFrame None []).
Proof. split; [ by_running | by_library ]. Qed.
Print Assumptions C49_first_search_refuted.
(** fillnull gives the column another value when the library casts it; the standalone code
    fills every column, whatever fields are written. *)
Theorem C49_fillnull_refuted : let rows := [[("x", SNull); ("y", SNull)]] in
  text_gives (env0 Disallow) small_spark (only_main rows) "head 5 | fillnull x" (OFrame None [[("x", SStr "0"); ("y", SStr "0")]]) /\
  lib_text_gives (env0 Allow) small_spark (only_main rows) ints "head 5 | fillnull x" (OFrame None rows).
Proof. split; [ by_running | by_library ]. Qed.
Print Assumptions C49_fillnull_refuted.
(** bit_and has no return statement in the library: its result is null. *)
Theorem C49_bit_and_refuted : let rows := [[("x", SInt 5)]] in
  text_gives (env0 Disallow) small_spark (only_main rows) "head 5 | eval y=bit_and(x,1)" (OFrame None [[("x", SInt 5); ("y", SInt 5)]]) /\
  lib_text_gives (env0 Allow) small_spark (only_main rows) ints "head 5 | eval y=bit_and(x,1)" (OFrame None [[("x", SInt 5); ("y", SNull)]]).
Proof. split; [ by_running | by_library ]. Qed.
Print Assumptions C49_bit_and_refuted.

(** Programs that calculate a result standalone and cannot be run with the library: a search
    without an index, eval, stats or fillnull in first place, sums, counts of a field, function results
    in conditions and operators, case, tonumber. *)
Definition only_standalone (db : string -> option Table) (text : string) : Prop :=
  (exists o, text_gives (env0 Disallow) small_spark db text o) /\ lib_text_fails (env0 Allow) small_spark db ints text.
Theorem C49_library_fails_refuted :
  Forall (only_standalone (only_main some_rows))
    [ "search x>5"; "eval y=x"; "stats max(x)"; "fillnull"; "search index=main | stats sum(x) as s"; "search index=main | stats count(x) as n";
      "search index=main | stats list(x) as l"; "search index=main | where isnull(x)"; "search index=main | eval y=abs(x)+1"; "search index=main | eval y=case(x>5,1)";
      "search index=main | eval y=tonumber(x)" ].
Proof. repeat constructor; try (eexists; by_running); by_library_failing. Qed.
Print Assumptions C49_library_fails_refuted.
(** datamodel cannot be run with the library at all. *)
Theorem C49_datamodel_refuted :
  only_standalone (fun n => if String.eqb n "dm.a" then Some some_rows else None) "datamodel dm ds.a search".
Proof. split; [ eexists; by_running | by_library_failing ]. Qed.
Print Assumptions C49_datamodel_refuted.
