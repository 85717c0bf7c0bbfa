(** C74: the terminal interface.  See SpecLive.v for the history of a session, Live.v for the app. *)
From Coq Require Import String List.
Import ListNotations.
From Verif Require Import Str SplAst Functions Transpile Commands CmdParser Api Format Live SpecLive LiveFacts.
Open Scope string_scope.
Open Scope list_scope.

(** Whatever the user does and in whatever order messages are handled: once none waits, the screen is
    about the text typed last and the switches as they stand.  The pane of code shows a
    translation of it, without marks or report; or a failure is reported, and the text indeed cannot be
    parsed, or cannot be translated. *)
Theorem C74_quiet_screens : forall fm groups history, (forall regex, groups regex <> Panic) -> Forall fair history -> asked history ->
  let x := screen_after fm groups history in quiet x ->
  let now := typed history in let rt := runtime_on history in
  (translation fm groups rt (imports_on history) now (pane x) /\ parse now = Some (Ok (or_default [] (tree x))) /\
     report x = None /\ pane_marked x = false /\ tree_marked x = false) \/
  (report x = Some ParseFailed /\ tree_marked x = true /\ parse now = Some Err) \/
  (report x = Some RenderFailed /\ pane_marked x = true /\ tree_marked x = false /\ exists p, parse now = Some (Ok p) /\ tree x = Some p /\
     exists order, render_pyspark (mkEnv (if rt then Allow else Disallow) order groups) p = Err).
Proof. exact quiet_screens. Qed.
Print Assumptions C74_quiet_screens.
(** At any moment, the pane of code holds nothing, or a translation of a text that had been
    typed, under the switches of that moment; the clipboard holds nothing or what the pane held at some moment. *)
Theorem C74_code_comes_from_typed_texts : forall fm groups history, Forall fair history ->
  let x := screen_after fm groups history in
  pane x = "" \/ exists before query, (exists later, history = (before ++ later)%list) /\ (query = "" \/ In (Types query) before) /\
    translation fm groups (runtime_on before) (imports_on before) query (pane x).
Proof. exact pane_source. Qed.
Print Assumptions C74_code_comes_from_typed_texts.
Theorem C74_copies : forall fm groups history, let x := screen_after fm groups history in
  (clipboard x = "" /\ ~ In Copies history) \/
  exists before later, history = (before ++ Copies :: later)%list /\ ~ In Copies later /\ clipboard x = pane (screen_after fm groups before).
Proof. exact clipboard_source. Qed.
Print Assumptions C74_copies.
(** The app never ends by an exception, and every history can be brought to rest by handling
    the messages that wait. *)
Theorem C74_never_dies : forall fm groups history, (forall regex, groups regex <> Panic) -> Forall fair history ->
  died (screen_after fm groups history) = false.
Proof. exact never_dies. Qed.
Print Assumptions C74_never_dies.
Theorem C74_comes_to_rest : forall fm groups history, exists n m,
  quiet (screen_after fm groups (history ++ repeat SplHandles n ++ repeat (AppHandles (fun _ l => l)) m)).
Proof. exact comes_to_rest. Qed.
Print Assumptions C74_comes_to_rest.
(** A session with all three outcomes, at rest after each *)
Definition no_black : Formatter := mkFormatter (Raises "") (Raises "") (fun _ => Raises "").
Definition no_groups : string -> res (list (BinInt.Z * option string)) := fun _ => Ok [].
Example C74_ex :
  let shown := fun h => let x := screen_after no_black no_groups h in (to_spl x, to_app x, pane x, (pane_marked x, tree_marked x, report x)) in
  let first := types_and_waits "head 5" in
  let second := first ++ [TogglesRuntime; Types "eval x=((((1"; Types "index=a | dedup x"; SplHandles; AppHandles (fun _ l => l); SplHandles; AppHandles (fun _ l => l); AppHandles (fun _ l => l)] in
  let code := (heading true true ++ "spark.table('main').limit(5,)")%string in
  shown first = (0, 0, code, (false, false, None)) /\
  shown second = (0, 0, code, (true, false, Some RenderFailed)) /\ asked second /\ Forall fair second.
Proof.
  cbn zeta. split; [ vm_compute; reflexivity | ]. split; [ vm_compute; reflexivity | ].
  split; [ exists (Types "head 5"); split; [ now left | exact I ] | ].
  repeat (apply Forall_cons; [ exact I || (cbn; auto) | ]). apply Forall_nil.
Qed.
(** False of the code: that the pane of code shows nothing else than a translation of what the screen
    is about, unless it is marked.  After a text that cannot be parsed it still shows the code of the text
    before, without a mark, and that is what is copied. *)
Theorem C74_stale_code_refuted : forall fm groups good bad code, parse bad = Some Err ->
  (forall regex, groups regex <> Panic) ->
  convert_spl_to_pyspark fm true (mkEnv Allow (fun _ l => l) groups) good = Some (Ok code) ->
  let x := screen_after fm groups (types_and_waits good ++ types_and_waits bad ++ [Copies]) in
  quiet x /\ editor x = bad /\ pane x = (heading true true ++ code)%string /\ pane_marked x = false /\ clipboard x = pane x /\
  forall rt imports, ~ translation fm groups rt imports (editor x) (pane x).
Proof. exact stale_code. Qed.
Print Assumptions C74_stale_code_refuted.
Example C74_stale_ex : parse "eval x=((((1" = Some Err /\
  convert_spl_to_pyspark no_black true (mkEnv Allow (fun _ l => l) no_groups) "head 5" = Some (Ok "spark.table('main').limit(5,)").
Proof. split; vm_compute; reflexivity. Qed.
