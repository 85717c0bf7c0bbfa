(** C12-C15: macros.  detect_macros, substitute_macros (python/spl_transpiler/macros.py). *)
From Coq Require Import String List.
Import ListNotations.
From Verif Require Import Str Macros SpecText SpecExpr SpecMacro ExprFacts EvalFacts MacroFacts MacroSubFacts MacroUnfold.
Open Scope string_scope.

(** C12: the pieces returned, with the calls put back between backticks, spell the text;
    no literal piece has a backtick; and the detection always ends without a panic. *)
Theorem C12_pieces_and_calls_spell_the_text : forall s l suffix,
  detect_macros s = Some (Ok (l, suffix)) ->
  spells l suffix s /\ Forall (fun pc => no_tick (fst pc)) l /\ no_tick suffix.
Proof. exact detect_sound. Qed.
Print Assumptions C12_pieces_and_calls_spell_the_text.
Theorem C12_detection_is_total : forall s, exists r, detect_macros s = Some r /\ r <> Panic.
Proof. exact detect_total. Qed.
Print Assumptions C12_detection_is_total.
(** Conversely every text written from literal pieces and plain calls is taken apart into
    exactly these pieces and calls. *)
Theorem C12_written_calls_are_detected : forall l suffix s,
  spells l suffix s -> Forall (fun pc => no_tick (fst pc)) l -> no_tick suffix ->
  Forall (fun pc => plain_call (snd pc)) l ->
  detect_macros s = Some (Ok (l, suffix)).
Proof. exact detect_complete. Qed.
Print Assumptions C12_written_calls_are_detected.
Example C12_ex : detect_macros "index=a `f(x, n = y+1 )` | `g` | head"
  = Some (Ok ([("index=a ", mkMacroCall "f" [(None, "x"); (None, "n = y+1")]);
               (" | ", mkMacroCall "g" [])], " | head")).
Proof. vm_compute. reflexivity. Qed.
Example C12_ex2 : detect_macros "index=a `f(x, n=y )` | `g` | head"
  = Some (Ok ([("index=a ", mkMacroCall "f" [(None, "x"); (Some "n", "y")]);
               (" | ", mkMacroCall "g" [])], " | head")).
Proof. vm_compute. reflexivity. Qed.

(** C13 *)
Theorem C13_macro_free_text_is_only_trimmed : forall re lib s, no_tick s ->
  exists n r, (forall fuel, n <= fuel -> substitute_macros fuel re lib s = Some (Ok r)) /\ trimmed s r.
Proof. exact plain_text_result. Qed.
Print Assumptions C13_macro_free_text_is_only_trimmed.
Theorem C13_results_are_left_alone : forall re lib fuel s q,
  substitute_macros fuel re lib s = Some (Ok q) ->
  forall k, substitute_macros (S k) re lib q = Some (Ok q).
Proof. exact result_fixed. Qed.
Print Assumptions C13_results_are_left_alone.
Example C13_ex : no_tick " index=a | head 3 | | " /\
  substitute_macros 9 (fun _ _ _ => Err) (fun _ => None) " index=a | head 3 | | " = Some (Ok "index=a | head 3").
Proof. split; [ cbn; repeat split; discriminate | vm_compute; reflexivity ]. Qed.

(** C14: a text with a call to an unknown macro, with the wrong number of arguments or with
    mixed ones never gives a result, whatever else stands in the text. *)
Theorem C14_bad_calls_are_errors : forall re lib l suffix s fuel,
  spells l suffix s -> Forall (fun pc => no_tick (fst pc)) l -> no_tick suffix ->
  Forall (fun pc => plain_call (snd pc)) l ->
  (exists pc, In pc l /\ bad_call lib (snd pc)) ->
  forall q, substitute_macros fuel re lib s <> Some (Ok q).
Proof. exact bad_rounds. Qed.
Print Assumptions C14_bad_calls_are_errors.
(** Every call is replaced by its definition with the values in place of the parameters.
    Missing for the full property: values with a dollar sign or a backslash, and definitions in
    which two parameters are not separated by a character that cannot stand in a name. *)
Theorem C14_values_replace_parameters_partial : forall re lib l suffix s u,
  spells l suffix s -> Forall (fun pc => no_tick (fst pc)) l -> no_tick suffix ->
  Forall (fun pc => plain_call (snd pc)) l ->
  expanded lib l suffix u -> no_tick u ->
  exists n r, (forall fuel, n <= fuel -> substitute_macros fuel re lib s = Some (Ok r)) /\ trimmed u r.
Proof. exact expanded_rounds. Qed.
Print Assumptions C14_values_replace_parameters_partial.
(** Calls in what a call stands for are replaced too, to any depth. *)
Theorem C14_calls_are_unfolded_partial : forall re lib s u, unfolds lib s u -> no_tick u /\
  exists n r, (forall fuel, n <= fuel -> substitute_macros fuel re lib s = Some (Ok r)) /\ trimmed u r.
Proof. exact unfolds_result. Qed.
Print Assumptions C14_calls_are_unfolded_partial.
Definition C14_lib : Macros := registry [("f", mkMacro ["a"; "b"] "x=$a$ OR y=$b$ OR z=$a$"); ("g", mkMacro [] "head 3")].
Example C14_ex_bad : bad_call C14_lib (mkMacroCall "f" [(None, "1")]) /\
  bad_call C14_lib (mkMacroCall "f" [(None, "1"); (Some "b", "2")]) /\
  ~ bad_call C14_lib (mkMacroCall "f" [(None, "1"); (None, "2")]).
Proof. exact bad_call_example. Qed.
Example C14_ex_expands : expands C14_lib (mkMacroCall "f" [(None, "1"); (None, "2")]) "x=1 OR y=2 OR z=1".
Proof. exact expands_example. Qed.
Example C14_ex : substitute_macros 9 (fun _ _ _ => Err) C14_lib "index=i `f(1, 2)` | `g` |" = Some (Ok "index=i x=1 OR y=2 OR z=1 | head 3").
Proof. vm_compute. reflexivity. Qed.
(** False of the code in general: a value that looks like a later parameter is itself
    replaced, because the parameters are substituted one after the other. *)
Theorem C14_each_parameter_gets_its_value_refuted : forall re,
  exists lib s d t0 l values,
    lib "f" = Some d /\ md_definition d = template t0 l /\ plain_template t0 l /\
    NoDup (md_arguments d) /\ Forall param_name (md_arguments d) /\
    detect_macros s = Some (Ok ([("", mkMacroCall "f" (map (pair None) values))], "")) /\
    length values = length (md_arguments d) /\
    exists n q, (forall fuel, n <= fuel -> substitute_macros fuel re lib s = Some (Ok q)) /\
                ~ trimmed (instantiate (md_arguments d) values t0 l) q.
Proof. exact sequential_substitution. Qed.
Print Assumptions C14_each_parameter_gets_its_value_refuted.
(** False of the code: a call without arguments, or with other names than those of the
    parameters, is not an error; the parameters stay in the text. *)
Theorem C14_missing_arguments_refuted : forall re,
  substitute_macros 9 re C14_lib "index=i `f`" = Some (Ok "index=i x=$a$ OR y=$b$ OR z=$a$").
Proof. intro re. vm_compute. reflexivity. Qed.
Print Assumptions C14_missing_arguments_refuted.
Theorem C14_unknown_names_refuted : forall re,
  substitute_macros 9 re C14_lib "index=i `f(c=1, d=2)`" = Some (Ok "index=i x=$a$ OR y=$b$ OR z=$a$").
Proof. intro re. vm_compute. reflexivity. Qed.
Print Assumptions C14_unknown_names_refuted.

(** C15: false of the code.  A macro whose definition contains a call to itself and more
    text is expanded forever. *)
Theorem C15_substitution_terminates_refuted : exists lib s, forall re fuel,
  substitute_macros fuel re lib s = None.
Proof. exact never_ends. Qed.
Print Assumptions C15_substitution_terminates_refuted.
(** It ends for any set of calls, with arguments or not, in which every call that stands for
    something stands for a text whose calls are in the set and of lower rank. *)
Theorem C15_ranked_calls_partial : forall re lib (good : MacroCall -> Prop) (rank : MacroCall -> nat),
  (forall c, good c -> decided lib c) ->
  (forall c v, good c -> expands lib c v ->
     exists cs, has_calls v cs /\ Forall (fun c' => good c' /\ rank c' < rank c) cs) ->
  forall s cs, has_calls s cs -> Forall good cs ->
  exists n r, forall fuel, n <= fuel -> substitute_macros fuel re lib s = Some r.
Proof. exact calls_terminate. Qed.
Print Assumptions C15_ranked_calls_partial.
Example C15_ranked_ex :
  (forall c, nested_call c -> decided nested c) /\
  (forall c v, nested_call c -> expands nested c v ->
     exists cs, has_calls v cs /\ Forall (fun c' => nested_call c' /\ nested_rank c' < nested_rank c) cs) /\
  nested_call (mkMacroCall "m" [(None, "1"); (None, "2")]) /\
  unfolds nested "index=i `m(1, 2)` |" "index=i x=1 OR y=2 |" /\
  forall re, substitute_macros 9 re nested "index=i `m(1, 2)` |" = Some (Ok "index=i x=1 OR y=2").
Proof. exact nested_example. Qed.
(** In particular for definitions that call only macros of lower rank, without arguments. *)
Theorem C15_substitution_terminates_partial : forall re lib (rank : string -> nat),
  (forall n d, lib n = Some d -> exists cs, has_calls (md_definition d) cs /\
     Forall (fun c => bare_call c /\ rank (mc_name c) < rank n) cs) ->
  forall s cs, has_calls s cs -> Forall bare_call cs ->
  exists n r, forall fuel, n <= fuel -> substitute_macros fuel re lib s = Some r.
Proof. exact ranked_terminates. Qed.
Print Assumptions C15_substitution_terminates_partial.
Definition C15_lib : Macros := registry [("a", mkMacro [] "`b` OR `b`"); ("b", mkMacro [] "x=1")].
Example C15_ex : substitute_macros 9 (fun _ _ _ => Err) C15_lib "index=i `a` `b`" = Some (Ok "index=i x=1 OR x=1 x=1") /\
  forall n d, C15_lib n = Some d -> exists cs, has_calls (md_definition d) cs /\
     Forall (fun c => bare_call c /\ (if (mc_name c =? "a")%string then 1 else 0) < (if (n =? "a")%string then 1 else 0)) cs.
Proof. exact ranked_example. Qed.
