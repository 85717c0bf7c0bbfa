(** C77 to C80: sessions with macro loaders.  See SpecLoaders.v. *)
From Coq Require Import String Ascii List.
Import ListNotations.
From Verif Require Import Str Macros Loaders SpecLoaders LoaderFacts.
Open Scope string_scope.
Open Scope list_scope.

(** A session used in the examples: a folder, a registry, and a loader that asks both *)
Definition c80_load (text : string) : Outcome := Found (mkMacro ["x"] text).
Definition c80_files : Files :=
  [(["etc"], Dir); (["etc"; "macros"], Dir); (["etc"; "macros"; "a.json"], File "y=1"); (["etc"; "macros"; "deep"], Dir);
   (["etc"; "macros"; "deep"; "b.json"], File "z=$x$"); (["etc"; "b.json"], File "other")].
Definition c80_session : list Event :=
  [FilesBecome c80_files; New (OFolder ["etc"; "macros"] ".json" c80_load);
   New (ORegistry [("b", mkMacro [] "from registry"); ("c", mkMacro [] "c1"); ("c", mkMacro [] "c2")]);
   New (OCombined [0; 1] (Some (fun n => Found (mkMacro [] ("no " ++ n))))); Register 1 "d" (mkMacro [] "d1"); Lookup 2 "b"; Register 1 "d" (mkMacro [] "d2")].
Definition c80_odd : OddGlob := fun _ _ _ => None.

(** C77: a registry gives what it was told last about the name. *)
Theorem C77_registry_gives_the_latest : forall odd h id items name, possible 0 h -> nth_error (made h) id = Some (ORegistry items) ->
  gives odd h id name (last_of (given items id name h)).
Proof. exact registry_gives. Qed.
Print Assumptions C77_registry_gives_the_latest.
Example C77_ex : possible 0 c80_session /\ (exists items, nth_error (made c80_session) 1 = Some (ORegistry items)) /\
  gives c80_odd c80_session 1 "d" (Found (mkMacro [] "d2")) /\ gives c80_odd c80_session 1 "c" (Found (mkMacro [] "c2")) /\ gives c80_odd c80_session 1 "a" Missing.
Proof.
  split; [ repeat constructor | ]. split; [ eexists; reflexivity | ]. repeat split; reflexivity.
Qed.

(** C78: a combined loader gives the first answer, in order, that is not a missing key, and asks
    the fallback if all are. *)
Theorem C78_first_answer : forall odd h id ids fallback name, possible 0 h -> nth_error (made h) id = Some (OCombined ids fallback) ->
  exists outs, Forall2 (fun i o => gives odd h i name o) ids outs /\
    gives odd h id name (first_of outs (match fallback with Some f => f name | None => Missing end)).
Proof. exact combined_gives. Qed.
Print Assumptions C78_first_answer.
Example C78_ex : possible 0 c80_session /\ (exists f, nth_error (made c80_session) 2 = Some (OCombined [0; 1] f)) /\
  gives c80_odd c80_session 2 "b" (Found (mkMacro ["x"] "z=$x$")) /\ gives c80_odd c80_session 2 "d" (Found (mkMacro [] "d2")) /\
  gives c80_odd c80_session 2 "q" (Found (mkMacro [] "no q")).
Proof. split; [ repeat constructor | ]. split; [ eexists; reflexivity | ]. repeat split; reflexivity. Qed.
(** So a macro that one of the loaders has need not be found: a loader before it that finds two
    files stops the search. *)
Theorem C78_any_loader_refuted : exists h d, possible 0 h /\ nth_error (made h) 2 = Some (OCombined [0; 1] None) /\
  gives c80_odd h 1 "b" (Found d) /\ gives c80_odd h 2 "b" Failed.
Proof.
  exists [FilesBecome [(["a"; "b.json"], File "1"); (["c"; "b.json"], File "2")]; New (OFolder [] ".json" c80_load); New (ORegistry [("b", mkMacro [] "3")]); New (OCombined [0; 1] None)], (mkMacro [] "3").
  split; [ repeat constructor | ]. repeat split; reflexivity.
Qed.
Print Assumptions C78_any_loader_refuted.

(** C79: a folder loader answers from the files: one entry of the name, which is a file, gives what
    is read from it; none, or a directory, is a missing key; several are an error.  The
    files are those of the moment of the lookup, or, if the answer is a definition, of some
    earlier moment. *)
Theorem C79_answers_come_from_files : forall odd h id root suffix load name, possible 0 h -> listed_once h ->
  nth_error (made h) id = Some (OFolder root suffix load) -> simple_file (name ++ suffix)%string ->
  exists h1 h2 o, h = h1 ++ h2 /\ reads (files_after h1) root (name ++ suffix)%string load o /\ gives odd h id name o /\ (h2 = [] \/ exists d, o = Found d).
Proof. exact folder_gives. Qed.
Print Assumptions C79_answers_come_from_files.
(** The first definition found for a name is the answer from then on, whatever happens. *)
Theorem C79_first_definition_is_kept : forall odd h id root suffix load name d later, possible 0 (h ++ Lookup id name :: later) ->
  nth_error (made h) id = Some (OFolder root suffix load) -> gives odd h id name (Found d) ->
  gives odd (h ++ Lookup id name :: later) id name (Found d).
Proof. exact folder_remembers. Qed.
Print Assumptions C79_first_definition_is_kept.
Example C79_ex : possible 0 c80_session /\ listed_once c80_session /\ (exists l, nth_error (made c80_session) 0 = Some (OFolder ["etc"; "macros"] ".json" l)) /\
  simple_file ("b" ++ ".json") /\ gives c80_odd c80_session 0 "b" (Found (mkMacro ["x"] "z=$x$")) /\ gives c80_odd c80_session 0 "deep" Missing.
Proof.
  split; [ repeat constructor | ]. split.
  - intros fs I. repeat (destruct I as [I|I]; [ try discriminate I | ]); [ | contradiction ]. injection I as <-.
    cbn. repeat (constructor; [ cbn; intuition discriminate | ]). constructor.
  - split; [ eexists; reflexivity | ]. split; [ | split; reflexivity ].
    split; [ cbn; repeat split; intro I; repeat (destruct I as [I|I]; [ discriminate I | ]); contradiction | cbn; intuition discriminate ].
Qed.
(** So a changed file is not noticed once it was read. *)
Theorem C79_changes_are_seen_refuted : exists h fs, possible 0 (h ++ [FilesBecome fs]) /\
  nth_error (made h) 0 = Some (OFolder ["m"] ".json" c80_load) /\ In (["m"; "a.json"], File "new") fs /\ length fs = 1 /\
  gives c80_odd (h ++ [FilesBecome fs]) 0 "a" (c80_load "old") /\ ~ gives c80_odd (h ++ [FilesBecome fs]) 0 "a" (c80_load "new").
Proof.
  exists [New (OFolder ["m"] ".json" c80_load); FilesBecome [(["m"; "a.json"], File "old")]; Lookup 0 "a"], [(["m"; "a.json"], File "new")].
  split; [ repeat constructor | ]. do 4 (split; [ first [ reflexivity | now left ] | ]). unfold gives. cbn. discriminate.
Qed.
Print Assumptions C79_changes_are_seen_refuted.
(** And a star, which the names of macro calls may contain, finds files of other names. *)
Theorem C79_other_names_refuted : exists h chunks, detect_macros "search `*`" = Some (Ok (chunks, "")) /\ map (fun pc => mc_name (snd pc)) chunks = ["*"] /\
  possible 0 h /\ nth_error (made h) 0 = Some (OFolder ["m"] ".json" c80_load) /\ files_after h = [(["m"; "delete.json"], File "x")] /\
  gives c80_odd h 0 "*" (c80_load "x").
Proof.
  exists [New (OFolder ["m"] ".json" c80_load); FilesBecome [(["m"; "delete.json"], File "x")]]. eexists.
  split; [ vm_compute; reflexivity | ]. split; [ reflexivity | ]. split; [ repeat constructor | ]. repeat split; reflexivity.
Qed.
Print Assumptions C79_other_names_refuted.

(** C80: asking a loader changes no later answer of any loader; so substituting macros through a
    loader is substituting with the definitions it shows, and leaves its answers as they were. *)
Theorem C80_lookups_disturb_nothing : forall odd h id name i n o, gives odd (h ++ [Lookup id name]) i n o <-> gives odd h i n o.
Proof. exact lookups_disturb_nothing. Qed.
Print Assumptions C80_lookups_disturb_nothing.
Theorem C80_substitution_through_loaders : forall odd h id macros fuel re_sub code,
  (forall n d, macros n = Some d <-> gives odd h id n (Found d)) ->
  fst (substitute_with odd fuel re_sub id code (session odd h)) = substitute_macros fuel re_sub macros code /\
  forall i n, fst (lookup odd (snd (substitute_with odd fuel re_sub id code (session odd h))) i n) = fst (lookup odd (session odd h) i n).
Proof. exact substitution_with_objects. Qed.
Print Assumptions C80_substitution_through_loaders.
Example C80_ex : (exists macros, forall n d, macros n = Some d <-> gives c80_odd c80_session 2 n (Found d)) /\
  fst (substitute_with c80_odd 5 (fun _ _ _ => Err) 2 "search `b(4)` `d`" (session c80_odd c80_session)) = Some (Ok "search z=4 d2").
Proof.
  split; [ | vm_compute; reflexivity ].
  exists (fun n => match fst (lookup c80_odd (session c80_odd c80_session) 2 n) with Found d => Some d | _ => None end).
  intros n d. unfold gives. destruct (fst (lookup c80_odd (session c80_odd c80_session) 2 n)); split; congruence.
Qed.
