(** Facts: calls without arguments keep the parameters of their definition. *)
From Coq Require Import Lia PeanoNat.
From Verif Require Import Str SplAst Nom Lexer Parser CmdParser Macros SpecText SpecExpr SpecMacro ParserFacts MacroFacts MacroSubFacts ExprFacts EvalFacts MacroUnfold.
Open Scope string_scope.
Open Scope list_scope.

Lemma bare_kept : forall re lib f d piece rest, plain_ident f -> lib f = Some d ->
  no_tick piece -> no_tick (md_definition d) -> no_tick rest ->
  exists n r, (forall fuel, n <= fuel -> substitute_macros fuel re lib (piece ++ "`" ++ f ++ "`" ++ rest) = Some (Ok r)) /\
    trimmed (piece ++ md_definition d ++ rest) r.
Proof.
  intros re lib f d piece rest F L P D R. apply (expanded_rounds re lib [(piece, mkMacroCall f [])] rest).
  - apply (SP_call piece (mkMacroCall f []) f [] rest rest); [ | constructor ].
    pose proof (CT_bare f "" "" I I) as C. cbn [append] in C. now rewrite append_nil_r in C.
  - now constructor.
  - exact R.
  - constructor; [ | constructor ]. split; [ exact F | constructor ].
  - apply (XD_call lib piece (mkMacroCall f []) (md_definition d) [] rest rest); [ now constructor | constructor ].
  - unfold no_tick in *. apply all_chars_app. split; [ exact P | ]. apply all_chars_app. now split.
Qed.

(** ** Calls by names, whatever the names are *)
Lemma rounds_by : forall re lib l suffix s body, spells l suffix s ->
  Forall (fun pc => no_tick (fst pc)) l -> no_tick suffix -> Forall (fun pc => plain_call (snd pc)) l ->
  expand_chunks re lib l = Ok body -> no_tick (body ++ suffix) ->
  exists n r, (forall fuel, n <= fuel -> substitute_macros fuel re lib s = Some (Ok r)) /\ trimmed (body ++ suffix) r.
Proof.
  intros re lib l suffix s body HS F1 F2 F3 EB HT.
  destruct (tidy_split (body ++ suffix)) as (a & b & E & Ha & Hb).
  destruct (String.eqb_spec (tidy (body ++ suffix)) s) as [X|X].
  - destruct (tidy_split s) as (a' & b' & E' & _).
    assert (no_tick s) by (rewrite <- X; eapply part_no_tick; eauto).
    destruct (plain_rounds re lib (S (String.length (body ++ suffix))) (body ++ suffix) HT ltac:(lia)) as (r & E1 & T).
    exists 1, r. split; auto. intros fuel Hf. destruct fuel as [|fuel]; [ lia | ].
    cbn [substitute_macros] in *. rewrite once_plain in E1 by auto. rewrite X in E1.
    unfold substitute_once. rewrite (detect_complete l suffix s) by auto. cbn [rbind fst snd]. rewrite EB. cbn [rbind].
    rewrite X, String.eqb_refl.
    destruct (String.eqb_spec s (body ++ suffix)) as [Y|Y]; [ exact E1 | ].
    assert (substitute_once re lib s = Some (Ok s)) as Z.
    { unfold substitute_once. rewrite (detect_complete l suffix s) by auto. cbn [rbind fst snd]. rewrite EB. cbn [rbind]. now rewrite X. }
    destruct (String.length (body ++ suffix)) as [|k]; [ discriminate | ]. cbn [substitute_macros] in E1.
    rewrite Z, String.eqb_refl in E1. exact E1.
  - destruct (plain_rounds re lib (S (String.length (tidy (body ++ suffix)))) (tidy (body ++ suffix))) as (r & E1 & a' & b' & E2 & Ha' & Hb' & N).
    { eapply part_no_tick; eauto. }
    { lia. }
    exists (S (S (String.length (tidy (body ++ suffix))))), r. split.
    + intros fuel Hf. destruct fuel as [|fuel]; [ lia | ]. cbn [substitute_macros].
      unfold substitute_once. rewrite (detect_complete l suffix s) by auto. cbn [rbind fst snd]. rewrite EB. cbn [rbind].
      destruct (String.eqb_spec (tidy (body ++ suffix)) s); [ contradiction | ].
      eapply rounds_mono; [ exact E1 | lia ].
    + exists (a ++ a')%string, (b' ++ b)%string. split; [ | split; [ | split ]]; auto.
      * rewrite E, E2 at 1. now rewrite !append_assoc_s.
      * now apply all_chars_app.
      * now apply all_chars_app.
Qed.
Lemma named_call : forall re lib f d names values t0 l, lib f = Some d -> values <> [] ->
  length values = length names -> length names = length (md_arguments d) -> NoDup names -> Forall param_name names ->
  Forall (fun v => no_dollar v /\ no_backslash v) values -> plain_template t0 l -> md_definition d = template t0 l ->
  expand_call re lib (mkMacroCall f (combine (map Some names) values)) = Ok (instantiate names values t0 l).
Proof.
  intros re lib f d names values t0 l E Hne HL HL' ND HP HV HT ET. unfold expand_call; cbn [mc_name mc_args]; rewrite E.
  - cbn [of_option rbind]. destruct values as [|w values]; [ congruence | ]. destruct names as [|m names]; [ discriminate | ].
    assert (B : bind_args (md_arguments d) (combine (map Some (m :: names)) (w :: values)) = Ok (combine (m :: names) (w :: values))).
    { assert (forallb is_positional (combine (map Some (m :: names)) (w :: values)) = false) as Y by reflexivity.
      set (ns := m :: names) in *. set (vs := w :: values) in *. unfold bind_args. rewrite Y.
      assert (forallb (fun a => negb (is_positional a)) (combine (map Some ns) vs) = true) as ->.
      { apply forallb_forall. intros [o x] Hx. apply in_combine_l in Hx. apply in_map_iff in Hx. now destruct Hx as (y & <- & _). }
      rewrite combine_length, map_length, HL, HL', Nat.min_id, Nat.eqb_refl.
      assert (map (fun a : option string * string => (or_default "" (fst a), snd a)) (combine (map Some ns) vs) = combine ns vs) as ->.
      { clearbody ns vs. clear. revert vs. induction ns as [|n ns IH]; intros [|v vs]; [ reflexivity .. | ]. cbn. now rewrite IH. }
      now rewrite dict_of_nodup by (rewrite map_fst_combine; auto). }
    cbn [map combine] in *. rewrite B. cbn [rbind]. rewrite ET.
    change ((m, w) :: combine names values) with (combine (m :: names) (w :: values)). now apply sub_args_instantiate.
Qed.
Lemma names_kept : forall re lib f d names values t0 l piece rest s, lib f = Some d -> values <> [] ->
  length values = length names -> length names = length (md_arguments d) -> NoDup names -> Forall param_name names ->
  Forall (fun v => no_dollar v /\ no_backslash v) values -> plain_template t0 l -> md_definition d = template t0 l ->
  plain_call (mkMacroCall f (combine (map Some names) values)) ->
  spells [(piece, mkMacroCall f (combine (map Some names) values))] rest s -> no_tick piece -> no_tick rest ->
  no_tick (instantiate names values t0 l) ->
  exists n r, (forall fuel, n <= fuel -> substitute_macros fuel re lib s = Some (Ok r)) /\ trimmed (piece ++ instantiate names values t0 l ++ rest) r.
Proof.
  intros re lib f d names values t0 l piece rest s E Hne HL HL' ND HP HV HT ET PC S P R N.
  replace (piece ++ instantiate names values t0 l ++ rest)%string with ((piece ++ instantiate names values t0 l) ++ rest)%string by (now rewrite append_assoc_s).
  eapply rounds_by; [ exact S | | exact R | | | ].
  - now constructor.
  - now constructor.
  - cbn [expand_chunks]. rewrite (named_call re lib f d names values t0 l) by assumption. cbn [rbind]. now rewrite append_nil_r.
  - unfold no_tick in *. apply all_chars_app. split; [ | exact R ]. apply all_chars_app. now split.
Qed.
Lemma other_names_example : let d := mkMacro ["a"] "x=$a$ OR y=$a$" in let t0 := "x=" in let l := [("a", " OR y="); ("a", "")] in
  NoDup ["c"] /\ Forall param_name ["c"] /\ Forall (fun v => no_dollar v /\ no_backslash v) ["1"] /\ plain_template t0 l /\ md_definition d = template t0 l /\
  plain_call (mkMacroCall "pick" (combine (map Some ["c"]) ["1"])) /\
  spells [("index=i ", mkMacroCall "pick" (combine (map Some ["c"]) ["1"]))] " | head" "index=i `pick(c=1)` | head" /\
  no_tick (instantiate ["c"] ["1"] t0 l) /\ instantiate ["c"] ["1"] t0 l = md_definition d.
Proof.
  cbv zeta. assert (PL : forall n, In n ["a"; "c"] -> param_name n).
  { intros n [<-|[<-|[]]]; apply param_letter; unfold letter; cbn; lia. }
  split; [ repeat constructor; intros [] | ]. split; [ constructor; [ apply PL; cbn; tauto | constructor ] | ].
  split; [ constructor; [ split; cbn; repeat split; discriminate | constructor ] | ].
  split.
  { split; [ cbn; repeat split; discriminate | ]. split.
    - repeat apply Forall_cons; try apply Forall_nil; (split; [ apply PL; cbn; tauto | cbn; repeat split; discriminate ]).
    - cbn. split; [ | split; [ congruence | exact I ] ]. intros _ [[H|[H|H]] _]; try discriminate; unfold letter, digit in H; cbn in H; lia. }
  split; [ reflexivity | ]. split.
  { split; [ now apply ident_by | ]. constructor; [ | constructor ]. split; [ now apply ident_by | ].
    exists (TInt 1). split; [ cbn; unfold int64_nonmin; lia | ]. apply (writes_le 2); [ lia | lia | ]. exact (W_int 1). }
  split.
  { apply (SP_call "index=i " _ "pick(c=1)" [] " | head" " | head"); [ | constructor ].
    apply (CT_args "pick" [(Some "c", "1")] "c=1" "" "" "" "" ""); try exact I. constructor. exact (AT_named "c" "1"). }
  split; [ cbn; repeat split; discriminate | reflexivity ].
Qed.
