(** C33: time formats.  [format_text l]: the format made of the items l (characters other
    than percent, directives, doubled percents).  [spl_format t l], [spark_format t g]: what
    SPL's format and Spark's pattern show of the time t. *)
From Coq Require Import String Ascii List ZArith Bool.
Import ListNotations.
From Verif Require Import Str SplAst PyAst Functions Transpile Commands CmdParser Api SpecExpr SpecPy SpecCol SpecSpark SpecRows SpecCommands
  SpecResult SpecEffect SpecTime TimeFacts TimeRows.
Open Scope list_scope.
Open Scope string_scope.

(** Formats are converted item by item, each as if it stood alone, and fail if one does.
    Partial: the directives of SpecTime.directives; a doubled percent is followed by nothing
    that could be read as a directive of its second half. *)
Theorem C33_itemwise_partial : forall l, Forall known l -> percents_apart l ->
  convert_time_format (format_text l) = rmap sconcat (rtraverse (fun i => convert_time_format (item_text i)) l).
Proof. exact convert_itemwise. Qed.
Print Assumptions C33_itemwise_partial.
Theorem C33_untranslatable_is_an_error_partial : forall l d, Forall known l -> percents_apart l -> In d untranslatable -> In (Dir d) l ->
  convert_time_format (format_text l) = Err.
Proof. exact convert_refused. Qed.
Print Assumptions C33_untranslatable_is_an_error_partial.
(** The converted pattern shows, of every time, what the format shows.  Partial: directives
    of SpecTime.agreeing, no letters between them, no directive directly followed by one of
    the same unit. *)
Theorem C33_same_text_shown_partial : forall l, Forall shown_alike l -> units_apart l -> percents_apart l ->
  exists g, convert_time_format (format_text l) = Ok g /\ forall t, exists s, spl_format t l = Some s /\ spark_format t g = Some s.
Proof. exact convert_shown. Qed.
Print Assumptions C33_same_text_shown_partial.
(** eval x=strftime(e, format) therefore stores in every row the text the format shows of
    the time e stands for, if Spark's date_format shows times as its patterns say. *)
Theorem C33_strftime_partial : forall env sp db, env_rt env = Disallow -> walks_sets env ->
  forall p rows x e l (text : Row -> string), covered sp db p rows -> plain_name_text x = true -> plain_expr true e = true ->
  Forall shown_alike l -> units_apart l -> percents_apart l -> plain_between dquote (format_text l) = true ->
  (forall r, In r rows -> exists v t, ev sp r e = Some v /\
     (forall pattern s, spark_format t pattern = Some s -> sp_fn sp "date_format" [AVal v; ALit (SStr pattern)] = SStr s) /\
     spl_format t l = Some (text r)) ->
  gives env sp db (p ++ [CEval [(x, ECall "strftime" [e; ELeaf (LConstant (KStr (format_text l)))])]])
    (OFrame None (map (fun r => set_cell x (SStr (text r)) r) rows)).
Proof. exact strftime_gives. Qed.
Print Assumptions C33_strftime_partial.

Definition a_time : Time :=
  {| year := 2024; month := 3; day := 5; weekday := 2; yearday := 65; hour := 7; minute := 8; second := 9; nanos := 123456789;
     zone_name := "CET"; zone_east := true; zone_minutes := 60; month_name := "March"; month_short := "Mar"; day_name := "Tuesday"; day_short := "Tue" |}.
Example C33_ex :
  let l := [Dir "Y"; Lit "-"; Dir "m"; Lit "-"; Dir "d"; Lit " "; Dir "I"; Lit ":"; Dir "M"; Lit " "; Dir "p"; Lit " "; Percent; Lit "-"; Dir "b"; Dir "3Q"] in
  format_text l = "%Y-%m-%d %I:%M %p %%-%b%3Q" /\ Forall shown_alike l /\ Forall known l /\ units_apart l /\ percents_apart l /\
  spl_format a_time l = Some "2024-03-05 07:08 AM %-Mar123".
Proof.
  cbv zeta. split; [ reflexivity | ]. split; [ | split; [ | split; [ | split ] ] ].
  - repeat constructor; cbn; try discriminate.
  - repeat (constructor; [ first [ discriminate | exact I | unfold known, directives; cbn [In app]; repeat (first [ left; reflexivity | right ]) ] | ]). constructor.
  - cbn. repeat split; auto. intros u v E1 E2. injection E1 as <-. injection E2 as <-. discriminate.
  - cbn. repeat split; auto.
  - vm_compute. reflexivity.
Qed.
Example C33_strftime_ex : parsed "eval day=strftime(_time, ""%F"")" =
  [CEval [("day", ECall "strftime" [ELeaf (LConstant (KField "_time")); ELeaf (LConstant (KStr (format_text [Dir "F"])))])]].
Proof. vm_compute. reflexivity. Qed.

(** False: a doubled percent is replaced last, after the directive its second half seems to begin. *)
Theorem C33_percent_refuted : convert_time_format "%%H" = Ok "%HH" /\ convert_time_format "%%" = Ok "%" /\ convert_time_format "H" = Ok "H".
Proof. repeat split; vm_compute; reflexivity. Qed.
Print Assumptions C33_percent_refuted.
(** False: directives that are in no table are kept silently. *)
Theorem C33_unknown_directive_refuted : exists code, transpile (env0 Disallow) "eval x=strftime(t, ""%V %U %3N"")" = Some (Ok code) /\ contains "%V %U %3N" code = true.
Proof. eexists. split; vm_compute; reflexivity. Qed.
Print Assumptions C33_unknown_directive_refuted.
(** False: letters between directives are not quoted, so the pattern is illegal. *)
Theorem C33_letters_refuted : forall t, convert_time_format (format_text [Dir "d"; Lit "T"; Dir "H"]) = Ok "ddTHH" /\
  spark_format t "ddTHH" = None /\ spl_format t [Dir "d"; Lit "T"; Dir "H"] = Some (padded 2 (day t) ++ "T" ++ padded 2 (hour t))%string.
Proof. intro t. split; [ vm_compute; reflexivity | split; [ reflexivity | ] ]. cbn. now rewrite app_nil. Qed.
Print Assumptions C33_letters_refuted.
(** False: two neighbours of the same unit become one run of letters. *)
Theorem C33_neighbours_refuted : forall t, convert_time_format (format_text [Dir "H"; Dir "H"]) = Ok "HHHH" /\ spark_format t "HHHH" = None.
Proof. intro t. split; [ vm_compute | ]; reflexivity. Qed.
Print Assumptions C33_neighbours_refuted.
(** False: these directives are given a pattern that shows something else. *)
Theorem C33_wrong_equivalents_refuted : Forall (fun d => exists g shown, convert_time_format (item_text (Dir d)) = Ok g /\
    spl_format a_time [Dir d] = Some shown /\ spark_format a_time g <> Some shown)
  ["f"; "N"; "k"; "e"; "j"; "z"; ":z"; "w"].
Proof.
  repeat constructor; do 2 eexists; (split; [ vm_compute; reflexivity | ]); (split; [ vm_compute; reflexivity | ]); vm_compute; discriminate.
Qed.
Print Assumptions C33_wrong_equivalents_refuted.
