(** C65-C67: regular expressions and conversions.  See PropsRows.v for [covered] and [gives]. *)
From Coq Require Import String List ZArith.
Import ListNotations.
From Verif Require Import Str SplAst PyAst Functions Commands CmdParser Api SpecPy SpecCol SpecSpark SpecRows SpecCommands
  SpecResult SpecTime Regex SpecRegex ResultFacts TimeFacts TimeRows RegexFacts.
Open Scope string_scope.
Open Scope list_scope.

Ltac by_running := eapply text_frame; [ vm_compute; reflexivity
  | eapply frame_gives; [ vm_compute; reflexivity | vm_compute; reflexivity | intro; vm_compute; reflexivity ] ].

(** C65: the groups found in a pattern are its capture groups, in the order of their numbers. *)
Theorem C65_groups_are_the_captures : forall pattern g, In g (get_groups_from_ast pattern) <-> has_group pattern g.
Proof. exact groups_are_captures. Qed.
Print Assumptions C65_groups_are_the_captures.
Theorem C65_groups_in_order : forall pattern n, numbered pattern 0 n ->
  map fst (get_groups_from_ast pattern) = map Z.of_nat (seq 1 (Z.to_nat n)).
Proof. exact groups_numbered. Qed.
Print Assumptions C65_groups_in_order.
(** ((?<a>x)|(?:y(z)))* *)
Definition sample_ast : ReAst :=
  ReRepetition (ReGroup (CaptureIndex 1) (ReAlternation [ReGroup (CaptureName 2 "a") ReOther;
    ReGroup NonCapturing (ReConcat [ReOther; ReGroup (CaptureIndex 3) ReOther])])).
Example C65_ex : numbered sample_ast 0 3 /\ get_groups_from_ast sample_ast = [(1, None); (2, Some "a"); (3, None)]%Z.
Proof.
  split; [ | reflexivity ]. unfold sample_ast. apply NRepetition, NCapture; [ reflexivity | ]. apply NAlternation.
  eapply NCons; [ apply NCapture; [ reflexivity | apply NOther ] | ]. eapply NCons; [ | apply NNil ].
  apply NGroup; [ reflexivity | ]. apply NConcat. eapply NCons; [ apply NOther | ]. eapply NCons; [ | apply NNil ].
  apply NCapture; [ reflexivity | apply NOther ].
Qed.

(** C66: rex stores the text of each capture group of the pattern in the group's column and
    leaves the other columns.  Partial: without the runtime; patterns that can stand in a raw
    Python string; group names distinct and different from the field. *)
Theorem C66_rex_extracts_partial : forall env sp db, env_rt env = Disallow -> walks_sets env ->
  forall parse_regex p rows c pattern, covered sp db p rows -> env_groups env = get_groups parse_regex ->
  rx_mode c <> Some "sed" -> rx_max_match c = 1%Z -> parse_regex (rx_regex c) = Ok pattern ->
  plain_name_text (rx_field c) = true -> plain_raw dquote false (rx_regex c) = true ->
  (forall i n, has_group pattern (i, Some n) -> plain_name_text n = true) ->
  (forall g g', has_group pattern g -> has_group pattern g' -> group_column g = group_column g' -> g = g') ->
  (forall g, has_group pattern g -> group_column g <> rx_field c) ->
  exists out, gives env sp db (p ++ [CRex c]) (OFrame None out) /\ Forall2 (extracted sp pattern (rx_regex c) (rx_field c)) rows out.
Proof. exact rex_extracts. Qed.
Print Assumptions C66_rex_extracts_partial.
Definition two_groups : ReAst := ReConcat [ReGroup (CaptureName 1 "user") ReOther; ReOther; ReGroup (CaptureName 2 "host") ReOther].
Definition env_of (ast : ReAst) : Env := mkEnv Disallow (fun _ l => l) (get_groups (fun _ => Ok ast)).
Example C66_ex : exists c, parsed "rex field=mail ""(?<user>\w+)@(?<host>\w+)""" = [CRex c]
  /\ rx_field c = "mail" /\ rx_regex c = "(?<user>\w+)@(?<host>\w+)" /\ rx_mode c <> Some "sed" /\ rx_max_match c = 1%Z
  /\ plain_raw dquote false (rx_regex c) = true
  /\ (forall g, has_group two_groups g <-> g = (1, Some "user") \/ g = (2, Some "host"))%Z.
Proof.
  eexists. split; [ vm_compute; reflexivity | ]. repeat split; try discriminate.
  - intro H. apply groups_are_captures in H. destruct H as [<-|[<-|[]]]; auto.
  - intros [->| ->]; apply groups_are_captures; cbn; auto.
Qed.
Example C66_text_ex : forall sp v, text_gives (env_of two_groups) sp (only_main [[("mail", v)]]) "rex field=mail ""(?<user>\w+)@(?<host>\w+)"""
  (OFrame None [[("mail", v); ("user", part sp "(?<user>\w+)@(?<host>\w+)" 1 v); ("host", part sp "(?<user>\w+)@(?<host>\w+)" 2 v)]]).
Proof. intros. by_running. Qed.
(** False if a group is named like the field: later groups are read from its new value. *)
Theorem C66_group_named_as_field_refuted : forall sp v,
  text_gives (env_of (ReConcat [ReGroup (CaptureName 1 "x") ReOther; ReOther; ReGroup (CaptureName 2 "y") ReOther])) sp
    (only_main [[("x", v)]]) "rex field=x ""(?<x>\w+)@(?<y>\w+)"""
    (OFrame None [[("x", part sp "(?<x>\w+)@(?<y>\w+)" 1 v); ("y", part sp "(?<x>\w+)@(?<y>\w+)" 2 (part sp "(?<x>\w+)@(?<y>\w+)" 1 v))]]).
Proof. intros. by_running. Qed.
Print Assumptions C66_group_named_as_field_refuted.
(** False for rows the pattern does not match: the columns are overwritten with empty texts. *)
Theorem C66_no_match_refuted : forall sp, spark_regex sp ->
  text_gives (env_of (ReConcat [ReOther; ReGroup (CaptureIndex 1) ReOther])) sp
    (only_main [[("x", SStr "abc"); ("1", SInt 7)]]) "rex field=x ""^(\d+)"""
    (OFrame None [[("x", SStr "abc"); ("1", SStr "")]]).
Proof.
  intros sp [E _].
  replace (SStr "") with (part sp "^(\d+)" 1 (SStr "abc")) by exact (E "^(\d+)" [Open; One digit; Many digit; Close] "abc" 1 eq_refl (conj (le_n 1) (le_n 1))).
  by_running.
Qed.
Print Assumptions C66_no_match_refuted.
(** C66 for regex: false.  The pattern is used as the name of a column: regexp_like takes names.
    Of a table without a column of that name no row is kept, whatever the field holds. *)
Theorem C66_regex_rows_partial : forall env sp db, env_rt env = Disallow -> walks_sets env ->
  forall p rows item field invert pattern, covered sp db p rows ->
  (item = None /\ field = "_raw" /\ invert = false) \/ (item = Some (field, "=") /\ invert = false) \/ (item = Some (field, "!=") /\ invert = true) ->
  plain_name_text field = true -> plain_raw dquote false pattern = true ->
  (forall r, In r rows -> truth (sp_fn sp "regexp_like" [AVal (cell field r); AVal (cell pattern r)]) <> None) ->
  gives env sp db (p ++ [CRegex item pattern])
    (OFrame None (filter (fun r => match sp_fn sp "regexp_like" [AVal (cell field r); AVal (cell pattern r)] with
                                   | SBool b => xorb invert b
                                   | _ => false
                                   end) rows)).
Proof. exact regex_gives. Qed.
Print Assumptions C66_regex_rows_partial.
Theorem C66_regex_keeps_matches_refuted : forall sp v, (forall a, sp_fn sp "regexp_like" [AVal a; AVal SNull] = SNull) ->
  text_gives (env0 Disallow) sp (only_main [[("x", v)]]) "regex x=""a.*""" (OFrame None []) /\
  text_gives (env0 Disallow) sp (only_main [[("x", v)]]) "regex x!=""a.*""" (OFrame None []).
Proof.
  intros sp v H. assert (C : covered sp (only_main [[("x", v)]]) [] [[("x", v)]]) by (left; split; reflexivity).
  assert (W : walks_sets (env0 Disallow)) by (intros i l; apply Permutation.Permutation_refl).
  assert (T : forall r, In r [[("x", v)]] -> truth (sp_fn sp "regexp_like" [AVal (cell "x" r); AVal (cell "a.*" r)]) <> None).
  { intros r [<-|[]]. change (cell "a.*" [("x", v)]) with SNull. rewrite H. discriminate. }
  split.
  - destruct (regex_gives (env0 Disallow) sp (only_main [[("x", v)]]) eq_refl W [] _ (Some ("x", "=")) "x" false "a.*" C ltac:(auto) eq_refl eq_refl T) as (code & E & G).
    exists code. split; [ exact (f_equal Some E) | ]. intros cmds x. rewrite (G cmds x). unfold regex_value. cbn [filter].
    change (cell "a.*" [("x", v)]) with SNull. rewrite H. reflexivity.
  - destruct (regex_gives (env0 Disallow) sp (only_main [[("x", v)]]) eq_refl W [] _ (Some ("x", "!=")) "x" true "a.*" C ltac:(auto) eq_refl eq_refl T) as (code & E & G).
    exists code. split; [ exact (f_equal Some E) | ]. intros cmds x. rewrite (G cmds x). unfold regex_value. cbn [filter].
    change (cell "a.*" [("x", v)]) with SNull. rewrite H. reflexivity.
Qed.
Print Assumptions C66_regex_keeps_matches_refuted.

(** C67: convert stores the converted value of each field under its alias or its own name, one
    conversion after the other.  Partial: without the runtime, for memk, rmunit and rmcomma
    (the values: see below), and for a single ctime. *)
Theorem C67_convert_partial : forall env sp db, env_rt env = Disallow -> walks_sets env ->
  forall p rows timeformat l, covered sp db p rows ->
  forallb (fun c => str_in (fc_func c) ["memk"; "rmunit"; "rmcomma"] && plain_name_text (fc_field c) && plain_name_text (conversion_target c)) l = true ->
  gives env sp db (p ++ [CConvert timeformat l])
    (OFrame None (map (fun r => fold_left (fun r c => set_cell (conversion_target c)
                                  (let v := cell (fc_field c) r in
                                   if String.eqb (fc_func c) "memk" then in_kilobytes sp v
                                   else if String.eqb (fc_func c) "rmunit" then without_unit sp v else without_commas sp v) r) l r) rows)).
Proof. exact convert_gives. Qed.
Print Assumptions C67_convert_partial.
Example C67_ex : exists l, parsed "convert memk(size) AS kb rmcomma(price)" = [CConvert "%m/%d/%Y %H:%M:%S" l]
  /\ map conversion_target l = ["kb"; "price"]
  /\ forallb (fun c => str_in (fc_func c) ["memk"; "rmunit"; "rmcomma"] && plain_name_text (fc_field c) && plain_name_text (conversion_target c)) l = true.
Proof. eexists. split; [ vm_compute; reflexivity | ]. split; reflexivity. Qed.
(** A number with the unit k, m or g is turned into kilobytes; rmunit drops the unit. *)
Theorem C67_memk : forall sp, spark_regex sp -> forall number unit scale, number_text number -> kilobytes unit = Some scale ->
  in_kilobytes sp (SStr (number ++ one_char unit)%string) = lifted (sp_arith sp "*") (as_number sp (SStr number)) (SNum scale).
Proof. exact memk_value. Qed.
Print Assumptions C67_memk.
Theorem C67_rmunit : forall sp, spark_regex sp -> forall number unit, number_text number -> unit_text unit = true ->
  without_unit sp (SStr (number ++ unit)%string) = as_number sp (SStr number).
Proof. exact rmunit_value. Qed.
Print Assumptions C67_rmunit.
Example C67_numbers_ex : number_text "10.5" /\ number_text "105" /\ number_text ".5" /\ kilobytes "M" = Some "1024.0" /\ unit_text "px" = true /\ unit_text "" = true.
Proof.
  split; [ apply (Decimal "10" "5"); [ reflexivity | reflexivity | discriminate ] | ]. split; [ apply Digits; [ reflexivity | discriminate ] | ].
  split; [ apply (Decimal "" "5"); [ reflexivity | reflexivity | discriminate ] | ]. repeat split.
Qed.
(** False: memk of a number without unit is the number of the empty text (null), although k is
    the default; so is rmunit of a number and a unit with a space between them. *)
Theorem C67_no_unit_refuted : forall sp, spark_regex sp ->
  in_kilobytes sp (SStr "7") = lifted (sp_arith sp "*") (as_number sp (SStr "")) (SNum "1.0") /\
  without_unit sp (SStr "10 MB") = as_number sp (SStr "").
Proof. exact no_unit. Qed.
Print Assumptions C67_no_unit_refuted.
(** convert ctime shows times in the format asked for (see C33). *)
Theorem C67_ctime_partial : forall env sp db, env_rt env = Disallow -> walks_sets env ->
  forall p rows f alias format (text : Row -> string), covered sp db p rows -> plain_name_text f = true ->
  plain_name_text (conversion_target (mkConversion "ctime" f alias)) = true ->
  Forall shown_alike format -> units_apart format -> percents_apart format -> plain_between dquote (format_text format) = true ->
  (forall r, In r rows -> exists t, formats_as sp (cell f r) t /\ spl_format t format = Some (text r)) ->
  gives env sp db (p ++ [CConvert (format_text format) [mkConversion "ctime" f alias]])
    (OFrame None (map (fun r => set_cell (conversion_target (mkConversion "ctime" f alias)) (SStr (text r)) r) rows)).
Proof. exact ctime_gives. Qed.
Print Assumptions C67_ctime_partial.
(** False: other conversions are copied into the program as calls of Spark functions of the same
    name. *)
Theorem C67_other_conversions_refuted : forall sp v,
  text_gives (env0 Disallow) sp (only_main [[("x", v)]]) "convert dur2sec(x)" (OFrame None [[("x", sp_fn sp "dur2sec" [AVal v])]]).
Proof. intros. by_running. Qed.
Print Assumptions C67_other_conversions_refuted.
