(** C69: a pipeline that is written is the pipeline that is read, for any number of
    commands and any nesting of sub-searches. *)
From Coq Require Import String Ascii List ZArith Lia.
Import ListNotations.
From Verif Require Import Str SplAst PyAst Nom Lexer Parser CmdParser Functions Transpile Commands Api.
From Verif Require Import SpecText SpecExpr SpecSpell SpecSpark SpecRows SpecCommands SpecResult.
From Verif Require Import NameFacts EvalFacts CommandFacts SpellFacts SpellRead SpellRuns.
Open Scope string_scope.

(** White space, or a vertical bar, may come before the first command. *)
Theorem C69_written_pipelines_are_read_partial : forall p s lead,
  spells_text p s -> spaces lead \/ around "|" lead -> parse (lead ++ s) = Some (Ok p).
Proof. exact text_parses. Qed.
Print Assumptions C69_written_pipelines_are_read_partial.
(** No text is a way to write two pipelines. *)
Theorem C69_one_reading_partial : forall p q s, spells_text p s -> spells_text q s -> p = q.
Proof. exact one_reading. Qed.
Print Assumptions C69_one_reading_partial.
(** How a pipeline is laid out does not matter to the code. *)
Theorem C69_layout_does_not_matter_partial : forall env p s t, spells_text p s -> spells_text p t -> transpile env s = transpile env t.
Proof. exact same_code. Qed.
Print Assumptions C69_layout_does_not_matter_partial.
(** From the text to the rows: with C55. *)
Theorem C69_written_pipelines_compute_their_commands_partial : forall env sp db p s rows, env_rt env = Disallow -> walks_sets env ->
  spells_text p s -> covered sp db p rows -> text_gives env sp db s (OFrame None rows).
Proof. exact written_runs. Qed.
Print Assumptions C69_written_pipelines_compute_their_commands_partial.

(** A pipeline of five commands with a sub-search, written without much care *)
Definition C69_pipeline : list Command :=
  [CSearch (joined_meaning "AND" [meaning (TBin OEq (TField "index") (TField "web")); meaning (TBin OGt (TField "n") (TInt 4))]);
   CEval [("m", meaning (TBin OAdd (TField "n") (TInt 1)))];
   CJoin (mkJoin "inner" false true true 1%Z ["u"; "v"]) [CTable ["u"; "v"]; CHead (ELeaf (LConstant (KInt 5))) false false];
   CSort [(Some "-", ELeaf (LConstant (KField "m")))] 10000%Z false;
   CStats (mkStatsOpts 1%Z false " " false) [EAlias (ECall "sum" [ELeaf (LConstant (KField "m"))]) "total"; ECall "count" []] (Some [mkMSF "u" None])].
Definition C69_text : string :=
  "index=web n>4 | eval m=n + 1| JOIN u, v[ table  u v | head 5 ]|sort -m | Stats sum(m) as total, count BY u".
Ltac word := first [ now apply ident_by | now apply field_by ].
Ltac whites := cbn; unfold white; cbn; repeat split; tauto.
Ltac blank := split; [ discriminate | whites ].
Ltac same := now apply same_word_lower.
Ltac bar a b := exists a, b; split; [ whites | split; [ whites | reflexivity ] ].
Ltac parts := repeat match goal with |- _ /\ _ => split end.
Ltac number := unfold int64_nonmin; vm_compute; split; congruence.
Ltac default := left; split; [ intros [] | reflexivity ].
Ltac nothing := left; split; reflexivity.
Ltac no_start := first [ apply in_by; cbn; exact I || discriminate | apply starts_by; reflexivity ].
Ltac a_head := eapply B_head; [ left; eexists; split; [ | reflexivity ] | left; split; reflexivity | left; split; reflexivity | right; left; split; reflexivity ].
Example C69_ex : spells_all C69_pipeline C69_text.
Proof.
  change C69_text with ("index=web n>4" ++ " | " ++ ("eval" ++ " " ++ "m=n + 1") ++ "| " ++
    ("JOIN" ++ " " ++ ("u, v" ++ "" ++ "[" ++ " " ++ (("table" ++ "  " ++ "u v") ++ " | " ++ ("head" ++ " " ++ decimal 5)) ++ " " ++ "]"))
    ++ "|" ++ ("sort" ++ " " ++ "" ++ "-m" ++ "") ++ " | " ++ ("Stats" ++ " " ++ ("sum(m) as total, count" ++ " " ++ "BY" ++ " " ++ "u"))).
  eapply S_more; [ | bar " " " " | eapply S_more; [ | bar "" " " | eapply S_more; [ | bar "" "" | eapply S_more; [ | bar " " " " | eapply S_one ] ] ] ].
  - apply S_search.
    + apply B_search_terms. change "index=web n>4" with ("index=web" ++ " " ++ "n>4").
      eapply L_more; [ | left; blank | eapply L_one ].
      * exists (TBin OEq (TField "index") (TField "web")). cbn [wf]; parts; try word; try reflexivity.
        -- apply W_up; [ lia | ]. apply W_up; [ lia | ]. apply W_up; [ lia | ].
           apply (W_tight OEq (TField "index") (TField "web") "index" "web" "" ""); [ split; [ exact I | split; [ exact I | split; [ discriminate | auto ] ] ] | do 3 (apply W_up; [ lia | ]) | do 4 (apply W_up; [ lia | ]) ]; apply W_field.
        -- left. unfold letter. cbn. lia.
        -- no_start.
        -- no_start.
        -- no_start.
      * exists (TBin OGt (TField "n") (TInt 4)). cbn [wf]; parts; try word; try number; try reflexivity.
        -- do 3 (apply W_up; [ lia | ]).
           apply (W_tight OGt (TField "n") (TInt 4) "n" (decimal 4) "" ""); [ split; [ exact I | split; [ exact I | split; [ discriminate | auto ] ] ] | do 3 (apply W_up; [ lia | ]) | do 4 (apply W_up; [ lia | ]) ]; [ apply W_field | apply W_int ].
        -- left. unfold letter. cbn. lia.
        -- no_start.
        -- no_start.
        -- no_start.
    + apply no_command_by. reflexivity.
  - apply (S_command "eval"); [ same | blank | ]. apply B_eval, L_one.
    exists "m", (TBin OAdd (TField "n") (TInt 1)), "n + 1", "", "". cbn [wf]; parts; try word; try number; try reflexivity; try exact I.
    do 5 (apply W_up; [ lia | ]). apply (W_bin OAdd (TField "n") (TInt 1) "n" (decimal 1) " " " "); [ blank | blank | apply W_up; [ lia | apply W_field ] | do 2 (apply W_up; [ lia | ]); apply W_int ].
  - apply (S_command "join"); [ same | blank | ]. eapply (B_join [] "" ["u"; "v"] "u, v" "" " " _ (("table" ++ "  " ++ "u v") ++ " | " ++ ("head" ++ " " ++ decimal 5)) " "); [ nothing | | exact I | | | | left; split; reflexivity | exists "inner", false, true, true, 1%Z; parts; try default; reflexivity ]; [ | whites | whites | ].
    + change "u, v" with ("u" ++ ", " ++ "v"). eapply L_more; [ split; [ word | reflexivity ] | right; bar "" " " | eapply L_one; split; [ word | reflexivity ] ].
    + eapply S_more; [ | bar " " " " | eapply S_one ].
      * apply (S_command "table"); [ same | blank | ]. apply B_table. change "u v" with ("u" ++ " " ++ "v").
        eapply L_more; [ split; [ word | reflexivity ] | left; blank | eapply L_one; split; [ word | reflexivity ] ].
      * apply (S_command "head"); [ same | blank | ]. a_head. left. split; [ lia | reflexivity ].
  - apply (S_command "sort"); [ same | blank | ]. apply B_sort; [ left; split; reflexivity | apply L_one | left; split; reflexivity ]. exists "-", (TField "m"). cbn [wf]; parts; try word; try exact I; try reflexivity. right. cbn. tauto.
  - apply (S_command "stats"); [ same | blank | ]. eapply (B_stats [] "" _ "sum(m) as total, count" (Some [mkMSF "u" None])); [ nothing | | right; eexists; split; [ reflexivity | exists " ", "BY", " ", "u"; parts; try blank; try same; try reflexivity ] | left; split; reflexivity | exists 1%Z, false, " "; parts; try default; try lia; reflexivity ].
    + change "sum(m) as total, count" with (("sum" ++ "(" ++ commas (map show [TField "m"]) ++ ")") ++ " " ++ "as" ++ " " ++ "total" ++ ", " ++ "count").
      change (("sum" ++ "(" ++ commas (map show [TField "m"]) ++ ")") ++ " " ++ "as" ++ " " ++ "total" ++ ", " ++ "count")
        with ((("sum" ++ "(" ++ commas (map show [TField "m"]) ++ ")") ++ " " ++ "as" ++ " " ++ "total") ++ ", " ++ "count").
      eapply L_more; [ | bar "" " " | eapply L_one ].
      * exists "sum", [ELeaf (LConstant (KField "m"))], ("sum" ++ "(" ++ commas (map show [TField "m"]) ++ ")"). split; [ word | ]. split.
        -- right. exists [TField "m"]. parts; try reflexivity. constructor; [ word | constructor ].
        -- right. exists "total", " ", " ", "as". parts; try word; try blank; try same; reflexivity.
      * exists "count", [], "count". split; [ word | ]. split; left; auto.
    + eapply L_one. exists "u". split; [ word | left; split; reflexivity ].
Qed.
(** A path after path=, and a command without arguments at the end *)
Example C69_bare_ex : spells_text [CMakeResults (mkMakeResults 1%Z false "local" None); CSPath (mkSPath "a.b{}.c" "_raw" None); CFillNull "0" None]
  "makeresults | spath PATH=a.b{}.c|FillNull".
Proof.
  change "makeresults | spath PATH=a.b{}.c|FillNull" with (("makeresults" ++ " " ++ "") ++ "| " ++ ("spath" ++ " " ++ "" ++ "" ++ "PATH=a.b{}.c") ++ "|" ++ "FillNull").
  eapply W_more; [ | bar "" " " | eapply W_more; [ | bar "" "" | eapply (W_bare "fillnull"); [ same | apply B_fillnull_bare ] ] ].
  - apply (S_command "makeresults"); [ same | blank | ]. apply (B_makeresults []); [ nothing | ].
    exists 1%Z, false, "local", None. parts; try default; reflexivity.
  - apply (S_command "spath"); [ same | blank | ]. apply (B_spath None "" None "" "a.b{}.c" "PATH=a.b{}.c"); [ nothing | nothing | ].
    right. exists "PATH", "a.b{}.c". parts; [ same | left; split; [ word | reflexivity ] | reflexivity ].
Qed.
(** Options, keywords and several sub-searches *)
Definition C69_options_pipeline : list Command :=
  [CInputLookup (mkInputLookup true false 0%Z 5%Z "users") (Some (meaning (TBin OGt (TField "n") (TInt 2))));
   CLookup "geo" [FLAliasedField "ip" "addr"] (Some ("OUTPUT", [FLField "city"; FLField "zip"]));
   CDedup 2%Z ["u"] false true false [(Some "-", ELeaf (LConstant (KField "n")))] 0%Z false;
   CTop (mkTopRare ["u"] 3%Z (Some ["v"]) "count" "OTHER" "percent" true false false);
   CMultiSearch [[CSearch (meaning (TField "a")); CHead (ELeaf (LConstant (KInt 2))) false false]; [CSearch (meaning (TField "b"))]];
   CRex (mkRex "raw" 1%Z None (Some "sed") "s/x\d/z/")].
Definition C69_options_text : string :=
  "inputlookup append=t max=5 users where n>2 | lookup geo ip AS addr OUTPUT city,zip | dedup 2 keepempty=true u sortby -n
   | top 3 showperc=f u by v | multisearch [search a | head limit=2] [ b ] | rex mode=SED field=raw " ++ in_quotes "s/x\d/z/".
Ltac option k v := exists "", "", v; split; [ word | split; [ | split; [ exact I | split; [ exact I | reflexivity ] ] ] ].
Ltac unset := left; split; [ unfold absent; cbn; intuition discriminate | reflexivity ].
Ltac gap_of := first [ left; blank | right; bar "" "" ].
Ltac a_name := split; [ word | reflexivity ].
Example C69_options_ex : spells_all C69_options_pipeline C69_options_text.
Proof.
  change C69_options_text with (("inputlookup" ++ " " ++ "append=t max=5" ++ " " ++ "users" ++ " " ++ "where" ++ " " ++ "n>2") ++ " | " ++
    ("lookup" ++ " " ++ "geo" ++ " " ++ "ip AS addr" ++ " " ++ "OUTPUT" ++ " " ++ "city,zip") ++ " | " ++
    ("dedup" ++ " " ++ "2" ++ " " ++ "keepempty=true" ++ " " ++ "u" ++ " " ++ "sortby" ++ " " ++ "-n") ++ ("
   " ++ "| ") ++
    ("top" ++ " " ++ "3" ++ " " ++ "showperc=f" ++ " " ++ "u" ++ " " ++ "by" ++ " " ++ "v") ++ " | " ++
    ("multisearch" ++ " " ++ "[" ++ "" ++ (("search" ++ " " ++ "a") ++ " | " ++ ("head" ++ " " ++ "limit=" ++ "" ++ "2")) ++ "" ++ "]" ++ " " ++
                             "[" ++ " " ++ "b" ++ " " ++ "]") ++ " | " ++
    ("rex" ++ " " ++ "mode=SED field=raw" ++ " " ++ in_quotes "s/x\d/z/")).
  eapply S_more; [ | bar " " " " | eapply S_more; [ | bar " " " " | eapply S_more; [ | | eapply S_more; [ | bar " " " " | eapply S_more; [ | bar " " " " | eapply S_one ] ] ] ] ].
  - apply (S_command "inputlookup"); [ same | blank | ].
    apply (B_inputlookup_where [("append", KBool true); ("max", KInt 5)] "append=t max=5" "users" " " "where" " " (TBin OGt (TField "n") (TInt 2)) "n>2").
    + right. change "append=t max=5" with ("append=t" ++ " " ++ "max=5"). eapply L_more; [ | blank | eapply L_one ].
      * option "append" "t". constructor.
      * option "max" "5". apply (V_number 5). number.
    + word.
    + blank.
    + same.
    + blank.
    + cbn [wf]; parts; try word; number.
    + do 3 (apply W_up; [ lia | ]).
      apply (W_tight OGt (TField "n") (TInt 2) "n" (decimal 2) "" ""); [ split; [ exact I | split; [ exact I | split; [ discriminate | auto ] ] ] | do 3 (apply W_up; [ lia | ]) | do 4 (apply W_up; [ lia | ]) ]; [ apply W_field | apply W_int ].
    + right. right. split; [ discriminate | ]. split; [ discriminate | ]. exists " ". split; [ blank | reflexivity ].
    + exists true, false, 0%Z, 5%Z. split; [ | split; [ unset | split; [ unset | split; [ | reflexivity ] ] ] ].
      * right. left. exists [], [("max", KInt 5)]. split; [ reflexivity | cbn; intuition discriminate ].
      * right. exists [("append", KBool true)], []. split; [ reflexivity | cbn; intuition discriminate ].
  - apply (S_command "lookup"); [ same | blank | ].
    apply (B_lookup "geo" " " _ "ip AS addr" _ (" " ++ "OUTPUT" ++ " " ++ "city,zip")); [ word | blank | | ].
    + apply L_one. exists "ip". split; [ word | ]. split; [ | split; [ no_start | ] ].
      * intro X. apply same_word_lower in X. discriminate.
      * right. exists "addr", " ", "AS", " ". parts; try word; try blank; try same; try reflexivity. intro X. apply same_word_lower in X. discriminate.
    + right. exists " ", "OUTPUT", " ", [FLField "city"; FLField "zip"], "city,zip". parts; try blank; try same; try reflexivity.
      change "city,zip" with ("city" ++ "," ++ "zip"). eapply L_more; [ | gap_of | apply L_one ].
      * exists "city". split; [ word | ]. split; [ intro X; apply same_word_lower in X; discriminate | ]. split; [ no_start | left; auto ].
      * exists "zip". split; [ word | ]. split; [ intro X; apply same_word_lower in X; discriminate | ]. split; [ no_start | left; auto ].
  - apply (S_command "dedup"); [ same | blank | ].
    eapply (B_dedup (Some 2%Z) "2" [("keepempty", KField "true")] "keepempty=true" ["u"] "u" _ (" " ++ "sortby" ++ " " ++ "-n")).
    + right. exists 2%Z. split; [ reflexivity | split; [ lia | reflexivity ] ].
    + right. apply L_one. option "keepempty" "true". apply V_word. word.
    + apply L_one. a_name.
    + constructor; [ | constructor ]. intro X. apply same_word_lower in X. discriminate.
    + right. exists " ", "sortby", " ", "-n". parts; try blank; try same; try reflexivity. apply L_one. exists "-", "n". parts; try word; try reflexivity. right. auto.
    + exists ("keepempty=true" ++ " " ++ "u" ++ " " ++ "sortby" ++ " " ++ "-n"). split; right; right; (split; [ discriminate | split; [ discriminate | exists " "; split; [ blank | reflexivity ] ] ]).
    + unset.
    + right. right. exists [], []. split; [ reflexivity | cbn; tauto ].
    + unset.
  - exists ("
   "), " ". split; [ whites | split; [ whites | reflexivity ] ].
  - apply (S_command "top"); [ same | blank | ].
    eapply (B_top (Some 3%Z) "3" [("showperc", KBool false)] "showperc=f" ["u"] "u" (Some ["v"]) (" " ++ "by" ++ " " ++ "v")).
    + right. exists 3%Z. split; [ reflexivity | split; [ lia | reflexivity ] ].
    + right. apply L_one. option "showperc" "f". constructor.
    + apply L_one. a_name.
    + right. eexists. split; [ reflexivity | ]. exists " ", "by", " ", "v". parts; try blank; try same; try reflexivity. apply L_one. a_name.
    + exists ("showperc=f" ++ " " ++ "u" ++ " " ++ "by" ++ " " ++ "v"). split; right; right; (split; [ discriminate | split; [ discriminate | exists " "; split; [ blank | reflexivity ] ] ]).
    + exists "count", "OTHER", "percent", true, false, false. parts; try unset; try reflexivity.
      right. left. exists [], []. split; [ reflexivity | cbn; tauto ].
  - apply (S_command "multisearch"); [ same | blank | ]. apply B_multisearch; [ | cbn; lia ]. apply SS_more; [ exact I | exact I | | whites | apply SS_one; [ whites | whites | ] ].
    + eapply S_more; [ | bar " " " " | eapply S_one ].
      * apply (S_command "search"); [ same | blank | ]. apply B_search; [ word | ]. do 7 (apply W_up; [ lia | ]). apply W_field.
      * apply (S_command "head"); [ same | blank | ]. a_head. right. exists "limit=", "", "2". parts; try same; try exact I; [ split; [ lia | reflexivity ] | reflexivity ].
    + apply S_one, S_search; [ | apply no_command_by; reflexivity ]. apply B_search; [ word | ]. do 7 (apply W_up; [ lia | ]). apply W_field.
  - apply (S_command "rex"); [ same | blank | ].
    apply (B_rex [("mode", KField "SED"); ("field", KField "raw")] "mode=SED field=raw" "s/x\d/z/" (in_quotes "s/x\d/z/")).
    + right. change "mode=SED field=raw" with ("mode=SED" ++ " " ++ "field=raw"). eapply L_more; [ | blank | eapply L_one ].
      * option "mode" "SED". apply V_word. word.
      * option "field" "raw". apply V_word. word.
    + split; [ | split; [ cbn; unfold white; cbn; lia | reflexivity ] ]. do 3 (apply R_char; [ discriminate | discriminate | ]). apply (R_escaped "d").
      do 3 (apply R_char; [ discriminate | discriminate | ]). constructor.
    + right. right. split; [ discriminate | split; [ discriminate | exists " "; split; [ blank | reflexivity ] ] ].
    + exists (Some "sed"), "raw", 1%Z, None. split; [ | split; [ | split; [ unset | split; [ unset | reflexivity ] ] ] ].
      * right. split; [ reflexivity | ]. exists "SED". split; [ same | ]. left. exists [], [("field", KField "raw")]. split; [ reflexivity | cbn; intuition discriminate ].
      * right. left. exists [("mode", KField "SED")], []. split; [ reflexivity | cbn; tauto ].
Qed.
(** Conditions and flags of head, sort with a count and desc, datamodel, format, and a span after BY *)
Definition C69_more_pipeline : list Command :=
  [CDataModel (mkDataModel (Some "web") (Some "hits") (Some "flat") false false false);
   CHead (meaning (TBin OGt (TField "n") (TInt 2))) false true;
   CSort [(Some "-", ELeaf (LConstant (KField "m")))] 5%Z true;
   CStats (mkStatsOpts 1%Z false " " false) [ECall "count" []] (Some [mkMSF "u" None; mkMSF "_time" (Some (mkTimeSpan 2 "hours"))]);
   CFormat (mkFormat "AND" 0%Z "<" "[" "and" "]" "or" ">")].
Definition C69_more_text : string :=
  "| datamodel summariesonly=f web hits flat | head n>2 NULL= True | sort limit=5 -m DESC
   | stats count by u, _time span=2hrs | format mvsep=" ++ in_quotes "AND" ++ " " ++
  in_quotes "<" ++ in_quotes "[" ++ in_quotes "and" ++ " " ++ in_quotes "]" ++ in_quotes "or" ++ in_quotes ">".
Ltac quoted := split; [ now apply plain_string_by | reflexivity ].
Example C69_more_ex : exists s, spells_all C69_more_pipeline s /\ C69_more_text = "| " ++ s.
Proof.
  exists (("datamodel" ++ " " ++ "summariesonly=f" ++ " " ++ "web hits" ++ " " ++ "flat") ++ " | " ++
    ("head" ++ " " ++ "n>2" ++ " " ++ (("" ++ ("NULL=" ++ " " ++ "True" ++ " ")))) ++ "| " ++
    ("sort" ++ " " ++ (("limit=" ++ "" ++ "5") ++ " ") ++ "-m" ++ (" " ++ "DESC")) ++ ("
   " ++ "| ") ++
    ("stats" ++ " " ++ ("count" ++ " " ++ "by" ++ " " ++ "u, _time span=2hrs")) ++ " | " ++
    ("format" ++ " " ++ ("mvsep=" ++ in_quotes "AND") ++ " " ++
      (in_quotes "<" ++ "" ++ in_quotes "[" ++ "" ++ in_quotes "and" ++ " " ++ in_quotes "]" ++ "" ++ in_quotes "or" ++ "" ++ in_quotes ">"))).
  split; [ | reflexivity ].
  eapply S_more; [ | bar " " " " | eapply S_more; [ | bar "" " " | eapply S_more; [ | | eapply S_more; [ | bar " " " " | eapply S_one ] ] ] ].
  - apply (S_command "datamodel"); [ same | blank | ].
    eapply (B_datamodel [("summariesonly", KBool false)] "summariesonly=f" ["web"; "hits"] "web hits" (Some "flat") "flat").
    + right. apply L_one. option "summariesonly" "f". constructor.
    + right. change "web hits" with ("web" ++ " " ++ "hits"). eapply L_more; [ a_name | blank | apply L_one; a_name ].
    + cbn. lia.
    + repeat constructor; cbn; intuition discriminate.
    + right. split; [ cbn; tauto | reflexivity ].
    + right. right. split; [ discriminate | split; [ discriminate | exists " "; split; [ blank | reflexivity ] ] ].
    + right. right. split; [ discriminate | split; [ discriminate | exists " "; split; [ blank | reflexivity ] ] ].
    + exists false, false, false. parts; try unset; [ | reflexivity ].
      right. left. exists [], []. split; [ reflexivity | cbn; tauto ].
  - apply (S_command "head"); [ same | blank | ]. eapply (B_head _ "n>2" false "" true).
    + right. exists (TBin OGt (TField "n") (TInt 2)). cbn [wf]; parts; try word; try number; try reflexivity.
      * do 3 (apply W_up; [ lia | ]).
        apply (W_tight OGt (TField "n") (TInt 2) "n" (decimal 2) "" ""); [ split; [ exact I | split; [ exact I | split; [ discriminate | auto ] ] ] | do 3 (apply W_up; [ lia | ]) | do 4 (apply W_up; [ lia | ]) ]; [ apply W_field | apply W_int ].
      * left. unfold letter. cbn. lia.
      * no_start.
    + left. split; reflexivity.
    + right. exists "NULL=", " ", "True", " ". parts; try same; try whites; try blank; try reflexivity. right. same.
    + right. right. split; [ discriminate | split; [ discriminate | exists " "; split; [ blank | reflexivity ] ] ].
  - apply (S_command "sort"); [ same | blank | ]. apply B_sort.
    + right. exists ("limit=" ++ "" ++ "5"), " ". split; [ | split; [ blank | reflexivity ] ]. right. exists "limit=", "", "5". parts; try same; try exact I; [ split; [ lia | reflexivity ] | reflexivity ].
    + apply L_one. exists "-", (TField "m"). cbn [wf]; parts; try word; try exact I; try reflexivity. right. cbn. tauto.
    + right. exists " ", "DESC". parts; try blank; try same; reflexivity.
  - exists ("
   "), " ". split; [ whites | split; [ whites | reflexivity ] ].
  - apply (S_command "stats"); [ same | blank | ]. eapply (B_stats [] "" _ "count" (Some [mkMSF "u" None; mkMSF "_time" (Some (mkTimeSpan 2 "hours"))])); [ nothing | | right; eexists; split; [ reflexivity | exists " ", "by", " ", "u, _time span=2hrs"; parts; try blank; try same; try reflexivity ] | left; split; reflexivity | exists 1%Z, false, " "; parts; try default; try lia; reflexivity ].
    + apply L_one. exists "count", [], "count". split; [ word | ]. split; left; auto.
    + change "u, _time span=2hrs" with ("u" ++ ", " ++ "_time" ++ " " ++ "span=" ++ "" ++ decimal 2 ++ "hrs"). eapply L_more; [ | right; bar "" " " | apply L_one ].
      * exists "u". split; [ word | left; split; reflexivity ].
      * exists "_time". split; [ word | right ]. exists " ", "span=", "", 2%Z, "hrs", "hours". parts; try blank; try same; try exact I; try lia; try reflexivity. cbn. tauto.
  - apply (S_command "format"); [ same | blank | ].
    eapply (B_format [("mvsep", KStr "AND")] _ ["<"; "["; "and"; "]"; "or"; ">"]
      (in_quotes "<" ++ "" ++ in_quotes "[" ++ "" ++ in_quotes "and" ++ " " ++ in_quotes "]" ++ "" ++ in_quotes "or" ++ "" ++ in_quotes ">")).
    + right. apply L_one. option "mvsep" (in_quotes "AND"). apply V_text. now apply plain_string_by.
    + right. split; [ reflexivity | ]. do 2 (apply L_more; [ quoted | exact I | ]). apply L_more; [ quoted | whites | ]. do 2 (apply L_more; [ quoted | exact I | ]). apply L_one. quoted.
    + right. right. split; [ discriminate | split; [ discriminate | exists " "; split; [ blank | reflexivity ] ] ].
    + exists "AND", 0%Z, "<", "[", "and", "]", "or", ">". split; [ | split; [ unset | split; reflexivity ] ].
      right. right. exists [], []. split; [ reflexivity | cbn; tauto ].
Qed.
(** A quoted search with an option after it, and tstats with all of its parts *)
Definition C69_quoted_pipeline : list Command :=
  [CMap [CTStats (mkTStatsOpts true false false false false false 10000000%Z None)
           [ECall "count" []; EAlias (ECall "sum" [ELeaf (LConstant (KField "Hits.bytes-out"))]) "total"]
           (Some "Web.Hits") (Some "Web.Hits.Bad") (Some (cond_meaning [[TmCmp "u" CEq (VStr "a b")]]))
           (Some [mkMSF "Hits.src{}" None; mkMSF "_time" (Some (mkTimeSpan 1 "hours"))]) None;
         CTail 3%Z] 20%Z].
Definition C69_quoted_search : string :=
  "tstats prestats=t count sum(Hits.bytes-out) AS total from datamodel=Web.Hits where nodename=Web.Hits.Bad WHERE u=" ++ in_quotes "a b" ++ " by Hits.src{}, _time span=1h | tail 3".
Example C69_quoted_ex : spells_all C69_quoted_pipeline ("map search=" ++ in_quotes (escape C69_quoted_search) ++ " maxsearches=20").
Proof.
  apply S_one.
  replace ("map search=" ++ in_quotes (escape C69_quoted_search) ++ " maxsearches=20")
    with ("map" ++ " " ++ "search" ++ "" ++ "=" ++ "" ++ in_quotes (escape ("" ++ C69_quoted_search ++ "")) ++ " " ++ "maxsearches=20") by (vm_compute; reflexivity).
  apply (S_command "map"); [ same | blank | ].
  apply (B_map "search" "" "" "" _ C69_quoted_search "" " " [("maxsearches", KInt 20)]); [ same | exact I | exact I | left; exact I | | exact I | | whites | discriminate | ].
  - replace C69_quoted_search with (("tstats" ++ " " ++ "prestats=t" ++ " " ++ ("count" ++ " " ++ "sum(Hits.bytes-out) AS total") ++
      (" " ++ "from" ++ " " ++ "datamodel=" ++ "" ++ "Web.Hits" ++ " " ++ "where" ++ " " ++ "nodename=" ++ "Web.Hits.Bad") ++
      (" " ++ "WHERE" ++ " " ++ ("u" ++ "" ++ "=" ++ "" ++ in_quotes "a b")) ++ " " ++ "by" ++ " " ++ "Hits.src{}, _time span=1h") ++ " | " ++ "tail" ++ " " ++ decimal 3) by (vm_compute; reflexivity).
    eapply S_more; [ | bar " " " " | apply S_one; apply (S_command "tail"); [ same | blank | apply B_tail; lia ] ].
    apply (S_command "tstats"); [ same | blank | ].
    eapply (B_tstats [("prestats", KBool true)] "prestats=t" _ ("count" ++ " " ++ "sum(Hits.bytes-out) AS total")).
    + right. apply L_one. option "prestats" "t". constructor.
    + apply TL_more; [ | blank | apply TL_one | ].
      * exists "count", [], "count", None, "". parts; try same; try reflexivity; [ right; parts; try same; reflexivity | left; split; reflexivity ].
      * exists "sum", [ELeaf (LConstant (KField "Hits.bytes-out"))], "sum(Hits.bytes-out)", (Some "total"), " AS total". parts; try reflexivity.
        -- left. split; [ word | exists "Hits.bytes-out"; parts; try word; reflexivity ].
        -- right. exists "total", " ", "AS", " ". parts; try word; try blank; try same; reflexivity.
      * intros _. exists "sum", "Hits.bytes-out) AS total". split; [ word | reflexivity ].
    + right. exists " ", "from", " ", "datamodel=", "", "Web.Hits", (" " ++ "where" ++ " " ++ "nodename=" ++ "Web.Hits.Bad").
      parts; try blank; try same; try exact I; try reflexivity.
      * split; [ word | reflexivity ].
      * right. exists " ", "where", " ", "nodename=", "Web.Hits.Bad". parts; try blank; try same; try reflexivity. split; [ word | reflexivity ].
    + right. exists " ", "WHERE", " ", [[TmCmp "u" CEq (VStr "a b")]], ("u" ++ "" ++ "=" ++ "" ++ in_quotes "a b").
      parts; try blank; try same; try reflexivity.
      * cbn. parts; auto; try discriminate; [ word | now apply no_not_by | now apply plain_string_by ].
      * apply C_one, G_one. apply (T_cmp "u" CEq (VStr "a b") "" ""); [ exact I | exact I | right ]. intros (k & Hk & Hs). apply same_word_lower in Hs. cbn in Hk. repeat (destruct Hk as [<-|Hk]; [ discriminate | ]). destruct Hk.
      * no_start.
    + right. eexists. split; [ reflexivity | exists " ", "by", " ", "Hits.src{}, _time span=1h" ]. parts; try blank; try same; try reflexivity.
      change "Hits.src{}, _time span=1h" with ("Hits.src{}" ++ ", " ++ "_time" ++ " " ++ "span=" ++ "" ++ decimal 1 ++ "h"). eapply L_more; [ | right; bar "" " " | apply L_one ].
      * exists "Hits.src{}". split; [ word | left; split; reflexivity ].
      * exists "_time". split; [ word | right ]. exists " ", "span=", "", 1%Z, "h", "hours". parts; try blank; try same; try exact I; try lia; try reflexivity. cbn. tauto.
    + right. right. split; [ discriminate | split; [ discriminate | exists " "; split; [ blank | reflexivity ] ] ].
    + exists true, false, false, false, false, false, 10000000%Z, None. parts; try unset; [ | reflexivity ].
      right. left. exists [], []. split; [ reflexivity | cbn; tauto ].
  - right. apply L_one. option "maxsearches" "20". apply (V_number 20). number.
  - right. exists [], []. split; [ reflexivity | cbn; tauto ].
Qed.
Example C69_runs :
  text_gives (env0 Disallow) small_spark
    (fun n => if String.eqb n "web" then Some [[("u", SInt 2); ("v", SInt 0); ("n", SInt 5)]; [("u", SInt 2); ("v", SInt 0); ("n", SInt 3)]]
              else if String.eqb n "main" then Some [[("u", SInt 2); ("v", SInt 0); ("k", SStr "b")]] else None)
    C69_text (OFrame None [[("u", SInt 2); ("total", SInt 6); ("count", SInt 1)]]).
Proof.
  eapply C69_written_pipelines_compute_their_commands_partial; [ reflexivity | intros i l; apply Permutation.Permutation_refl | exact (W_all _ C69_text "" C69_ex I) | ].
  right. split; vm_compute; reflexivity.
Qed.
