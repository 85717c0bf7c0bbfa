(** What the code does instead, for every use of the command: C34, C38, C41-C44 and C50 are
    false not in special cases only.  See SpecResult.v for [covered], [gives] and [computes]. *)
From Coq Require Import Ascii String List ZArith.
Import ListNotations.
From Verif Require Import Str SplAst PyAst Functions Transpile Commands CmdParser Api SpecExpr SpecPy SpecCol SpecSpark SpecRows SpecCommands
  SpecText SpecResult SpecWhere SpecEval NameFacts ExprFacts EvalFacts DefectFacts DefectMore.
Open Scope string_scope.
Open Scope list_scope.

(** C34, C50: every negative count of head and sort becomes a number near 2^64. *)
Theorem C34_negative_counts_refuted : forall env n keeplast null, env_rt env <> Require -> (- 2 ^ 63 <= n < 0)%Z ->
  render_pyspark env [CHead (ELeaf (LConstant (KInt n))) keeplast null] = Ok ("spark.table('main').limit(" ++ dec (2 ^ 64 + n) ++ ",)")%string.
Proof. exact head_negative. Qed.
Print Assumptions C34_negative_counts_refuted.
Theorem C50_negative_counts_of_sort_refuted : forall env n sign x desc, env_rt env <> Require -> (- 2 ^ 63 <= n < 0)%Z ->
  sign = None \/ sign = Some "+" \/ sign = Some "-" ->
  exists order, render_pyspark env [CSort [(sign, ELeaf (LConstant (KField x)))] n desc]
    = Ok ("spark.table('main').orderBy(F.col('" ++ x ++ "')." ++ order ++ "(),).limit(" ++ dec (2 ^ 64 + n) ++ ",)")%string.
Proof. exact sort_negative. Qed.
Print Assumptions C50_negative_counts_of_sort_refuted.
Example C34_negative_ex : parsed "head -7" = [CHead (ELeaf (LConstant (KInt (-7)))) false false] /\
  parsed "sort -7 x" = [CSort [(None, ELeaf (LConstant (KField "x")))] (-7) false].
Proof. split; vm_compute; reflexivity. Qed.

(** C38: fields - is translated like fields, anywhere in a pipeline, whatever the mode. *)
Theorem C38_minus_is_ignored_refuted : forall env l p q, render_pyspark env (p ++ CFields true l :: q) = render_pyspark env (p ++ CFields false l :: q).
Proof. exact fields_minus_alike. Qed.
Print Assumptions C38_minus_is_ignored_refuted.
Example C38_minus_ex : parsed "where x=1 | fields - x, y | head 5" =
  parsed "where x=1" ++ CFields true ["x"; "y"] :: parsed "head 5".
Proof. vm_compute. reflexivity. Qed.

(** C41: after any covered pipeline that yields a row, the program of top and rare cannot be
    run, whatever the runtime commands do. *)
Theorem C41_top_and_rare_fail_refuted : forall env sp db, env_rt env = Disallow -> walks_sets env ->
  forall p rows c command, covered sp db p rows -> rows <> [] -> command = CTop c \/ command = CRare c -> tr_use_other c = false ->
  Forall (fun f => plain_between dquote f = true) (match tr_by c with Some l => l | None => tr_fields c end) ->
  plain_name_text (tr_count_field c) = true -> plain_name_text (tr_percent_field c) = true ->
  exists code, render_pyspark env (p ++ [command]) = Ok code /\ forall cmds x, ~ computes sp db cmds code x.
Proof. exact ranked_fails. Qed.
Print Assumptions C41_top_and_rare_fail_refuted.
Example C41_top_ex : exists c, parsed "top 5 x, y by z" = [CTop c] /\ tr_use_other c = false /\ tr_by c = Some ["z"] /\
  plain_name_text (tr_count_field c) = true /\ plain_name_text (tr_percent_field c) = true.
Proof. eexists. split; [ vm_compute; reflexivity | ]. repeat split; vm_compute; reflexivity. Qed.

(** C42: without the runtime the fields of fillnull are ignored, anywhere in a pipeline. *)
Theorem C42_fields_are_ignored_refuted : forall env value fields p q, env_rt env = Disallow ->
  render_pyspark env (p ++ CFillNull value fields :: q) = render_pyspark env (p ++ CFillNull value None :: q).
Proof. exact fillnull_alike. Qed.
Print Assumptions C42_fields_are_ignored_refuted.
Example C42_fields_ex : parsed "where x=1 | fillnull value=none x y | head 5" =
  parsed "where x=1" ++ CFillNull "none" (Some ["x"; "y"]) :: parsed "head 5".
Proof. vm_compute. reflexivity. Qed.

(** C43: whatever table is looked up, by whatever fields and for whatever columns, the rows
    stay as they were; only the frame has a name now. *)
Theorem C43_lookup_adds_nothing_refuted : forall env sp db, env_rt env = Disallow -> walks_sets env ->
  forall p rows table fields output, covered sp db p rows ->
  Forall (fun f => exists n, f = FLField n \/ exists a, f = FLAliasedField n a) fields ->
  match output with
  | None => True
  | Some (keyword, columns) => upper keyword = "OUTPUT" /\ Forall (fun f => exists n, f = FLField n \/ exists a, f = FLAliasedField n a) columns
  end -> gives env sp db (p ++ [CLookup table fields output]) (OFrame (Some "main") rows).
Proof. exact lookup_gives. Qed.
Print Assumptions C43_lookup_adds_nothing_refuted.
Example C43_lookup_ex : parsed "lookup users id as uid output name, mail as address" =
  [CLookup "users" [FLAliasedField "id" "uid"] (Some ("output", [FLField "name"; FLAliasedField "mail" "address"]))].
Proof. vm_compute. reflexivity. Qed.

(** C44: whatever field bin is asked to discretise, the program discretises the column n. *)
Theorem C44_bin_reads_n_refuted : forall env field x o value unit, env_rt env <> Require ->
  field = FAField x \/ (exists e, field = FAAlias e x) -> bin_span o = Some (mkTimeSpan value unit) ->
  render_pyspark env [CBin field o] = Ok ("spark.table('main').withColumn('" ++ x ++ "', F.window(F.col('n'), " ++ dq ++ dec value ++ " " ++ unit ++ dq
    ++ "),).withColumn('" ++ x ++ "', F.col('" ++ x ++ ".start'),)")%string.
Proof. exact bin_code. Qed.
Print Assumptions C44_bin_reads_n_refuted.
Example C44_bin_ex : exists o, parsed "bin span=5m bytes" = [CBin (FAField "bytes") o] /\ bin_span o = Some (mkTimeSpan 5 "minutes").
Proof. eexists. split; vm_compute; reflexivity. Qed.

(** C25: boolean constants are always written in lower case, which are undefined names in Python. *)
Theorem C25_booleans_in_lower_case_refuted : forall env x b, env_rt env = Disallow ->
  render_pyspark env [CEval [(x, ELeaf (LConstant (KBool b)))]]
  = Ok ("spark.table('main').withColumn('" ++ x ++ "', F.lit(" ++ (if b then "true" else "false") ++ "),)")%string.
Proof. exact bool_code. Qed.
Print Assumptions C25_booleans_in_lower_case_refuted.
Theorem C25_booleans_in_where_refuted : forall env x o b, env_rt env <> Require ->
  render_pyspark env [CWhere (EBinary (ELeaf (LConstant (KField x))) (cmp_text o) (ELeaf (LConstant (KBool b))))]
  = Ok ("spark.table('main').where((F.col('" ++ x ++ "') " ++ written_op o ++ " F.lit(" ++ (if b then "true" else "false") ++ ")),)")%string.
Proof. exact bool_where. Qed.
Print Assumptions C25_booleans_in_where_refuted.
Example C25_booleans_ex : parsed "eval x=t" = [CEval [("x", ELeaf (LConstant (KBool true)))]] /\
  parsed "where x!=F" = [CWhere (EBinary (ELeaf (LConstant (KField "x"))) (cmp_text CNe) (ELeaf (LConstant (KBool false))))].
Proof. split; vm_compute; reflexivity. Qed.

(** C51: whatever is written between two empty strings is taken for a part of one string. *)
Theorem C51_between_empty_strings_refuted : forall f m, field_name f -> ~ starts_with_not f -> ~ is_time_modifier f ->
  well_quoted false m -> all_chars (fun c => c <> "*"%char) m ->
  parse ("where " ++ f ++ "=" ++ in_quotes "" ++ m ++ in_quotes "")%string
  = Some (Ok [CWhere (EBinary (ELeaf (LConstant (KField f))) "=" (ELeaf (LConstant (KStr (in_quotes m)))))]).
Proof. exact between_empty. Qed.
Print Assumptions C51_between_empty_strings_refuted.
Example C51_between_ex : field_name "x" /\ ~ starts_with_not "x" /\ ~ is_time_modifier "x" /\
  well_quoted false " OR y=5 AND z=" /\ all_chars (fun c => c <> "*"%char) " OR y=5 AND z=".
Proof.
  split; [ now apply field_by | ]. split; [ now apply no_not_by | ]. split; [ now apply no_modifier_by | ].
  split; cbn; repeat split; discriminate.
Qed.

(** C54: every name that starts with NOT is split in a comparison. *)
Theorem C54_not_splits_names_refuted : forall w f o v, same_word w "NOT" -> field_name f -> ~ starts_with_not f -> ~ is_time_modifier f -> value_wf v ->
  parse ("where " ++ w ++ f ++ cmp_text o ++ value_text v)%string
  = Some (Ok [CWhere (EUnary "NOT" (EBinary (ELeaf (LConstant (KField f))) (cmp_text o) (value_meaning v)))]).
Proof. exact not_glued. Qed.
Print Assumptions C54_not_splits_names_refuted.
Example C54_not_ex : ("not" ++ "able" ++ cmp_text CGe ++ value_text (VInt 3) = "notable>=3")%string /\ same_word "not" "NOT" /\ field_name "able" /\
  ~ starts_with_not "able" /\ ~ is_time_modifier "able" /\ value_wf (VInt 3).
Proof.
  split; [ reflexivity | ]. split; [ now apply NameFacts.same_word_lower | ]. split; [ now apply field_by | ]. split; [ now apply no_not_by | ].
  split; [ now apply no_modifier_by | cbv; split; discriminate ].
Qed.

(** C63: a name on the right of a comparison is a text, whatever the field of this name contains. *)
Theorem C63_names_on_the_right_are_texts_refuted : forall env sp db x o y rows, env_rt env = Disallow -> walks_sets env -> db "main" = Some rows ->
  field_name x -> ~ starts_with_not x -> ~ is_time_modifier x -> field_name y -> ~ truth_value y ->
  text_gives env sp db ("where " ++ x ++ cmp_text o ++ y)%string
    (OFrame None (filter (fun r => match cell x r with SNull => false | v => sp_cmp sp (written_op o) v (SStr y) end) rows)).
Proof. exact where_word. Qed.
Print Assumptions C63_names_on_the_right_are_texts_refuted.

(** C64: whatever the rows and the keys, the columns of calls without AS are named after the functions alone. *)
Theorem C64_names_of_functions_refuted : forall env sp db, env_rt env = Disallow -> walks_sets env ->
  forall p rows o calls by_ keys out, covered sp db p rows ->
  let funcs := map (fun c => ECall (fst c) (snd c)) calls in plain1 (CStats o funcs by_) = true ->
  by_names by_ = Some keys -> stats_rows sp funcs by_ rows = Some out ->
  gives env sp db (p ++ [CStats o funcs by_]) (OFrame None out) /\ Forall (fun r => map fst r = keys ++ map fst calls) out.
Proof. exact stats_columns. Qed.
Print Assumptions C64_names_of_functions_refuted.
Example C64_names_ex : exists o calls by_, parsed "stats avg(a), avg(b), count by u" = [CStats o (map (fun c => ECall (fst c) (snd c)) calls) by_] /\
  map fst calls = ["avg"; "avg"; "count"] /\ by_names by_ = Some ["u"] /\
  plain1 (CStats o (map (fun c => ECall (fst c) (snd c)) calls) by_) = true.
Proof.
  eexists. exists [("avg", [ELeaf (LConstant (KField "a"))]); ("avg", [ELeaf (LConstant (KField "b"))]); ("count", [])], (Some [mkMSF "u" None]).
  split; [ vm_compute; reflexivity | ]. repeat split.
Qed.

(** C63: where reads no comparison of a call and no sum on the right of a comparison, although eval reads both. *)
Theorem C63_calls_on_the_left_refuted : forall n args ss o b1 b2 t st, wf (TCall n args) -> ~ starts_with_not n -> writes_args args ss ->
  binds o = 6 -> spaces b1 -> spaces b2 -> wf t -> writes 6 t st ->
  let e := ((n ++ "(" ++ commas ss ++ ")") ++ b1 ++ op_text o ++ b2 ++ st)%string in
  parse ("eval x=" ++ e)%string = Some (Ok [CEval [("x", EBinary (meaning (TCall n args)) (op_text o) (meaning t))]]) /\
  parse ("where " ++ e)%string = Some Err.
Proof. exact call_compared. Qed.
Print Assumptions C63_calls_on_the_left_refuted.
Theorem C63_sums_on_the_right_refuted : forall f o y b1 b2 b3 b4 t st, field_name f -> ~ starts_with_not f -> field_name y -> ~ truth_value y ->
  blanks b1 -> spaces b2 -> blanks b3 -> spaces b4 -> wf t -> writes 4 t st ->
  let e := (f ++ b1 ++ cmp_text o ++ b2 ++ y ++ b3 ++ "+" ++ b4 ++ st)%string in
  parse ("eval x=" ++ e)%string = Some (Ok [CEval [("x", EBinary (ELeaf (LConstant (KField f))) (cmp_text o) (EBinary (ELeaf (LConstant (KField y))) "+" (meaning t)))]]) /\
  parse ("where " ++ e)%string = Some Err.
Proof. exact sum_compared. Qed.
Print Assumptions C63_sums_on_the_right_refuted.
Example C63_ex : wf (TCall "len" [TField "x"]) /\ ~ starts_with_not "len" /\ writes_args [TField "x"] ["x"] /\ wf (TInt 3) /\ writes 4 (TInt 3) "3" /\
  ("len" ++ "(" ++ commas ["x"] ++ ")" = "len(x)")%string /\ field_name "x" /\ ~ starts_with_not "x" /\ ~ truth_value "x".
Proof.
  split; [ split; [ now apply ident_by | split; [ intro H; apply NameFacts.same_word_lower in H; discriminate | split; [ now apply field_by | exact I ] ] ] | ].
  split; [ now apply no_not_by | ]. split; [ constructor; [ apply (writes_le 2); repeat constructor | constructor ] | ].
  split; [ cbv; split; discriminate | ]. split; [ apply (writes_le 2); [ repeat constructor .. | exact (W_int 3) ] | ].
  split; [ reflexivity | ]. split; [ now apply field_by | ]. split; [ now apply no_not_by | ].
  intros (k & Hk & Hs). apply NameFacts.same_word_lower in Hs. repeat (destruct Hk as [<-|Hk]; [ discriminate | ]). destruct Hk.
Qed.

(** C09: in eval, OR binds tighter than AND, whatever is joined. *)
Theorem C09_eval_or_first_refuted : forall a b c sa sb sc b1 b2 b3 b4, wf a -> wf b -> wf c -> writes 7 a sa -> writes 7 b sb -> writes 7 c sc ->
  blanks b1 -> blanks b2 -> blanks b3 -> blanks b4 ->
  parse ("eval x=" ++ sa ++ b1 ++ "OR" ++ b2 ++ sb ++ b3 ++ "AND" ++ b4 ++ sc)%string
  = Some (Ok [CEval [("x", EBinary (EBinary (meaning a) "OR" (meaning b)) "AND" (meaning c))]]).
Proof. exact or_and_eval. Qed.
Print Assumptions C09_eval_or_first_refuted.
Example C09_eval_ex : wf (TBin OGt (TField "u") (TInt 3)) /\ writes 7 (TBin OGt (TField "u") (TInt 3)) "u > 3" /\ blanks "  ".
Proof.
  split; [ split; [ now apply field_by | cbv; split; discriminate ] | ]. split.
  - apply (writes_le 6); [ repeat constructor | repeat constructor | ].
    apply (W_bin OGt (TField "u") (TInt 3) "u" "3" " " " " blank1 blank1); [ apply (writes_le 2); [ repeat constructor | repeat constructor | constructor ] | ].
    apply (writes_le 2); [ repeat constructor | repeat constructor | exact (W_int 3) ].
  - split; [ discriminate | ]. cbn. unfold white. cbn. tauto.
Qed.

(** C27: search NOT x=z drops every row without x, although x=z does not hold of it; and a word
    after a comparison is another column. *)
Theorem C27_search_not_refuted : forall env sp db x o z rows, env_rt env = Disallow -> walks_sets env -> db "main" = Some rows ->
  field_name x -> int64_nonmin z ->
  text_gives env sp db ("search NOT " ++ x ++ cmp_text o ++ decimal z)%string
    (OFrame None (filter (fun r => match cell x r with SNull => false | v => negb (sp_cmp sp (written_op o) v (SInt z)) end) rows)).
Proof. exact search_not. Qed.
Print Assumptions C27_search_not_refuted.
Theorem C27_search_words_are_columns_refuted : forall env sp db x o y rows, env_rt env = Disallow -> walks_sets env -> db "main" = Some rows ->
  field_name x -> x <> "index" -> field_name y -> y <> "index" ->
  text_gives env sp db ("search " ++ x ++ cmp_text o ++ y)%string
    (OFrame None (filter (fun r => match cell x r, cell y r with SNull, _ | _, SNull => false | v, w => sp_cmp sp (written_op o) v w end) rows)).
Proof. exact search_word. Qed.
Print Assumptions C27_search_words_are_columns_refuted.

(** C28: index=a AND index=b returns all rows of both tables, whichever they are. *)
Theorem C28_both_tables_refuted : forall env sp db a b ra rb, env_rt env = Disallow -> walks_sets env -> field_name a -> field_name b ->
  a <> "index" -> b <> "index" -> a <> b -> db a = Some ra -> db b = Some rb ->
  text_gives env sp db ("search index=" ++ a ++ " AND index=" ++ b)%string (OFrame None (ra ++ rb)) \/
  text_gives env sp db ("search index=" ++ a ++ " AND index=" ++ b)%string (OFrame None (rb ++ ra)).
Proof. exact two_indexes. Qed.
Print Assumptions C28_both_tables_refuted.

(** C30: and the text depends on the order of the hash set, for any two names. *)
Theorem C30_order_of_indexes_refuted : forall gr a b, field_name a -> field_name b -> a <> "index" -> b <> "index" -> a <> b ->
  transpile (mkEnv Disallow (fun _ l => l) gr) ("search index=" ++ a ++ " AND index=" ++ b)%string
  <> transpile (mkEnv Disallow (fun _ l => rev l) gr) ("search index=" ++ a ++ " AND index=" ++ b)%string.
Proof. exact two_orders. Qed.
Print Assumptions C30_order_of_indexes_refuted.
Example C28_names_ex : field_name "web" /\ field_name "win.events" /\ "web" <> "index" /\ "win.events" <> "index" /\ "web" <> "win.events".
Proof.
  split; [ now apply field_by | ]. split; [ now apply field_by | ]. repeat split; discriminate.
Qed.

(** C31: the empty list: where lets every row pass, search looks for the word True in the raw text. *)
Theorem C31_where_in_nothing_refuted : forall env f, env_rt env <> Require ->
  render_pyspark env [CWhere (EFieldIn f [])] = Ok "spark.table('main').where(F.lit(True),)".
Proof. exact in_nothing_where. Qed.
Print Assumptions C31_where_in_nothing_refuted.
Theorem C31_search_in_nothing_refuted : forall env f, env_rt env = Disallow ->
  render_pyspark env [CSearch (EFieldIn f [])] = Ok ("spark.table('main').where(F.col('_raw').ilike(" ++ in_quotes "%True%" ++ "),)")%string.
Proof. exact in_nothing_search. Qed.
Print Assumptions C31_search_in_nothing_refuted.
Example C31_nothing_ex : parsed "where user IN ()" = [CWhere (EFieldIn "user" [])] /\ parsed "search user IN ( )" = [CSearch (EFieldIn "user" [])].
Proof. split; vm_compute; reflexivity. Qed.

(** C23: tostring of a negation and the negation of tostring become the same code, whatever is
    negated, so Python cannot read both as they were built. *)
Theorem C23_negation_and_cast_refuted : forall env n e, env_rt env = Disallow ->
  render_pyspark env [CEval [(n, ECall "tostring" [EUnary "NOT" e])]] = render_pyspark env [CEval [(n, EUnary "NOT" (ECall "tostring" [e]))]].
Proof. exact negated_cast. Qed.
Print Assumptions C23_negation_and_cast_refuted.
Example C23_negation_ex : exists e code, parsed "eval y=tostring(NOT (a = 1))" = [CEval [("y", ECall "tostring" [EUnary "NOT" e])]] /\
  parsed "eval y=NOT tostring((a = 1))" = [CEval [("y", EUnary "NOT" (ECall "tostring" [e]))]] /\
  render_pyspark (env0 Disallow) [CEval [("y", ECall "tostring" [EUnary "NOT" e])]] = Ok code.
Proof. do 2 eexists. split; [ vm_compute; reflexivity | ]. split; vm_compute; reflexivity. Qed.

(** C32: every pattern with a percent sign or an underscore matches something it should not. *)
Theorem C32_every_sign_refuted : forall p, sforall (fun c => negb (Ascii.eqb c "\")) p = true -> has_char "%" p || has_char "_" p = true ->
  exists s, like (wildcard_to_like p) s = true /\ ~ Matches p s.
Proof. exact signs_match. Qed.
Print Assumptions C32_every_sign_refuted.
Example C32_sign_ex : sforall (fun c => negb (Ascii.eqb c "\")) "cpu_*" = true /\ has_char "_" "cpu_*" = true.
Proof. split; reflexivity. Qed.

(** C46: with the runtime any number of arguments of case is accepted, after any pipeline. *)
Theorem C46_any_number_refuted : forall env p s n args l, env_rt env = Allow -> transform_pipeline env p = Ok s ->
  map_args (map (fun a => (a, to_spark_expr Allow a)) args) = Ok l ->
  exists code, render_pyspark env (p ++ [CEval [(n, ECall "case" args)]]) = Ok code.
Proof. exact runtime_case. Qed.
Print Assumptions C46_any_number_refuted.
Example C46_number_ex : exists args l, parsed "eval x=case(a > 1, b, c)" = [CEval [("x", ECall "case" args)]] /\ length args = 3 /\
  map_args (map (fun a => (a, to_spark_expr Allow a)) args) = Ok l.
Proof. do 2 eexists. split; [ vm_compute; reflexivity | ]. split; reflexivity. Qed.

(** C56: every server group is a Python expression in the program, not a text. *)
Theorem C56_group_is_code_refuted : forall env m g, env_rt env <> Require -> mr_annotate m = true -> mr_server_group m = Some g ->
  exists before, render_pyspark env [CMakeResults m] = Ok (before ++ ".withColumn('splunk_server_group', F.lit(" ++ g ++ "),)")%string.
Proof. exact group_code. Qed.
Print Assumptions C56_group_is_code_refuted.
Example C56_group_ex : exists m, parsed "makeresults annotate=true splunk_server_group=g1" = [CMakeResults m] /\ mr_annotate m = true /\ mr_server_group m = Some "g1".
Proof. eexists. split; [ vm_compute; reflexivity | ]. split; reflexivity. Qed.

(** C59: a field in the second place of replace means its name, whatever it contains. *)
Theorem C59_names_for_contents_refuted : forall env n a b c p q, env_rt env = Disallow ->
  render_pyspark env (p ++ CEval [(n, ECall "replace" [a; ELeaf (LConstant (KField b)); c])] :: q)
  = render_pyspark env (p ++ CEval [(n, ECall "replace" [a; ELeaf (LConstant (KStr b)); c])] :: q).
Proof. exact (fun env n a b c p q R => eval_alike env n _ _ p q R (replace_names a b c)). Qed.
Print Assumptions C59_names_for_contents_refuted.
Example C59_names_ex : exists a c, parsed "eval y=replace(lower(a), b, ""-"")" = [CEval [("y", ECall "replace" [a; ELeaf (LConstant (KField "b")); c])]] /\
  parsed "eval y=replace(lower(a), ""b"", ""-"")" = [CEval [("y", ECall "replace" [a; ELeaf (LConstant (KStr "b")); c])]].
Proof. do 2 eexists. split; vm_compute; reflexivity. Qed.

(** C60: every function the code does not know is copied into the program as a function of Spark. *)
Theorem C60_unknown_names_are_copied_refuted : forall env y f xs, env_rt env = Disallow -> field_name y -> plain_ident f -> ~ same_word f "TERM" ->
  Forall field_name xs -> ~ In f (documented ++ ["memk"; "rmunit"; "rmcomma"]) ->
  transpile env ("eval " ++ y ++ "=" ++ f ++ "(" ++ commas xs ++ ")")%string
  = Some (Ok ("spark.table('main').withColumn('" ++ y ++ "', F." ++ f ++ "(" ++ join ", " (map (fun x => "F.col('" ++ x ++ "')") xs) ++ "),)"))%string.
Proof. exact unknown_code. Qed.
Print Assumptions C60_unknown_names_are_copied_refuted.
Example C60_unknown_ex : plain_ident "exit" /\ ~ same_word "exit" "TERM" /\ ~ In "exit" (documented ++ ["memk"; "rmunit"; "rmcomma"]).
Proof.
  split; [ now apply ident_by | ]. split; [ intro H; apply NameFacts.same_word_lower in H; discriminate | ].
  vm_compute. intro H. repeat (destruct H as [H|H]; [ discriminate H | ]). exact H.
Qed.

(** C61: arguments after the third of mvindex, and after the specifier of relative_time, are ignored. *)
Theorem C61_more_arguments_of_mvindex_refuted : forall env n x i j rest p q, env_rt env = Disallow ->
  render_pyspark env (p ++ CEval [(n, ECall "mvindex" (x :: i :: j :: rest))] :: q) = render_pyspark env (p ++ CEval [(n, ECall "mvindex" [x; i; j])] :: q).
Proof. exact (fun env n x i j rest p q R => eval_alike env n _ _ p q R (mvindex_rest x i j rest)). Qed.
Print Assumptions C61_more_arguments_of_mvindex_refuted.
Theorem C61_more_arguments_of_relative_time_refuted : forall env n t s rest p q, env_rt env = Disallow ->
  render_pyspark env (p ++ CEval [(n, ECall "relative_time" (t :: ELeaf (LConstant (KSnapTime s)) :: rest))] :: q)
  = render_pyspark env (p ++ CEval [(n, ECall "relative_time" [t; ELeaf (LConstant (KSnapTime s))])] :: q).
Proof. exact (fun env n t s rest p q R => eval_alike env n _ _ p q R (relative_rest t s rest)). Qed.
Print Assumptions C61_more_arguments_of_relative_time_refuted.
Example C61_more_ex : exists x i j rest, parsed "eval y=mvindex(a, 1, 2, 3, b)" = [CEval [("y", ECall "mvindex" (x :: i :: j :: rest))]] /\ length rest = 2.
Proof. do 4 eexists. split; [ vm_compute; reflexivity | reflexivity ]. Qed.
