(** The command grammar: /repo/src/commands/spl.rs, the parse_body functions of
    /repo/src/commands/cmd_*/spl.rs, and command / pipeline of
    /repo/src/spl/parser.rs 1207-1272.  [parse] is /repo/src/lib.rs 18-24. *)
From Verif Require Import Str SplAst Nom Lexer Parser.

(** ** Options, src/spl/ast.rs 337-438.  Collecting into a HashMap keeps the last
    value given for a key. *)
Definition Options := list (string * Constant).
Fixpoint opt_get (o : Options) (key : string) : option Constant :=
  match o with
  | nil => None
  | (k, v) :: o' =>
      match opt_get o' key with
      | Some v' => Some v'
      | None => if String.eqb k key then Some v else None
      end
  end.
Definition get_int_option (o : Options) (key : string) : res (option Z) :=
  match opt_get o key with
  | Some (KInt v) => Ok (Some v)
  | Some _ => Err
  | None => Ok None
  end.
Definition get_int (o : Options) (key : string) (default : Z) : res Z :=
  rmap (fun v => match v with Some z => z | None => default end) (get_int_option o key).
Definition get_string_option (o : Options) (key : string) : res (option string) :=
  match opt_get o key with
  | Some (KField v) => Ok (Some v)
  | Some (KStr v) => Ok (Some v)
  | Some _ => Err
  | None => Ok None
  end.
Definition get_string (o : Options) (key default : string) : res string :=
  rmap (fun v => match v with Some s => s | None => default end) (get_string_option o key).
Definition get_span_option (o : Options) (key : string) : res (option TimeSpan) :=
  match opt_get o key with
  | Some (KTimeSpan v) => Ok (Some v)
  | Some _ => Err
  | None => Ok None
  end.
Definition get_boolean (o : Options) (key : string) (default : bool) : res bool :=
  match opt_get o key with
  | Some (KBool v) => Ok v
  | Some (KField v) =>
      if String.eqb v "true" then Ok true
      else if String.eqb v "t" then Ok true
      else if String.eqb v "false" then Ok false
      else if String.eqb v "f" then Ok false
      else Err
  | Some _ => Err
  | None => Ok default
  end.

(** src/commands/spl.rs 11-15 *)
Definition match_options {A} (try_from : Options -> res A) : Parser A :=
  unwrapped (p_map try_from command_options).

(** src/commands/spl.rs 37-52 *)
Definition match_word (raw : Parser string) : Parser unit :=
  P: _ <- raw; P: _ <- (multispace1 <|> eof); p_ret tt.
Definition match_name (name : string) : Parser unit := match_word (tag_no_case name).
(** src/commands/spl.rs 33-35: parse *)
Definition cmd (name : string) (body : Parser Command) : Parser Command :=
  preceded (match_name name) body.

Definition or_default {A} (d : A) (o : option A) : A := match o with Some a => a | None => d end.

Section Level.
Variable R : Recs.

(** cmd_add_totals/spl.rs 60-90 *)
Definition addtotals_options (o : Options) : res AddTotals :=
  let? row := get_boolean o "row" true in
  let? col := get_boolean o "col" false in
  let? field_name := get_string o "fieldname" "Total" in
  let? label_field := get_string_option o "labelfield" in
  let? label := get_string o "label" "Total" in
  Ok (mkAddTotals [] row col field_name label_field label).
Definition p_addtotals : Parser Command :=
  P: o <- match_options addtotals_options;
  P: fields <- many0 (ws field);
  p_ret (CAddTotals (mkAddTotals fields (at_row o) (at_col o) (at_field_name o)
                                 (at_label_field o) (at_label o))).

(** cmd_bin/spl.rs 56-92 *)
Definition bin_options (o : Options) : res BinOpts :=
  let? span := get_span_option o "span" in
  let? min_span := get_span_option o "minspan" in
  let? bins := get_int_option o "bins" in
  let? start := get_int_option o "start" in
  let? end_ := get_int_option o "end" in
  let? align_time := get_string_option o "aligntime" in
  Ok (mkBinOpts span min_span bins start end_ align_time).
Definition p_bin : Parser Command :=
  P: o <- match_options bin_options;
  P: f <- (p_map (fun fa => FAAlias (efield (fst fa)) (snd fa)) aliased_field <|> p_map FAField field);
  p_ret (CBin f o).

(** cmd_collect/spl.rs 92-151 *)
Definition collect_options (o : Options) : res Collect :=
  let? index := get_string_option o "index" in
  let? index := of_option index in
  let? add_time := get_boolean o "addtime" true in
  let? file := get_string_option o "file" in
  let? host := get_string_option o "host" in
  let? marker := get_string_option o "marker" in
  let? output_format := get_string o "output_format" "raw" in
  let? run_in_preview := get_boolean o "run_in_preview" false in
  let? spool := get_boolean o "spool" true in
  let? source := get_string_option o "source" in
  let? source_type := get_string_option o "sourcetype" in
  let? test_mode := get_boolean o "testmode" false in
  Ok (mkCollect index [] add_time file host marker output_format run_in_preview spool source
                source_type test_mode).
Definition p_collect : Parser Command :=
  P: o <- match_options collect_options;
  P: fields <- field_list0;
  p_ret (CCollect (mkCollect (co_index o) fields (co_add_time o) (co_file o) (co_host o)
                             (co_marker o) (co_output_format o) (co_run_in_preview o) (co_spool o)
                             (co_source o) (co_source_type o) (co_test_mode o))).

(** cmd_convert/spl.rs 56-89 *)
Definition field_conversion : Parser FieldConversion :=
  ws (P: func <- token;
      P: f <- delimited (tag "(") (ws field) (tag ")");
      P: alias <- ws (opt (preceded (ws (tag_no_case "AS")) field));
      p_ret (mkConversion func f alias)).
Definition p_convert : Parser Command :=
  P: timeformat <- match_options (fun o => get_string o "timeformat" "%m/%d/%Y %H:%M:%S");
  P: convs <- many0 field_conversion;
  p_ret (CConvert timeformat convs).

(** cmd_data_model/spl.rs 52-95 *)
Definition datamodel_options (o : Options) : res DataModel :=
  let? strict_fields := get_boolean o "strict_fields" false in
  let? allow_old_summaries := get_boolean o "allow_old_summaries" false in
  let? summaries_only := get_boolean o "summariesonly" true in
  Ok (mkDataModel None None None strict_fields allow_old_summaries summaries_only).
Definition field_not_keyword : Parser string :=
  verify field (fun v => negb (String.eqb v "search" || String.eqb v "flat"
                               || String.eqb v "acceleration_search")).
Definition p_datamodel : Parser Command :=
  P: o <- match_options datamodel_options;
  P: name <- opt (ws field_not_keyword);
  P: dataset <- opt (ws field_not_keyword);
  P: mode <- opt (tag_no_case "search" <|> tag_no_case "flat" <|> tag_no_case "acceleration_search");
  p_ret (CDataModel (mkDataModel name dataset mode (dm_strict_fields o)
                                 (dm_allow_old_summaries o) (dm_summaries_only o))).

(** cmd_dedup/spl.rs 48-132; SortCommand::new_simple is cmd_sort/spl.rs 37-43 *)
Definition dedup_options (o : Options) : res (bool * bool * bool) :=
  let? keep_events := get_boolean o "keepevents" false in
  let? keep_empty := get_boolean o "keepempty" false in
  let? consecutive := get_boolean o "consecutive" false in
  Ok (keep_events, keep_empty, consecutive).
Definition plus_minus : Parser string := tag "+" <|> tag "-".
Definition dedup_field_rep : Parser (list string) :=
  many1 (ws (verify field (fun f => negb (String.eqb (lower f) "sortby")))).
Definition p_dedup : Parser Command :=
  P: limit <- opt p_int;
  P: o <- match_options dedup_options;
  P: fields <- dedup_field_rep;
  P: sort_by <- opt (preceded (ws (tag_no_case "sortby"))
                       (many1 (ws (pair_ (opt plus_minus) (p_map efield field)))));
  p_ret (CDedup (or_default 1%Z limit) fields (fst (fst o)) (snd (fst o)) (snd o)
                (or_default [(Some "+"%string, efield "_no")] sort_by) 0 false).

(** cmd_eval/spl.rs 39-46 *)
Definition p_eval : Parser Command :=
  p_map CEval (comma_separated_list0 (separated_pair (ws field) (ws (tag "=")) (ws (expr R)))).

(** cmd_event_stats/spl.rs 41-68 *)
Definition p_eventstats : Parser Command :=
  P: all_num <- match_options (fun o => get_boolean o "allnum" false);
  P: funcs <- ws (stats_call R);
  P: by_ <- opt (preceded (ws (tag_no_case "by")) field_list0);
  p_ret (CEventStats all_num funcs (or_default [] by_)).

(** cmd_fields/spl.rs 53-61 *)
Definition p_fields : Parser Command :=
  P: sign <- opt (ws plus_minus);
  P: fields <- field_list1;
  p_ret (CFields (is_minus sign) fields).

(** cmd_fill_null/spl.rs 49-62 *)
Definition p_fillnull : Parser Command :=
  P: value <- opt (preceded (tag "value=") (double_quoted <|> token));
  P: fields <- opt (many1 (ws field));
  p_ret (CFillNull (or_default "0"%string value) fields).

(** cmd_format/spl.rs 68-110 *)
Definition format_options (o : Options) : res (string * Z) :=
  let? mv_sep := get_string o "mvsep" "OR" in
  let? max_results := get_int o "maxresults" 0 in
  Ok (mv_sep, max_results).
Definition format_delimiters : Parser (string * string * string * string * string * string) :=
  P: a <- ws double_quoted; P: b <- ws double_quoted; P: c <- ws double_quoted;
  P: d <- ws double_quoted; P: e <- ws double_quoted; P: f <- ws double_quoted;
  p_ret (a, b, c, d, e, f).
Definition p_format : Parser Command :=
  P: o <- match_options format_options;
  P: ds <- opt format_delimiters;
  p_ret (match or_default ("(", "(", "AND", ")", "OR", ")")%string ds with
         | (a, b, c, d, e, f) => CFormat (mkFormat (fst o) (snd o) a b c d e f)
         end).

(** cmd_head/spl.rs 56-74 *)
Definition p_head : Parser Command :=
  P: e <- ws (p_map eint (p_int <|> preceded (ws (tag_no_case "limit=")) p_int) <|> expr R);
  P: keep_last <- ws (opt (preceded (ws (tag_no_case "keeplast=")) p_bool));
  P: null <- ws (opt (preceded (ws (tag_no_case "null=")) p_bool));
  p_ret (CHead e (or_default false keep_last) (or_default false null)).

(** cmd_input_lookup/spl.rs 52-85 *)
Definition inputlookup_options (o : Options) : res InputLookupOpts :=
  let? append := get_boolean o "append" false in
  let? strict := get_boolean o "strict" false in
  let? start := get_int o "start" 0 in
  let? max := get_int o "max" 1000000000 in
  Ok (mkInputLookup append strict start max "").
Definition p_inputlookup : Parser Command :=
  P: o <- match_options inputlookup_options;
  P: table <- ws token;
  P: w <- ws (opt (preceded (ws (tag_no_case "where")) (expr R)));
  p_ret (CInputLookup (mkInputLookup (il_append o) (il_strict o) (il_start o) (il_max o) table) w).

(** cmd_join/spl.rs 63-94 *)
Definition join_options (o : Options) : res JoinOpts :=
  let? type := get_string o "type" "inner" in
  let? use_time := get_boolean o "usetime" false in
  let? earlier := get_boolean o "earlier" true in
  let? overwrite := get_boolean o "overwrite" true in
  let? max := get_int o "max" 1 in
  Ok (mkJoin type use_time earlier overwrite max []).
Definition p_join : Parser Command :=
  P: o <- match_options join_options;
  P: fields <- field_list1;
  P: p <- sub_search R;
  p_ret (CJoin (mkJoin (jo_type o) (jo_use_time o) (jo_earlier o) (jo_overwrite o) (jo_max o) fields)
               p).

(** cmd_lookup/spl.rs 40-102 *)
Definition field_rep : Parser (list FieldLike) :=
  comma_or_space_separated_list1
    (    p_map (fun fa => FLAliasedField (fst fa) (snd fa))
           (verify aliased_field (fun fa => negb (String.eqb (lower (snd fa)) "output")))
     <|> p_map FLField (verify field (fun f => negb (String.eqb (lower f) "output")))).
Definition lookup_output : Parser (string * list FieldLike) :=
  separated_pair (tag_no_case "OUTPUT" <|> tag_no_case "OUTPUTNEW") multispace1 field_rep.
Definition p_lookup : Parser Command :=
  P: dataset <- ws token;
  P: fields <- ws field_rep;
  P: output <- ws (opt lookup_output);
  p_ret (CLookup dataset fields output).

(** cmd_make_results/spl.rs 43-67 *)
Definition makeresults_options (o : Options) : res MakeResults :=
  let? count := get_int o "count" 1 in
  let? annotate := get_boolean o "annotate" false in
  let? server := get_string o "splunk_server" "local" in
  let? server_group := get_string_option o "splunk_server_group" in
  Ok (mkMakeResults count annotate server server_group).
Definition p_makeresults : Parser Command := p_map CMakeResults (match_options makeresults_options).

(** cmd_map/spl.rs 38-60 *)
Definition p_map_cmd : Parser Command :=
  P: p <- quoted_search R;
  P: m <- match_options (fun o => get_int o "maxsearches" 10);
  p_ret (CMap p m).

(** cmd_multi_search/spl.rs 43-47 *)
Definition p_multisearch : Parser Command := p_map CMultiSearch (many2 (ws (sub_search R))).

(** cmd_mv_combine/spl.rs 45-59 *)
Definition p_mvcombine : Parser Command :=
  P: delim <- opt (preceded (pair_ (ws (tag_no_case "delim")) (ws (tag "="))) (ws double_quoted));
  P: f <- field;
  p_ret (CMvCombine delim f).

(** cmd_mv_expand/spl.rs 47-61 *)
Definition p_mvexpand : Parser Command :=
  P: f <- ws field;
  P: limit <- opt (preceded (pair_ (ws (tag_no_case "limit")) (ws (tag "="))) (ws p_int));
  p_ret (CMvExpand f limit).

(** cmd_rare/spl.rs and cmd_top/spl.rs 92-133 *)
Definition toprare_options (o : Options) : res TopRare :=
  let? count_field := get_string o "countfield" "count" in
  let? limit := get_int o "limit" 10 in
  let? other_str := get_string o "otherstr" "OTHER" in
  let? percent_field := get_string o "percentfield" "percent" in
  let? show_count := get_boolean o "showcount" true in
  let? show_percent := get_boolean o "showperc" true in
  let? use_other := get_boolean o "useother" false in
  Ok (mkTopRare [] (as_u64 limit) None count_field other_str percent_field show_count show_percent
                use_other).
Definition toprare (o : TopRare) (n : option Z) (fields : list string) (by_ : option (list string))
  : TopRare :=
  mkTopRare fields (match n with Some i => as_u64 i | None => tr_n o end) by_ (tr_count_field o)
            (tr_other_str o) (tr_percent_field o) (tr_show_count o) (tr_show_percent o)
            (tr_use_other o).
Definition p_rare : Parser Command :=
  P: n <- ws (opt p_int);
  P: o <- ws (match_options toprare_options);
  P: fields <- ws field_list0;
  P: by_ <- ws (opt (preceded (ws (tag_no_case "BY")) field_list0));
  p_ret (CRare (toprare o n fields by_)).
Definition p_top : Parser Command :=
  P: n <- ws (opt p_int);
  P: o <- ws (match_options toprare_options);
  P: fields <- field_list1;
  P: by_ <- ws (opt (preceded (ws (tag_no_case "BY")) field_list1));
  p_ret (CTop (toprare o n fields by_)).

(** cmd_regex/spl.rs 45-59 *)
Definition p_regex : Parser Command :=
  P: item <- opt (pair_ (ws field) (ws (tag "=" <|> tag "!=")));
  P: regex <- double_quoted;
  p_ret (CRegex item regex).

(** cmd_rename/spl.rs 40-46 *)
Definition p_rename : Parser Command :=
  p_map (fun l => CRename (map (fun fa => (efield (fst fa), snd fa)) l))
        (comma_separated_list1 aliased_field).

(** cmd_return/spl.rs 52-73 *)
Definition p_return : Parser Command :=
  P: count <- ws (opt p_int);
  P: fields <- (    many1 (p_map (fun kv => FAAlias (efield (snd kv)) (fst kv)) (ws field_and_value))
                <|> many1 (p_map FAField (ws (preceded (tag "$") field)))
                <|> many1 (p_map FAField (ws field)));
  p_ret (CReturn (or_default 1%Z count) fields).

(** cmd_rex/spl.rs 55-89 *)
Definition rex_options (o : Options) : res Rex :=
  let? mode := get_string_option o "mode" in
  let mode := option_map lower mode in
  let? _u := match mode with
             | Some m => if String.eqb m "sed" then Ok tt else Err
             | None => Ok tt
             end in
  let? f := get_string o "field" "_raw" in
  let? max_match := get_int o "max_match" 1 in
  let? offset_field := get_string_option o "offset_field" in
  Ok (mkRex f max_match offset_field mode "").
Definition p_rex : Parser Command :=
  P: o <- match_options rex_options;
  P: regex <- double_quoted;
  p_ret (CRex (mkRex (rx_field o) (rx_max_match o) (rx_offset_field o) (rx_mode o) regex)).

(** cmd_s_path/spl.rs 65-79 *)
Definition p_spath : Parser Command :=
  P: input <- opt (ws (preceded (tag_no_case "input=") field));
  P: output <- opt (ws (preceded (tag_no_case "output=") field));
  P: path <- ws (preceded (opt (tag_no_case "path=")) p_string);
  p_ret (CSPath (mkSPath path (or_default "_raw"%string input) output)).

(** cmd_search/spl.rs 43-59 *)
Definition p_search : Parser Command :=
  preceded (match_name "search" <|> p_map (fun _ => tt) multispace0)
    (P: l <- comma_or_space_separated_list1 (expr R);
     P: e <- p_unwrap (combine_all_expressions l "AND");
     p_ret (CSearch e)).

(** cmd_sort/spl.rs 64-80 *)
Definition p_sort : Parser Command :=
  P: count <- opt (preceded (opt (ws (tag_no_case "limit="))) (ws p_int));
  P: fields <- comma_separated_list1 (pair_ (opt plus_minus) (expr R));
  P: desc <- opt (ws (tag_no_case "desc"));
  p_ret (CSort fields (or_default 10000%Z count)
               (match desc with Some _ => true | None => false end)).

(** cmd_stats/spl.rs 56-92; i64 as usize *)
Definition stats_options (o : Options) : res StatsOpts :=
  let? partitions := get_int o "partitions" 1 in
  let? all_num := get_boolean o "allnum" false in
  let? delim := get_string o "delim" " " in
  Ok (mkStatsOpts (as_u64 partitions) all_num delim false).
Definition p_stats : Parser Command :=
  P: o <- match_options stats_options;
  P: funcs <- stats_call R;
  P: by_ <- opt (preceded (ws (tag_no_case "by")) maybe_spanned_field_list1);
  P: dedup <- opt (preceded (pair_ (ws (tag_no_case "dedup_splitvals")) (ws (tag "="))) p_bool);
  p_ret (CStats (mkStatsOpts (st_partitions o) (st_all_num o) (st_delim o) (or_default false dedup))
                funcs by_).

(** cmd_stream_stats/spl.rs 46-78 *)
Definition streamstats_options (o : Options) : res (bool * Z) :=
  let? current := get_boolean o "current" true in
  let? window := get_int o "window" 0 in
  Ok (current, window).
Definition p_streamstats : Parser Command :=
  P: o <- match_options streamstats_options;
  P: funcs <- ws (stats_call R);
  P: by_ <- opt (preceded (ws (tag_no_case "by")) maybe_spanned_field_list1);
  p_ret (CStreamStats funcs (or_default [] by_) (fst o) (snd o)).

(** cmd_table/spl.rs 36-38, cmd_tail/spl.rs 37-39 *)
Definition p_table : Parser Command := p_map CTable field_list1.
Definition p_tail : Parser Command := p_map (fun n => CTail (as_u64 n)) p_int.

(** cmd_t_stats/spl.rs 113-266 *)
Definition tstats_options (o : Options) : res TStatsOpts :=
  let? prestats := get_boolean o "prestats" false in
  let? local := get_boolean o "local" false in
  let? append := get_boolean o "append" false in
  let? summaries_only := get_boolean o "summariesonly" false in
  let? include_reduced_buckets := get_boolean o "include_reduced_buckets" false in
  let? allow_old_summaries := get_boolean o "allow_old_summaries" false in
  let? chunk_size := get_int o "chunk_size" 10000000 in
  let? fillnull_value := get_string_option o "fillnull_value" in
  Ok (mkTStatsOpts prestats local append summaries_only include_reduced_buckets
                   allow_old_summaries chunk_size fillnull_value).
Definition dotted_name : Parser string := recognize (separated_list1 (tag ".") token).
Definition tstats_from : Parser (string * option string) :=
  preceded (ws (tag_no_case "from"))
    (pair_ (ws (preceded (ws (tag_no_case "datamodel=")) dotted_name))
           (opt (ws (preceded (ws (tag_no_case "where"))
                       (ws (preceded (tag_no_case "nodename=") dotted_name)))))).
Definition tstats_where : Parser Expr :=
  preceded (ws (tag_no_case "where")) (ws (logical_expression R <|> field_in)).
Definition tstats_by : Parser (option (list MaybeSpannedField) * option string) :=
  preceded (ws (tag_no_case "by"))
    (    p_map (fun l => (Some l, None)) maybe_spanned_field_list1
     <|> p_map (fun f => (None, Some f))
           (ws (preceded (tag_no_case "PREFIX") (delimited (tag "(") field (tag ")"))))).
Definition tstats_count : Parser Expr :=
  P: name <- preceded (tag_no_case "count")
               (opt (delimited multispace1
                       (verify field (fun f => negb (String.eqb (lower f) "from"
                                                     || String.eqb (lower f) "where"
                                                     || String.eqb (lower f) "by")))
                       (multispace1 <|> eof)));
  p_ret (ECall "count" (match name with Some f => [efield f] | None => [] end)).
Definition tstats_call : Parser Expr :=
  P: func <- token;
  P: f <- delimited (tag "(") field (tag ")");
  p_ret (ECall func [efield f]).
Definition tstats_function : Parser Expr :=
  P: c <- (tstats_call <|> tstats_count);
  P: alias <- opt (preceded (delimited multispace1 (tag_no_case "AS") multispace1) token);
  p_ret (match alias with Some a => EAlias c a | None => c end).
Definition p_tstats : Parser Command :=
  P: o <- match_options tstats_options;
  P: exprs <- space_separated_list1 tstats_function;
  P: from <- ws (opt tstats_from);
  P: w <- ws (opt tstats_where);
  P: b <- ws (opt tstats_by);
  p_ret (let '(dm, node) := match from with None => (None, None) | Some (d, n) => (Some d, n) end in
         let '(by_, prefix) := or_default (None, None) b in
         CTStats o exprs dm node w by_ prefix).

(** cmd_where/spl.rs 37-39 *)
Definition p_where : Parser Command := p_map CWhere (logical_expression R).

(** ** parser.rs 1207-1251, with the names of src/commands/mod.rs 204-507 *)
Definition command : Parser Command :=
      cmd "addtotals" p_addtotals
  <|> preceded (match_word (tag_no_case "bin" <|> tag_no_case "bucket")) p_bin
  <|> cmd "collect" p_collect
  <|> cmd "convert" p_convert
  <|> cmd "datamodel" p_datamodel
  <|> cmd "dedup" p_dedup
  <|> cmd "eval" p_eval
  <|> cmd "eventstats" p_eventstats
  <|> cmd "fields" p_fields
  <|> cmd "fillnull" p_fillnull
  <|> cmd "format" p_format
  <|> cmd "head" p_head
  <|> cmd "inputlookup" p_inputlookup
  <|> cmd "join" p_join
  <|> cmd "lookup" p_lookup
  <|> cmd "makeresults" p_makeresults
  <|> cmd "map" p_map_cmd
  <|> cmd "multisearch" p_multisearch
  <|> cmd "mvcombine" p_mvcombine
  <|> cmd "mvexpand" p_mvexpand
  <|> cmd "rare" p_rare
  <|> cmd "regex" p_regex
  <|> cmd "rename" p_rename
  <|> cmd "return" p_return
  <|> cmd "rex" p_rex
  <|> cmd "sort" p_sort
  <|> cmd "spath" p_spath
  <|> cmd "stats" p_stats
  <|> cmd "streamstats" p_streamstats
  <|> cmd "table" p_table
  <|> cmd "tail" p_tail
  <|> cmd "top" p_top
  <|> cmd "tstats" p_tstats
  <|> cmd "where" p_where
  <|> p_search.

(** 1265-1272 *)
Definition pipeline : Parser Pipeline :=
  preceded (opt (ws (tag "|"))) (all_consuming (ws (separated_list0 (ws (tag "|")) command))).

(** One more level of recursion *)
Definition next : Recs :=
  mkRecs (expr3 R) (expr4 R) (expr5 R) (expr6 R) (expr7 R) (expr8 R) (expr R) (expr_ws R)
         (logical_expression R) (logical_expression_term R) command pipeline.
End Level.

Fixpoint level (n : nat) : Recs :=
  match n with O => recs0 | S m => next (level m) end.

(** src/lib.rs 18-24: the whole text has to be consumed; anything else is a
    ValueError ([Err]).  Fuel exhaustion is reported separately as None. *)
Definition parse_with (fuel : nat) (s : string) : option (res Pipeline) :=
  match pipeline (level fuel) s with
  | POk EmptyString p => Some (Ok p)
  | POk _ _ => Some Err
  | PErr => Some Err
  | PPanic => Some Panic
  | PFuel => None
  end.
Definition parse (s : string) : option (res Pipeline) := parse_with (S (String.length s)) s.
