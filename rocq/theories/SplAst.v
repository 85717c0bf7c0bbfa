(** SPL abstract syntax: /repo/src/spl/ast.rs and the command structs of
    /repo/src/commands/cmd_*/spl.rs. *)
From Verif Require Import Str.

(** src/spl/ast.rs: struct TimeSpan *)
Record TimeSpan := mkTimeSpan { ts_value : Z; ts_scale : string }.
(** src/spl/ast.rs: struct SnapTime *)
Record SnapTime := mkSnapTime {
  sn_span : option TimeSpan; sn_snap : string; sn_offset : option TimeSpan }.

(** src/spl/ast.rs: enum Constant.  A double is carried as the decimal text that
    Rust's Display prints for it. *)
Inductive Constant :=
| KNull
| KBool (b : bool)
| KInt (z : Z)
| KDouble (text : string)
| KStr (s : string)
| KSnapTime (t : SnapTime)
| KTimeSpan (t : TimeSpan)
| KField (s : string)
| KWildcard (s : string)
| KVariable (s : string)
| KIPv4CIDR (s : string).

(** src/spl/ast.rs: enum LeafExpr *)
Inductive LeafExpr :=
| LConstant (c : Constant)
| LFV (field value : string)
| LFB (field : string) (value : bool)
| LFC (field : string) (value : Constant).

(** src/spl/ast.rs: enum TimeModifier *)
Inductive TimeModifier :=
| TMStartTime (s : string)
| TMEndTime (s : string)
| TMEarliest (t : SnapTime)
| TMLatest (t : SnapTime).

(** src/spl/ast.rs: enum SearchModifier *)
Inductive SearchModifier :=
| SMSourceType (s : string) | SMHost (s : string) | SMHostTag (s : string)
| SMEventType (s : string) | SMEventTypeTag (s : string) | SMSavedSplunk (s : string)
| SMSource (s : string) | SMSplunkServer (s : string).

(** src/commands/stats_utils.rs: struct MaybeSpannedField *)
Record MaybeSpannedField := mkMSF { msf_field : string; msf_span : option TimeSpan }.

(** src/commands/cmd_bin/spl.rs *)
Record BinOpts := mkBinOpts {
  bin_span : option TimeSpan; bin_min_span : option TimeSpan; bin_bins : option Z;
  bin_start : option Z; bin_end : option Z; bin_align_time : option string }.

(** src/commands/cmd_add_totals/spl.rs *)
Record AddTotals := mkAddTotals {
  at_fields : list string; at_row : bool; at_col : bool; at_field_name : string;
  at_label_field : option string; at_label : string }.

(** src/commands/cmd_collect/spl.rs *)
Record Collect := mkCollect {
  co_index : string; co_fields : list string; co_add_time : bool;
  co_file : option string; co_host : option string; co_marker : option string;
  co_output_format : string; co_run_in_preview : bool; co_spool : bool;
  co_source : option string; co_source_type : option string; co_test_mode : bool }.

(** src/commands/cmd_convert/spl.rs: FieldConversion *)
Record FieldConversion := mkConversion {
  fc_func : string; fc_field : string; fc_alias : option string }.

(** src/commands/cmd_data_model/spl.rs *)
Record DataModel := mkDataModel {
  dm_data_model_name : option string; dm_dataset_name : option string;
  dm_search_mode : option string; dm_strict_fields : bool;
  dm_allow_old_summaries : bool; dm_summaries_only : bool }.

(** src/commands/cmd_format/spl.rs *)
Record Format := mkFormat {
  fm_mv_sep : string; fm_max_results : Z; fm_row_prefix : string;
  fm_col_prefix : string; fm_col_sep : string; fm_col_end : string;
  fm_row_sep : string; fm_row_end : string }.

(** src/commands/cmd_input_lookup/spl.rs (without the where expression) *)
Record InputLookupOpts := mkInputLookup {
  il_append : bool; il_strict : bool; il_start : Z; il_max : Z; il_table_name : string }.

(** src/commands/cmd_join/spl.rs (without the sub-search) *)
Record JoinOpts := mkJoin {
  jo_type : string; jo_use_time : bool; jo_earlier : bool; jo_overwrite : bool;
  jo_max : Z; jo_fields : list string }.

(** src/commands/cmd_make_results/spl.rs *)
Record MakeResults := mkMakeResults {
  mr_count : Z; mr_annotate : bool; mr_server : string; mr_server_group : option string }.

(** src/commands/cmd_top/spl.rs and cmd_rare/spl.rs; n is a u64 *)
Record TopRare := mkTopRare {
  tr_fields : list string; tr_n : Z; tr_by : option (list string);
  tr_count_field : string; tr_other_str : string; tr_percent_field : string;
  tr_show_count : bool; tr_show_percent : bool; tr_use_other : bool }.

(** src/commands/cmd_rex/spl.rs *)
Record Rex := mkRex {
  rx_field : string; rx_max_match : Z; rx_offset_field : option string;
  rx_mode : option string; rx_regex : string }.

(** src/commands/cmd_s_path/spl.rs *)
Record SPath := mkSPath { sp_path : string; sp_input : string; sp_output : option string }.

(** src/commands/cmd_stats/spl.rs, options; partitions is a usize *)
Record StatsOpts := mkStatsOpts {
  st_partitions : Z; st_all_num : bool; st_delim : string; st_dedup_split_vals : bool }.

(** src/commands/cmd_t_stats/spl.rs, options *)
Record TStatsOpts := mkTStatsOpts {
  tst_prestats : bool; tst_local : bool; tst_append : bool; tst_summaries_only : bool;
  tst_include_reduced_buckets : bool; tst_allow_old_summaries : bool;
  tst_chunk_size : Z; tst_fill_null_value : option string }.

(** src/spl/ast.rs 237-660: Expr, FieldLike, FieldOrAlias, Command, Pipeline.
    A [Pipeline] is its list of commands. *)
Inductive Expr :=
| ELeaf (l : LeafExpr)
| EAliasedField (field alias : string)
| EBinary (left : Expr) (symbol : string) (right : Expr)
| EUnary (symbol : string) (right : Expr)
| ECall (name : string) (args : list Expr)
| EFieldIn (field : string) (exprs : list Expr)
| EAlias (e : Expr) (name : string)
| ETimeModifier (format : string) (m : TimeModifier)
| ESearchModifier (m : SearchModifier)
| ESubSearch (p : list Command)
with Command :=
| CAddTotals (c : AddTotals)
| CBin (field : FieldOrAlias) (o : BinOpts)
| CCollect (c : Collect)
| CConvert (timeformat : string) (convs : list FieldConversion)
| CDataModel (c : DataModel)
| CDedup (num_results : Z) (fields : list string) (keep_events keep_empty consecutive : bool)
         (sort_by : list (option string * Expr)) (sort_count : Z) (sort_desc : bool)
| CEval (fields : list (string * Expr))
| CEventStats (all_num : bool) (funcs : list Expr) (by_ : list string)
| CFields (remove_fields : bool) (fields : list string)
| CFillNull (value : string) (fields : option (list string))
| CFormat (c : Format)
| CHead (eval_expr : Expr) (keep_last : bool) (null_option : bool)
| CInputLookup (o : InputLookupOpts) (where_expr : option Expr)
| CJoin (o : JoinOpts) (sub_search : list Command)
| CLookup (dataset : string) (fields : list FieldLike)
          (output : option (string * list FieldLike))
| CMakeResults (c : MakeResults)
| CMap (search : list Command) (max_searches : Z)
| CMultiSearch (pipelines : list (list Command))
| CMvCombine (delim : option string) (field : string)
| CMvExpand (field : string) (limit : option Z)
| CRare (c : TopRare)
| CRegex (item : option (string * string)) (regex : string)
| CRename (aliases : list (Expr * string))
| CReturn (count : Z) (fields : list FieldOrAlias)
| CRex (c : Rex)
| CSearch (e : Expr)
| CSPath (c : SPath)
| CSort (fields_to_sort : list (option string * Expr)) (count : Z) (descending : bool)
| CStats (o : StatsOpts) (funcs : list Expr) (by_ : option (list MaybeSpannedField))
| CStreamStats (funcs : list Expr) (by_ : list MaybeSpannedField) (current : bool) (window : Z)
| CTable (fields : list string)
| CTail (n : Z)
| CTop (c : TopRare)
| CTStats (o : TStatsOpts) (exprs : list Expr)
          (datamodel nodename : option string) (where_condition : option Expr)
          (by_fields : option (list MaybeSpannedField)) (by_prefix : option string)
| CWhere (e : Expr)
with FieldLike :=
| FLField (f : string)
| FLWildcard (w : string)
| FLAliasedField (f alias : string)
| FLAlias (e : Expr) (name : string)
with FieldOrAlias :=
| FAField (f : string)
| FAAlias (e : Expr) (name : string).

Definition Pipeline := list Command.

(** src/spl/ast_impls.rs: the From conversions used throughout. *)
Definition efield (s : string) : Expr := ELeaf (LConstant (KField s)).
Definition eint (z : Z) : Expr := ELeaf (LConstant (KInt z)).
Definition estr (s : string) : Expr := ELeaf (LConstant (KStr s)).
Definition ebool (b : bool) : Expr := ELeaf (LConstant (KBool b)).
Definition ewild (s : string) : Expr := ELeaf (LConstant (KWildcard s)).
Definition econst (c : Constant) : Expr := ELeaf (LConstant c).

(** src/pyspark/alias.rs 12-25: unaliased_with_name for SPL expressions. *)
Fixpoint expr_unaliased_with_name (e : Expr) : Expr * option string :=
  match e with
  | EAlias e' name => (fst (expr_unaliased_with_name e'), Some name)
  | EAliasedField f alias => (efield f, Some alias)
  | _ => (e, None)
  end.
Definition expr_unaliased (e : Expr) : Expr := fst (expr_unaliased_with_name e).
