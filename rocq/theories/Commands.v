(** Command transforms: /repo/src/commands/cmd_*/pyspark.rs,
    /repo/src/commands/stats_utils.rs and /repo/src/pyspark/transpiler/mod.rs. *)
From Verif Require Import Str SplAst PyAst Functions Transpile Render.

(** What a transform depends on besides the pipeline: the runtime selection
    (src/pyspark/base.rs 8-39) and two external behaviours taken as oracles:
    the iteration order of std HashSet (randomly seeded, so a fresh order per set)
    and the capture groups regex_syntax finds (src/commands/regex_utils.rs). *)
Record Env := mkEnv {
  env_rt : Rt;
  env_hash_order : nat -> list string -> list string;
  env_groups : string -> res (list (Z * option string)) }.

(** Shared mutable state: the atomic df counter of PysparkTranspileContext
    (starts at 1), and the number of HashSets iterated so far, which only selects
    the oracle's answer.  The state survives an error, as the Rc<AtomicUsize> does. *)
Record St := mkSt { st_df : nat; st_hash : nat }.
Definition M (A : Type) := St -> St * res A.
Definition ret {A} (a : A) : M A := fun s => (s, Ok a).
Definition lift {A} (r : res A) : M A := fun s => (s, r).
Definition bind {A B} (m : M A) (f : A -> M B) : M B :=
  fun s => match m s with
           | (s', Ok a) => f a s'
           | (s', Err) => (s', Err)
           | (s', Panic) => (s', Panic)
           end.
Definition or_else {A} (m n : M A) : M A :=
  fun s => match m s with
           | (s', Err) => n s'
           | r => r
           end.
Notation "'do' x '<-' e ';' f" := (bind e (fun x => f))
  (at level 200, x pattern, e at level 100, f at level 200).

(** src/pyspark/ast.rs 636-639 *)
Definition unique_name : M string :=
  fun s => (mkSt (S (st_df s)) (st_hash s), Ok ("df_" ++ dec_nat (st_df s))%string).

(** DataFrame::runtime, src/pyspark/ast.rs 634-676 *)
Definition d_runtime (src : option DataFrame) (func : string)
  (args : list RuntimeExpr) (kwargs : list (string * RuntimeExpr)) : M DataFrame :=
  do name <- unique_name; ret (DRuntime name src func args kwargs).

(** PipelineTransformState.df *)
Definition tstate := option DataFrame.

Definition ensure (b : bool) : res unit := if b then Ok tt else Err.

(** ** src/commands/stats_utils.rs *)
(** stats_utils.rs 19-33 *)
Definition span_text (t : TimeSpan) : string := (dec (ts_value t) ++ " " ++ ts_scale t)%string.
Definition transform_by_field (f : MaybeSpannedField) : ColumnOrName :=
  match msf_span f with
  | None => CNName (msf_field f)
  | Some sp => CNColumn (c_func "window" [pylit_str (msf_field f); pylit_str (span_text sp)])
  end.

Definition with_args (rt : Rt) (args : list Expr) : list Arg :=
  map (fun a => (a, to_spark_expr rt a)) args.

(** src/functions/stat_fns.rs 67-87 *)
Definition stats_fn (rt : Rt) (e : Expr) (d : DataFrame) : res (DataFrame * ColumnLike) :=
  let (e', alias) := expr_unaliased_with_name e in
  match e' with
  | ECall name args =>
      let a := with_args rt args in
      let? (d', c) := match rt with
                      | Disallow => stats_fn_bare name a d
                      | Require => stats_fn_runtime name a d
                      | Allow => ror_else (stats_fn_runtime name a d) (stats_fn_bare name a d)
                      end in
      Ok (d', cl_maybe_with_alias c alias)
  | _ => Err
  end.

(** stats_utils.rs 35-47 *)
Definition transform_stats_expr (rt : Rt) (d : DataFrame) (e : Expr) : res (DataFrame * ColumnLike) :=
  let (e', name) := expr_unaliased_with_name e in
  match e' with
  | ECall _ _ => let? (d', c) := stats_fn rt e' d in Ok (d', cl_maybe_with_alias c name)
  | _ => Err
  end.

(** cmd_stats/pyspark.rs 98-103, the accumulation loop (also cmd_t_stats 134-139) *)
Fixpoint transform_stats_exprs (rt : Rt) (d : DataFrame) (l : list Expr)
  : res (DataFrame * list ColumnLike) :=
  match l with
  | nil => Ok (d, nil)
  | e :: l' =>
      let? (d', c) := transform_stats_expr rt d e in
      let? (d'', cs) := transform_stats_exprs rt d' l' in
      Ok (d'', c :: cs)
  end.

(** stats_utils.rs 49-72 (identical copy in cmd_stats/pyspark.rs 13-36) *)
Definition transform_stats_runtime_expr (rt : Rt) (e : Expr) : res (string * RuntimeExpr) :=
  let (e', name) := expr_unaliased_with_name e in
  match e' with
  | ECall f args =>
      let alias := match name with Some n => n | None => f end in
      let? a := rtraverse (to_spark_expr rt) args in
      Ok (alias, RExpr (PCol (CFunctionCall ("functions.stats." ++ f)%string a)))
  | _ => Err
  end.

(** ** addtotals, cmd_add_totals/pyspark.rs 5-32 *)
Definition addtotals_term (name : string) : ColumnLike :=
  c_method (pfun "when" [pmeth (pmeth (pcol name) "cast" [pylit_str "double"]) "isNotNull" [];
                         pcol name]) "otherwise" [plit "0.0"].
Definition t_addtotals (c : AddTotals) (s : tstate) : res DataFrame :=
  let total := match join_as_binaries "+" (map addtotals_term (at_fields c)) with
               | Some t => t
               | None => CLiteral "0.0"
               end in
  Ok (d_with_column (d_or_default s) (at_field_name c) total).

(** ** bin, cmd_bin/pyspark.rs 7-30 *)
Definition foa_name (f : FieldOrAlias) : string :=
  match f with FAField n => n | FAAlias _ n => n end.
Definition t_bin (f : FieldOrAlias) (o : BinOpts) (s : tstate) : res DataFrame :=
  let d := d_or_default s in
  let n := foa_name f in
  let d := match bin_span o with
           | Some sp => d_with_column d n (c_func "window" [pcol "n"; pylit_str (span_text sp)])
           | None => d
           end in
  Ok (d_with_column d n (CNamed (n ++ ".start")%string)).

(** ** convert, cmd_convert/pyspark.rs 6-24 *)
Fixpoint t_convert_go (tf : string) (l : list FieldConversion) (d : DataFrame) : res DataFrame :=
  match l with
  | nil => Ok d
  | c :: l' =>
      let? r := convert_fn tf c in
      let n := match fc_alias c with Some a => a | None => fc_field c end in
      t_convert_go tf l' (d_with_column d n r)
  end.

(** ** datamodel, cmd_data_model/pyspark.rs 9-69 *)
Definition t_datamodel_runtime (c : DataModel) (s : tstate) : M DataFrame :=
  d_runtime s "data_model" []
    [ ("data_model_name", RExpr (pylit_opt_str (dm_data_model_name c)));
      ("dataset_name", RExpr (pylit_opt_str (dm_dataset_name c)));
      ("search_mode", RExpr (pylit_opt_str (dm_search_mode c)));
      ("strict_fields", RExpr (pylit_bool (dm_strict_fields c)));
      ("allow_old_summaries", RExpr (pylit_bool (dm_allow_old_summaries c)));
      ("summaries_only", RExpr (pylit_bool (dm_summaries_only c))) ]%string.

Definition opt_str_eqb (o : option string) (s : string) : bool :=
  match o with Some x => String.eqb x s | None => false end.

Definition t_datamodel_standalone (c : DataModel) (s : tstate) : res DataFrame :=
  let? _ := ensure (opt_str_eqb (dm_search_mode c) "search") in
  match s, dm_data_model_name c, dm_dataset_name c with
  | Some src, None, None => Ok src
  | None, Some dm, None => Ok (DSource dm)
  | None, Some dm, Some node =>
      Ok (DSource (dm ++ "." ++ join "." (tl (split_on "."%char node)))%string)
  | _, _, _ => Err
  end.

(** ** eval, cmd_eval/pyspark.rs 10-52 *)
Definition eval_column (rt : Rt) (e : Expr) : res ColumnLike :=
  let? x := to_spark_expr rt e in
  match x with PCol c => Ok c | PyLit _ => Err end.
Definition t_eval_runtime (rt : Rt) (fields : list (string * Expr)) (s : tstate) : M DataFrame :=
  do kw <- lift (rtraverse (fun fe =>
             let? c := eval_column rt (snd fe) in
             Ok (fst fe, RExpr (PCol (cl_unaliased c)))) fields);
  d_runtime s "eval" [] kw.
Fixpoint t_eval_go (rt : Rt) (fields : list (string * Expr)) (d : DataFrame) : res DataFrame :=
  match fields with
  | nil => Ok d
  | (n, e) :: l' => let? c := eval_column rt e in t_eval_go rt l' (d_with_column d n c)
  end.

(** ** fields and table, cmd_fields/pyspark.rs 6-22, cmd_table/pyspark.rs 5-20 *)
Definition t_select (fields : list string) (s : tstate) : res DataFrame :=
  Ok (DSelect (d_or_default s) (map CNamed fields)).

(** ** fillnull, cmd_fill_null/pyspark.rs 6-36 *)
Definition t_fillnull_runtime (value : string) (fields : option (list string)) (s : tstate) : M DataFrame :=
  d_runtime s "fill_null" []
    [ ("value", RExpr (pylit_str value));
      ("fields", match fields with
                 | Some l => RList (map (fun f => RExpr (pylit_str f)) l)
                 | None => RExpr pylit_none
                 end) ]%string.
Definition t_fillnull_standalone (value : string) (s : tstate) : res DataFrame :=
  Ok (DArbitraryMethod (d_or_default s) "fillna" [pylit_str value]).

(** ** head, cmd_head/pyspark.rs 6-53.  i64 additions wrap (release build). *)
Definition head_limit (e : Expr) (keep_last : bool) : res Z :=
  match e with
  | ELeaf (LConstant (KInt n)) => Ok n
  | EBinary l symbol r =>
      let side : res (bool * Expr) :=
        match l, r with
        | ELeaf (LConstant (KField "count")), _ => Ok (true, r)
        | _, ELeaf (LConstant (KField "count")) => Ok (false, l)
        | _, _ => Err
        end in
      let? (was_left, limit_expr) := side in
      match limit_expr with
      | ELeaf (LConstant (KInt v)) =>
          let? base :=
            if was_left && String.eqb symbol "<" then Ok v
            else if was_left && String.eqb symbol "<=" then Ok (wrap64 (v + 1))
            else if negb was_left && String.eqb symbol ">" then Ok v
            else if negb was_left && String.eqb symbol ">=" then Ok (wrap64 (v + 1))
            else Err in
          Ok (wrap64 (base + (if keep_last then 1 else 0)))
      | _ => Err
      end
  | _ => Err
  end%Z.
Definition t_head (e : Expr) (keep_last : bool) (s : tstate) : res DataFrame :=
  let? n := head_limit e keep_last in Ok (DLimit (d_or_default s) (as_u64 n)).

(** ** join, cmd_join/pyspark.rs 8-63, after the sub-search has been transformed *)
Definition join_kind (ty : string) : res string :=
  if existsb (String.eqb ty) ["inner"; "left"; "outer"]%string then Ok ty else Err.
Definition join_eq (name : string) : ColumnLike :=
  c_binary (pcol ("LEFT." ++ name)%string) "==" (pcol ("RIGHT." ++ name)%string).
Definition join_condition (o : JoinOpts) : res ColumnLike :=
  match join_as_binaries "&" (map join_eq (jo_fields o)) with
  | None => Panic
  | Some c =>
      Ok (if jo_use_time o then
            c_binary (PCol c) "&"
              (pbin (pcol "LEFT._time") (if jo_earlier o then ">=" else "<=") (pcol "RIGHT._time"))
          else c)
  end.
Definition t_join (o : JoinOpts) (s : tstate) (right_df : tstate) : res DataFrame :=
  let left_df := DAlias (d_or_default s) "LEFT" in
  match right_df with
  | None => Err
  | Some r =>
      let? ty := join_kind (jo_type o) in
      let? c := join_condition o in
      Ok (d_join left_df (DAlias r "RIGHT") (PCol c) ty)
  end.

(** ** lookup, cmd_lookup/pyspark.rs 9-70: the join and projection are built and
    checked, but the dataframe returned is the aliased source. *)
Definition lookup_join_column (f : FieldLike) : res ColumnLike :=
  match f with
  | FLAliasedField field alias =>
      Ok (c_binary (pcol ("main." ++ alias)%string) "==" (pcol ("lookup." ++ field)%string))
  | FLField n =>
      Ok (c_binary (pcol ("main." ++ n)%string) "==" (pcol ("lookup." ++ n)%string))
  | _ => Err
  end.
Definition lookup_output_column (f : FieldLike) : res ColumnLike :=
  match f with
  | FLField n => Ok (c_aliased (pcol ("lookup." ++ n)%string) n)
  | FLAliasedField field alias => Ok (c_aliased (pcol ("lookup." ++ field)%string) alias)
  | _ => Err
  end.
(** lookup 38-67: the dataframe the code builds and then drops *)
Definition lookup_result (dataset : string) (fields : list FieldLike)
  (output : option (string * list FieldLike)) (s : tstate) : res DataFrame :=
  let? cols := rtraverse lookup_join_column fields in
  let cond := match join_as_binaries "&" cols with Some c => c | None => CLiteral "1" end in
  let joined := d_join (DAlias (d_or_default s) "main")
                       (DAlias (DSource dataset) "lookup") (PCol cond) "left" in
  let? sel := match output with
              | None => Ok [CNamed "main.*"; CNamed "lookup.*"]
              | Some (kv, fs) =>
                  if String.eqb (upper kv) "OUTPUT" then
                    let? cs := rtraverse lookup_output_column fs in Ok (CNamed "main.*" :: cs)
                  else Err
              end in
  Ok (DSelect joined sel).
Definition t_lookup (dataset : string) (fields : list FieldLike)
  (output : option (string * list FieldLike)) (s : tstate) : res DataFrame :=
  let? _ := lookup_result dataset fields output s in
  Ok (DAlias (d_or_default s) "main").

(** ** makeresults, cmd_make_results/pyspark.rs 4-44: the incoming dataframe is ignored *)
Definition t_makeresults (c : MakeResults) : res DataFrame :=
  let d := d_with_column (DRawSource ("spark.range(0, " ++ dec (mr_count c) ++ ", 1)")%string)
             "_time" (c_func "current_timestamp" []) in
  let none := CLiteral "None" in
  Ok (if mr_annotate c then
        let d := d_with_column d "_raw" none in
        let d := d_with_column d "host" none in
        let d := d_with_column d "source" none in
        let d := d_with_column d "sourcetype" none in
        let d := d_with_column d "splunk_server" (CLiteral (dq ++ mr_server c ++ dq)%string) in
        d_with_column d "splunk_server_group"
          (match mr_server_group c with Some g => CLiteral g | None => none end)
      else d).

(** ** rare and top, cmd_rare/pyspark.rs 6-44, cmd_top/pyspark.rs 6-44 *)
Definition t_toprare (dir : string) (c : TopRare) (s : tstate) : res DataFrame :=
  let? _ := ensure (negb (tr_use_other c)) in
  let by_ := match tr_by c with Some l => l | None => tr_fields c end in
  let d := DGroupBy (d_or_default s) (map CNName by_) in
  let d := DAggregation d [c_aliased (pfun "count" []) (tr_count_field c)] in
  let d := if tr_show_percent c
           then d_with_column d (tr_percent_field c)
                  (c_binary (pcol "count") "/" (pfun "sum" [pcol "count"]))
           else d in
  let d := DOrderBy d [c_method (pcol "count") dir []] in
  Ok (if (tr_n c =? 0)%Z then d else DLimit d (tr_n c)).

(** ** regex, cmd_regex/pyspark.rs 7-34 *)
Definition raw_string (s : string) : PExpr := PyLit ("r" ++ dq ++ s ++ dq)%string.
Definition t_regex (item : option (string * string)) (regex : string) (s : tstate) : res DataFrame :=
  let? (field, invert) := match item with
                          | None => Ok ("_raw"%string, false)
                          | Some (f, cmp) =>
                              if String.eqb cmp "=" then Ok (f, false)
                              else if String.eqb cmp "!=" then Ok (f, true) else Err
                          end in
  let c := c_func "regexp_like" [pcol field; raw_string regex] in
  let c := if invert then c_not (PCol c) else c in
  Ok (d_where (d_or_default s) (PCol c)).

(** ** rename, cmd_rename/pyspark.rs 6-27 *)
Fixpoint t_rename_go (l : list (Expr * string)) (d : DataFrame) : res DataFrame :=
  match l with
  | nil => Ok d
  | (ELeaf (LConstant (KField old)), new) :: l' => t_rename_go l' (DWithColumnRenamed d old new)
  | _ :: _ => Err
  end.

(** ** rex, cmd_rex/pyspark.rs 7-37 *)
Definition t_rex (env : Env) (c : Rex) (s : tstate) : res DataFrame :=
  let? _ := ensure (negb (opt_str_eqb (rx_mode c) "sed")) in
  let? _ := ensure (rx_max_match c =? 1)%Z in
  let? groups := env_groups env (rx_regex c) in
  Ok (fold_left (fun d (g : Z * option string) =>
        d_with_column d (match snd g with Some n => n | None => dec (fst g) end)
          (c_func "regexp_extract" [pcol (rx_field c); raw_string (rx_regex c); pylit_int (fst g)]))
        groups (d_or_default s)).

(** ** search, cmd_search/pyspark.rs *)
(** 9-14 *)
Definition is_index (e : Expr) : bool :=
  match e with ELeaf (LConstant (KField n)) => String.eqb n "index" | _ => false end.
(** HashSet::insert, the set kept in insertion order *)
Definition set_insert (x : string) (l : list string) : list string :=
  if existsb (String.eqb x) l then l else l ++ [x].
(** 47-57 *)
Definition combine_sides (l : option Expr) (op : string) (r : option Expr) : res (option Expr) :=
  match l, r with
  | None, None => Ok None
  | Some e, None | None, Some e =>
      if String.eqb op "AND" || String.eqb op "OR" then Ok (Some e) else Err
  | Some a, Some b => Ok (Some (EBinary a op b))
  end.
(** 16-63 *)
Fixpoint split_conditions (e : Expr) (all_ands : bool) (ind : list string)
  : res (list string * option Expr) :=
  match e with
  | EBinary l symbol r =>
      let li := is_index l in
      let ri := is_index r in
      if xorb li ri && String.eqb symbol "=" then
        let? _ := ensure all_ands in
        let? v := expr_to_string (if li then r else l) in
        Ok (set_insert v ind, None)
      else if li || ri then Err
      else
        let still := all_ands && String.eqb symbol "AND" in
        let? (ind1, cl) := split_conditions l still ind in
        let? (ind2, cr) := split_conditions r still ind1 in
        let? c := combine_sides cl symbol cr in
        Ok (ind2, c)
  | _ => Ok (ind, Some e)
  end.
(** 65-77 *)
Fixpoint break_down_ands (e : Expr) : list Expr :=
  match e with
  | EBinary l symbol r =>
      if String.eqb symbol "AND" then break_down_ands l ++ break_down_ands r else [e]
  | _ => [e]
  end.
(** 79-87 and 132-143: field names with a dedicated keyword argument *)
Definition search_special : list (string * string) :=
  [ ("index", "index"); ("source", "source"); ("sourcetype", "source_type"); ("host", "host");
    ("hosttag", "host_tag"); ("eventtype", "event_type"); ("eventtypetag", "event_type_tag");
    ("savedsplunk", "saved_splunk"); ("splunk_server", "splunk_server") ]%string.
Definition is_eq_op (op : string) : bool := String.eqb op "=" || String.eqb op "==".
(** 103-166: one conjunct becomes a keyword (inr) or a positional (inl) argument *)
Definition search_runtime_arg (rt : Rt) (e : Expr) : res (RuntimeExpr + (string * RuntimeExpr)) :=
  let positional := let? x := to_spark_expr rt e in Ok (inl (RExpr x)) in
  match e with
  | EBinary (ELeaf (LConstant (KField name))) op r =>
      match assoc name search_special with
      | Some k =>
          let? _ := ensure (is_eq_op op) in
          match r with
          | ELeaf (LConstant (KField v)) | ELeaf (LConstant (KStr v)) =>
              Ok (inr (k, RExpr (pylit_str v)))
          | _ => Err
          end
      | None =>
          if is_eq_op op then let? x := to_spark_expr rt r in Ok (inr (name, RExpr x))
          else positional
      end
  | _ => positional
  end.
Fixpoint lefts {A B} (l : list (A + B)) : list A :=
  match l with nil => nil | inl a :: l' => a :: lefts l' | inr _ :: l' => lefts l' end.
Fixpoint rights {A B} (l : list (A + B)) : list B :=
  match l with nil => nil | inl _ :: l' => rights l' | inr b :: l' => b :: rights l' end.
(** 90-172 *)
Definition t_search_runtime (rt : Rt) (e : Expr) (s : tstate) : M DataFrame :=
  do l <- lift (rtraverse (search_runtime_arg rt) (break_down_ands e));
  d_runtime s "search" (lefts l) (rights l).
(** 180-192: union of the index tables in hash order *)
Definition index_union (l : list string) : option DataFrame :=
  match l with
  | nil => None
  | i :: l' => Some (fold_left (fun d x => DUnionByName d (DSource x)) l' (DSource i))
  end.
Definition hash_iter (env : Env) (l : list string) : M (list string) :=
  fun s => (mkSt (st_df s) (S (st_hash s)), Ok (env_hash_order env (st_hash s) l)).
(** 174-203; line 189 unwraps the union, which exists because the set is not empty *)
Definition t_search_standalone (env : Env) (e : Expr) (s : tstate) : M DataFrame :=
  do (ind, cond) <- lift (split_conditions e true []);
  do d <- match ind with
          | nil => ret (d_or_default s)
          | _ => do order <- hash_iter env ind;
                 match index_union order with Some d => ret d | None => lift Panic end
          end;
  match cond with
  | None => ret d
  | Some c =>
      do x <- lift (to_spark_expr (env_rt env) c);
      ret (d_where d (into_search_expr x))
  end.

(** ** sort, cmd_sort/pyspark.rs 8-69 *)
Definition sort_direction (sign : option string) (descending : bool) : res bool :=
  match sign with
  | None => Ok descending
  | Some sg => if String.eqb sg "+" then Ok descending
               else if String.eqb sg "-" then Ok (negb descending) else Err
  end.
Definition sort_key (descending : bool) (k : option string * Expr) : res ColumnLike :=
  match snd k with
  | ELeaf (LConstant (KField n)) =>
      let? d := sort_direction (fst k) descending in
      Ok (c_method (pcol n) (if d then "desc" else "asc") [])
  | _ => Err
  end.
Definition t_sort (l : list (option string * Expr)) (count : Z) (descending : bool) (s : tstate)
  : res DataFrame :=
  let? keys := rtraverse (sort_key descending) l in
  let d := DOrderBy (d_or_default s) keys in
  Ok (if (count =? 0)%Z then d else DLimit d (as_u64 count)).

(** ** spath, cmd_s_path/pyspark.rs 5-24 *)
Definition t_spath (c : SPath) (s : tstate) : res DataFrame :=
  let out := match sp_output c with Some o => o | None => sp_path c end in
  Ok (d_with_column (d_or_default s) out
        (c_func "get_json_object" [pcol (sp_input c); pylit_str ("$." ++ sp_path c)%string])).

(** ** stats, cmd_stats/pyspark.rs 39-116 *)
Definition by_runtime (by_ : option (list MaybeSpannedField)) : list (string * RuntimeExpr) :=
  match by_ with
  | Some l => [("by"%string, RList (map (fun f => runtime_of_con (transform_by_field f)) l))]
  | None => []
  end.
Definition t_stats_runtime (rt : Rt) (funcs : list Expr) (by_ : option (list MaybeSpannedField))
  (s : tstate) : M DataFrame :=
  do kw <- lift (rtraverse (transform_stats_runtime_expr rt) funcs);
  d_runtime s "stats" [] (by_runtime by_ ++ kw).
Definition t_stats_standalone (rt : Rt) (funcs : list Expr) (by_ : option (list MaybeSpannedField))
  (s : tstate) : res DataFrame :=
  let? (d, aggs) := transform_stats_exprs rt (d_or_default s) funcs in
  let cols := match by_ with Some l => map transform_by_field l | None => [] end in
  Ok (DAggregation (DGroupBy d cols) aggs).

(** ** tstats, cmd_t_stats/pyspark.rs 12-159 *)
Definition tstats_ok (o : TStatsOpts) : bool :=
  negb (tst_prestats o) && negb (tst_local o) && negb (tst_append o)
  && negb (tst_include_reduced_buckets o).
Definition opt_pylit (o : option string) : RuntimeExpr := RExpr (pylit_opt_str o).
Definition t_tstats_runtime (rt : Rt) (o : TStatsOpts) (exprs : list Expr)
  (datamodel nodename : option string) (where_ : option Expr)
  (by_ : option (list MaybeSpannedField)) (s : tstate) : M DataFrame :=
  do _ <- lift (ensure (tstats_ok o));
  do w <- lift (match where_ with
                | Some e => let? x := to_spark_expr rt e in Ok [("where"%string, RExpr x)]
                | None => Ok []
                end);
  do kw <- lift (rtraverse (transform_stats_runtime_expr rt) exprs);
  d_runtime s "tstats" []
    ([("from_"%string, RDict [("datamodel"%string, opt_pylit datamodel);
                              ("nodename"%string, opt_pylit nodename)])]
       ++ match tst_fill_null_value o with
          | Some v => [("fill_null_value"%string, RExpr (pylit_str v))]
          | None => []
          end
       ++ w ++ by_runtime by_ ++ kw).

(** PipelineTransformer::transform, src/pyspark/transpiler/mod.rs 29-38 *)
Definition select_rt (rt : Rt) (runtime standalone : M DataFrame) : M DataFrame :=
  match rt with
  | Disallow => standalone
  | Allow => or_else runtime standalone
  | Require => runtime
  end.
(** mod.rs 40-58: the defaults *)
Definition unimplemented : M DataFrame := lift Err.

Definition t_datamodel (rt : Rt) (c : DataModel) (s : tstate) : M DataFrame :=
  select_rt rt (t_datamodel_runtime c s) (lift (t_datamodel_standalone c s)).

(** cmd_t_stats/pyspark.rs 88-159 *)
Definition t_tstats_standalone (rt : Rt) (o : TStatsOpts) (exprs : list Expr)
  (datamodel nodename : option string) (where_ : option Expr)
  (by_ : option (list MaybeSpannedField)) (by_prefix : option string) (s : tstate) : M DataFrame :=
  do _ <- lift (ensure (tstats_ok o));
  do d <- t_datamodel rt (mkDataModel datamodel nodename (Some "search"%string) false
                            (tst_allow_old_summaries o) (tst_summaries_only o)) s;
  do d <- lift (match where_ with
                | Some e => let? x := to_spark_expr rt e in Ok (d_where d x)
                | None => Ok d
                end);
  do (d, aggs) <- lift (transform_stats_exprs rt d exprs);
  do cols <- lift (match by_, by_prefix with
                   | Some l, None => Ok (map transform_by_field l)
                   | None, None => Ok []
                   | _, _ => Err
                   end);
  ret (DAggregation (DGroupBy d cols) aggs).

(** ** where, cmd_where/pyspark.rs 6-17 *)
Definition t_where (rt : Rt) (e : Expr) (s : tstate) : res DataFrame :=
  let? c := to_spark_expr rt e in Ok (d_where (d_or_default s) c).

(** ** Whole pipelines *)
(** mod.rs 105-115: fold the commands of a pipeline from the empty state *)
Section Pipeline.
  Variable cmd : Command -> tstate -> M tstate.
  Fixpoint run_commands (l : list Command) (s : tstate) : M tstate :=
    match l with
    | nil => ret s
    | c :: l' => do s' <- cmd c s; run_commands l' s'
    end.
  (** cmd_multi_search/pyspark.rs 14-27: union of every sub-pipeline's single
      dataframe, left to right *)
  Fixpoint run_unions (ps : list (list Command)) (cur : option DataFrame) : M (option DataFrame) :=
    match ps with
    | nil => ret cur
    | p :: ps' =>
        do s <- run_commands p None;
        match s with
        | None => lift Err
        | Some d =>
            run_unions ps' (Some (match cur with None => d | Some c => DUnionByName c d end))
        end
    end.
End Pipeline.

(** mod.rs 61-103, one command; a sub-search starts from its own empty state and
    shares the counter *)
Fixpoint transform_command (env : Env) (c : Command) (s : tstate) {struct c} : M tstate :=
  let rt := env_rt env in
  let both (r st : M DataFrame) : M tstate := do d <- select_rt rt r st; ret (Some d) in
  let only (st : res DataFrame) : M tstate := both unimplemented (lift st) in
  match c with
  | CAddTotals c => only (t_addtotals c s)
  | CBin f o => only (t_bin f o s)
  | CConvert tf l => only (t_convert_go tf l (d_or_default s))
  | CDataModel c => both (t_datamodel_runtime c s) (lift (t_datamodel_standalone c s))
  | CEval l => both (t_eval_runtime rt l s) (lift (t_eval_go rt l (d_or_default s)))
  | CFields _ l => only (t_select l s)
  | CFillNull v l => both (t_fillnull_runtime v l s) (lift (t_fillnull_standalone v s))
  | CHead e k _ => only (t_head e k s)
  | CJoin o p =>
      both unimplemented
        (do _ <- lift (ensure (jo_max o =? 1)%Z);
         do r <- run_commands (transform_command env) p None;
         lift (t_join o s r))
  | CLookup ds fs out => only (t_lookup ds fs out s)
  | CMakeResults c => only (t_makeresults c)
  | CMultiSearch ps =>
      match ps with
      | nil => match rt with Require => lift Err | _ => ret s end
      | _ => both unimplemented
               (do r <- run_unions (transform_command env) ps None;
                match r with Some d => ret d | None => lift Err end)
      end
  | CRare c => only (t_toprare "asc" c s)
  | CRegex i r => only (t_regex i r s)
  | CRename l => only (t_rename_go l (d_or_default s))
  | CRex c => only (t_rex env c s)
  | CSearch e => both (t_search_runtime rt e s) (t_search_standalone env e s)
  | CSPath c => only (t_spath c s)
  | CSort l n d => only (t_sort l n d s)
  | CStats _ f b => both (t_stats_runtime rt f b s) (lift (t_stats_standalone rt f b s))
  | CTable l => only (t_select l s)
  | CTail n => only (Ok (DTail (d_or_default s) n))
  | CTop c => only (t_toprare "desc" c s)
  | CTStats o es dm nn w b bp =>
      both (t_tstats_runtime rt o es dm nn w b s) (t_tstats_standalone rt o es dm nn w b bp s)
  | CWhere e => only (t_where rt e s)
  | CCollect _ | CDedup _ _ _ _ _ _ _ _ | CEventStats _ _ _ | CFormat _ | CInputLookup _ _
  | CMap _ _ | CMvCombine _ _ | CMvExpand _ _ | CReturn _ _ | CStreamStats _ _ _ _ =>
      lift Err
  end.

(** TransformedPipeline::transform with a fresh context *)
Definition transform_state0 : St := mkSt 1 0.
Definition transform_pipeline (env : Env) (p : Pipeline) : res tstate :=
  snd (run_commands (transform_command env) p None transform_state0).

Definition dataframes (s : tstate) : list DataFrame :=
  match s with Some d => [d] | None => [] end.

(** render_pyspark of src/lib.rs with format_code = false *)
Definition render_pyspark (env : Env) (p : Pipeline) : res string :=
  let? s := transform_pipeline env p in Ok (render_dfs (dataframes s)).
