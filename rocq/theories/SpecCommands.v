(** What SPL search conditions and commands do to tables.  Specification only. *)
From Verif Require Import Str SplAst SpecPy SpecCol SpecSpark SpecRows.
Open Scope list_scope.

(** ** Conditions of search.  A search condition is true or false of a row: a field the
    row does not have satisfies no comparison.  A word or a quoted text alone is looked
    for in the raw event, ignoring case.  A word on the right of a comparison is a text. *)
Definition raw_contains (row : Row) (w : string) : bool :=
  match cell "_raw" row with SNull => false | v => contains (lower w) (lower (val_text v)) end.
Section Search.
  Variable sp : Spark.
  Definition search_compare (op : string) (v : Val) (k : Constant) : option bool :=
    match k with
    | KWildcard p =>
        if String.eqb op "=" || String.eqb op "==" then Some (not_null v && wild p (val_text v))
        else if String.eqb op "!=" then Some (not_null v && negb (wild p (val_text v))) else None
    | KField w => if str_in op spl_comparisons then Some (not_null v && sp_cmp sp (cmp_name op) v (SStr w)) else None
    | _ => match const_val k with
           | Some w => if str_in op spl_comparisons then Some (not_null v && sp_cmp sp (cmp_name op) v w) else None
           | None => None
           end
    end.
  Fixpoint search_holds (row : Row) (e : Expr) : option bool :=
    match e with
    | EBinary l op r =>
        if String.eqb op "AND" then
          match search_holds row l, search_holds row r with Some a, Some b => Some (a && b) | _, _ => None end
        else if String.eqb op "OR" then
          match search_holds row l, search_holds row r with Some a, Some b => Some (a || b) | _, _ => None end
        else match l, r with
             | ELeaf (LConstant (KField f)), ELeaf (LConstant k) => search_compare op (cell f row) k
             | _, _ => None
             end
    | EUnary op r => if String.eqb op "NOT" then option_map negb (search_holds row r) else None
    | EFieldIn f l => Some (not_null (cell f row) && existsb (in_item sp (cell f row)) l)
    | ELeaf (LConstant (KField w)) | ELeaf (LConstant (KStr w)) => Some (raw_contains row w)
    | ELeaf (LConstant (KInt z)) => Some (raw_contains row (dec z))
    | _ => None
    end.
End Search.
(** The fields a condition looks at, and those it looks at below a NOT *)
Fixpoint search_fields (e : Expr) : list string :=
  match e with
  | EBinary l op r =>
      if String.eqb op "AND" || String.eqb op "OR" then search_fields l ++ search_fields r
      else match l with ELeaf (LConstant (KField f)) => [f] | _ => [] end
  | EUnary _ r => search_fields r
  | EFieldIn f _ => [f]
  | ELeaf _ => ["_raw"%string]
  | _ => []
  end.
Fixpoint negated_fields (e : Expr) : list string :=
  match e with
  | EBinary l op r => if String.eqb op "AND" || String.eqb op "OR" then negated_fields l ++ negated_fields r else []
  | EUnary _ r => search_fields r
  | _ => []
  end.
(** Conditions the theorems cover: no constraint on index, no word on the right of a
    comparison *)
Definition plain_word (w : string) : bool :=
  match w with EmptyString => false | _ => plain_pattern w && plain_name_text w end.
Fixpoint plain_search (e : Expr) : bool :=
  match e with
  | EBinary l op r =>
      if String.eqb op "AND" || String.eqb op "OR" then plain_search l && plain_search r
      else match l with
           | ELeaf (LConstant (KField f)) =>
               negb (String.eqb f "index") && plain_name_text f &&
               match r with
               | ELeaf (LConstant (KWildcard p)) => plain_pattern p && str_in op ["="; "=="; "!="]%string
               | ELeaf (LConstant (KInt _)) => str_in op spl_comparisons
               | ELeaf (LConstant (KStr s)) => stands squote false s && str_in op spl_comparisons
               | ELeaf (LConstant (KDouble t)) => plain_number t && str_in op spl_comparisons
               | _ => false
               end
           | _ => false
           end
  | EUnary op r => String.eqb op "NOT" && plain_search r
  | EFieldIn f l => plain_name_text f && match l with [] => false | _ => forallb plain_in_value l end
  | ELeaf (LConstant (KField w)) => plain_word w && negb (String.eqb w "index")
  | ELeaf (LConstant (KStr w)) => plain_word w
  | ELeaf (LConstant (KInt _)) => true
  | _ => false
  end.

(** ** Commands on tables.  [None]: not covered, or the command makes no sense there. *)
Section Commands.
  Variable sp : Spark.
  (** The rows of which [f] is true; f must be a truth value of every row *)
  Fixpoint rows_where (f : Row -> option Val) (rows : Table) : option Table :=
    match rows with
    | [] => Some []
    | r :: rows' =>
        match f r, rows_where f rows' with
        | Some (SBool b), Some l => Some (if b then r :: l else l)
        | Some SNull, Some l => Some l
        | _, _ => None
        end
    end.
  (** eval: the assignments one after the other, each seeing the ones before *)
  Fixpoint assign (l : list (string * Expr)) (r : Row) : option Row :=
    match l with
    | [] => Some r
    | (n, e) :: l' => match ev sp r e with Some v => assign l' (set_cell n v r) | None => None end
    end.
  (** rename: the renamings one after the other *)
  Fixpoint renamed (l : list (Expr * string)) (r : Row) : option Row :=
    match l with
    | [] => Some r
    | (ELeaf (LConstant (KField old)), new) :: l' => renamed l' (rename_cell old new r)
    | _ => None
    end.
  (** head with a condition on the running count: rows, numbered from 0, while it holds;
      keeplast also keeps the first row for which it does not *)
  Fixpoint while_count (test : Z -> bool) (keeplast : bool) (i : Z) (rows : Table) : Table :=
    match rows with
    | [] => []
    | r :: rows' => if test i then r :: while_count test keeplast (i + 1) rows'
                    else if keeplast then [r] else []
    end.
  Definition count_test (l : Expr) (op : string) (r : Expr) : option (Z -> bool) :=
    match l, r with
    | ELeaf (LConstant (KField c)), ELeaf (LConstant (KInt v)) =>
        if String.eqb c "count" then
          if String.eqb op "<" then Some (fun i => (i <? v)%Z)
          else if String.eqb op "<=" then Some (fun i => (i <=? v)%Z) else None
        else None
    | ELeaf (LConstant (KInt v)), ELeaf (LConstant (KField c)) =>
        if String.eqb c "count" then
          if String.eqb op ">" then Some (fun i => (v >? i)%Z)
          else if String.eqb op ">=" then Some (fun i => (v >=? i)%Z) else None
        else None
    | _, _ => None
    end.
  Definition head_rows (e : Expr) (keeplast : bool) (rows : Table) : option Table :=
    match e with
    | ELeaf (LConstant (KInt n)) => if (n <? 0)%Z then None else Some (firstn (Z.to_nat n) rows)
    | EBinary l op r => option_map (fun test => while_count test keeplast 0 rows) (count_test l op r)
    | _ => None
    end.
  (** sort: a key is descending if it is marked - , and desc turns every key around *)
  Definition sort_keys (l : list (option string * Expr)) (desc : bool) : option (list (string * bool)) :=
    all_some (map (fun k =>
      match snd k with
      | ELeaf (LConstant (KField n)) =>
          match fst k with
          | None => Some (n, desc)
          | Some s => if String.eqb s "+" then Some (n, desc) else if String.eqb s "-" then Some (n, negb desc) else None
          end
      | _ => None
      end) l).
  Definition sorted_rows (l : list (option string * Expr)) (count : Z) (desc : bool) (rows : Table) : option Table :=
    match sort_keys l desc with
    | Some (k :: keys) =>
        let all := sp_sort sp (row_le (sp_le sp) (k :: keys)) rows in
        if (count =? 0)%Z then Some all
        else if (count <? 0)%Z then None else Some (firstn (Z.to_nat count) all)
    | _ => None
    end.
  (** stats: functions of one expression, over groups of rows with equal BY fields *)
  Definition stats_functions : list (string * string) :=
    [ ("avg", "avg"); ("mean", "avg"); ("count", "count"); ("distinct_count", "count_distinct");
      ("dc", "count_distinct"); ("estdc", "approx_count_distinct"); ("max", "max"); ("min", "min");
      ("mode", "mode"); ("stdev", "stddev_samp"); ("stdevp", "stddev_pop"); ("sum", "sum");
      ("var", "var_samp"); ("varp", "var_pop"); ("list", "collect_list"); ("values", "collect_set") ]%string.
  (** What an aggregation computes from its argument's value in each row:
      [SPlain g]: g of the values; [SWith g l]: g of the values, with the option l;
      [SSquares]: the sum of their squares; [STimeOf g]: the least (greatest) time of the rows
      that have a value; [SOrdered g]: the first (last) value when rows are in order of time;
      [SRate]: the difference of the last and first value per difference in time *)
  Inductive Stat := SPlain (g : string) | SWith (g : string) (l : FArg) | SSquares | STimeOf (g : string)
    | SOrdered (g : string) | SRate.
  (** n hundredths *)
  Definition hundredths (n : Z) : string :=
    (if n mod 10 =? 0 then "0." ++ dec (n / 10) else if n <? 10 then "0.0" ++ dec n else "0." ++ dec n)%Z%string.
  (** percentile95 and the like, for 1 to 99 *)
  Definition percentiles : list (string * Stat) :=
    List.concat (map (fun k =>
      let n := Z.of_nat k in let v := ALit (num_val (hundredths n)) in
      [ ("exactperc" ++ dec n, SWith "percentile" v); ("percentile" ++ dec n, SWith "percentile_approx" v);
        ("upperperc" ++ dec n, SWith "percentile_approx" v) ]%string) (seq 1 99)).
  Definition other_stats : list (string * Stat) :=
    [ ("median", SWith "percentile_approx" (AVal (SNum "0.5")));
      ("first", SWith "first" (ALit (SBool true))); ("last", SWith "last" (ALit (SBool true)));
      ("sumsq", SSquares); ("earliest", SOrdered "first"); ("latest", SOrdered "last");
      ("earliest_time", STimeOf "min"); ("latest_time", STimeOf "max"); ("rate", SRate) ]%string.
  Fixpoint lookup_stat (f : string) (l : list (string * Stat)) : option Stat :=
    match l with
    | [] => None
    | (n, s) :: l' => if String.eqb f n then Some s else lookup_stat f l'
    end.
  Definition stat_of (f : string) : option Stat :=
    match lookup_name f stats_functions with
    | Some g => Some (SPlain g)
    | None => lookup_stat f (other_stats ++ percentiles)
    end.
  (** A function call, with or without a name for its result *)
  Definition aggregation (e : Expr) : option (string * Stat * list Expr) :=
    match e with
    | ECall f args => option_map (fun g => (f, g, args)) (stat_of f)
    | EAlias (ECall f args) n => option_map (fun g => (n, g, args)) (stat_of f)
    | _ => None
    end.
  (** Its value over a group: the argument in every row, or 1 for count without argument *)
  Definition group_value (g : Stat) (args : list Expr) (rows : Table) : option Val :=
    match args with
    | [] =>
        match g with
        | SPlain g => if String.eqb g "count" then Some (sp_agg sp g (map (fun _ => [AVal (SInt 1)]) rows)) else None
        | _ => None
        end
    | [e] =>
        match all_some (map (fun r => ev sp r e) rows) with
        | Some vs =>
            let values f := sp_agg sp f (map (fun v => [AVal v]) vs) in
            let times f := sp_agg sp f (map (fun r => [AVal (cell "_time" r)]) rows) in
            match g with
            | SPlain g => Some (values g)
            | SWith g l => Some (sp_agg sp g (map (fun v => [AVal v; l]) vs))
            | SSquares => Some (sp_agg sp "sum" (map (fun v => [AVal (lifted (sp_arith sp "*") v v)]) vs))
            | STimeOf g => if forallb not_null vs then Some (times g) else None
            | SOrdered g => Some (sp_agg sp g (map (fun v => [AVal v; ALit (SBool true)]) vs))
            | SRate =>
                if forallb not_null vs then
                  Some (lifted (sp_arith sp "/") (lifted (sp_arith sp "-") (values "last"%string) (values "first"%string))
                          (lifted (sp_arith sp "-") (times "max"%string) (times "min"%string)))
                else None
            end
        | None => None
        end
    | _ => None
    end.
  (** Some aggregations look at the rows in order of time.  (Putting the rows in order
      again, for another aggregation, does not change them.) *)
  Definition timed (g : Stat) : bool := match g with SOrdered _ | SRate => true | _ => false end.
  Definition in_time (rows : Table) : Table := sp_sort sp (row_le (sp_le sp) [("_time"%string, false)]) rows.
  Fixpoint in_order (aggs : list (string * Stat * list Expr)) (rows : Table) : Table :=
    match aggs with
    | [] => rows
    | a :: aggs' => in_order aggs' (if timed (snd (fst a)) then in_time rows else rows)
    end.
  Definition by_names (by_ : option (list MaybeSpannedField)) : option (list string) :=
    match by_ with
    | None => Some []
    | Some l => all_some (map (fun f => match msf_span f with None => Some (msf_field f) | Some _ => None end) l)
    end.
  Definition stats_rows (funcs : list Expr) (by_ : option (list MaybeSpannedField)) (rows : Table) : option Table :=
    match all_some (map aggregation funcs), by_names by_ with
    | Some aggs, Some keys =>
        let rows := in_order aggs rows in
        let groups := match keys with [] => [[]] | _ => distinct_keys [] (map (key_of keys) rows) end in
        all_some (map (fun k =>
          option_map (app (combine keys k))
            (all_some (map (fun a => option_map (pair (fst (fst a))) (group_value (snd (fst a)) (snd a) (group_rows keys rows k))) aggs)))
          groups)
    | _, _ => None
    end.
  (** addtotals: the sum of the numeric values among the listed fields, others count 0 *)
  Definition numeric (v : Val) : bool := not_null (sp_method sp "cast" v [ALit (SStr "double")]).
  Definition zero : Val := num_val "0.0".
  Definition total (fields : list string) (r : Row) : Val :=
    match map (fun f => if numeric (cell f r) then cell f r else zero) fields with
    | [] => zero
    | v :: l => fold_left (lifted (sp_arith sp "+")) l v
    end.

  (** search: rows that lack a field the condition looks at below a NOT are not covered
      (see C27 for them) *)
  Definition has_fields (l : list string) (r : Row) : bool := forallb (fun f => not_null (cell f r)) l.
  Definition search_rows (e : Expr) (rows : Table) : option Table :=
    if forallb (has_fields (negated_fields e)) rows
    then rows_where (fun r => option_map SBool (search_holds sp r e)) rows else None.
  (** spath: the value at the path in the input field's JSON text, stored in the output
      field, which is named like the path by default *)
  Definition json_value (c : SPath) (r : Row) : Val :=
    sp_fn sp "get_json_object" [AVal (cell (sp_input c) r); ALit (SStr ("$." ++ sp_path c))].

  (** convert f(x) AS y stores what eval y=f(x) does; without AS in the field itself *)
  Definition conversion (c : FieldConversion) : string * Expr :=
    (match fc_alias c with Some a => a | None => fc_field c end, ECall (fc_func c) [ELeaf (LConstant (KField (fc_field c)))]).
  Definition step1 (c : Command) (rows : Table) : option Table :=
    match c with
    | CWhere e => rows_where (fun r => ev sp r e) rows
    | CSearch e => search_rows e rows
    | CEval l => all_some (map (assign l) rows)
    | CConvert _ l => all_some (map (assign (map conversion l)) rows)
    | CRename l => all_some (map (renamed l) rows)
    | CTable l | CFields false l => Some (map (keep_cells l) rows)
    | CHead e keeplast _ => head_rows e keeplast rows
    | CSort l count desc => sorted_rows l count desc rows
    | CStats _ funcs by_ => stats_rows funcs by_ rows
    | CAddTotals a => Some (map (fun r => set_cell (at_field_name a) (total (at_fields a) r) r) rows)
    | CFillNull v None =>
        Some (map (map (fun c => if is_null (snd c) then (fst c, SStr v) else c)) rows)
    | CSPath c =>
        Some (map (fun r => set_cell (match sp_output c with Some o => o | None => sp_path c end) (json_value c r) r) rows)
    | _ => None
    end.
  Fixpoint run1 (p : list Command) (rows : Table) : option Table :=
    match p with
    | [] => Some rows
    | c :: p' => match step1 c rows with Some rows' => run1 p' rows' | None => None end
    end.
  (** join: two rows match if they agree on every field, and the right one is earlier
      (later) if asked *)
  Definition agree (op : string) (f : string) (l r : Row) : bool :=
    not_null (cell f l) && not_null (cell f r) && sp_cmp sp op (cell f l) (cell f r).
  Definition join_match (o : JoinOpts) (l r : Row) : bool :=
    forallb (fun f => agree "==" f l r) (jo_fields o)
    && (negb (jo_use_time o) || agree (if jo_earlier o then ">=" else "<=") "_time" l r).
  (** Every matching pair; left and outer also keep the left rows without a match, outer
      the right ones too *)
  Definition joined_rows (o : JoinOpts) (left right : Table) : Table :=
    let pairs l := map (app l) (filter (join_match o l) right) in
    if String.eqb (jo_type o) "inner" then List.concat (map pairs left)
    else List.concat (map (fun l => match pairs l with [] => [l] | m => m end) left)
         ++ (if String.eqb (jo_type o) "outer"
             then filter (fun r => negb (existsb (fun l => join_match o l r) left)) right else []).
End Commands.

(** ** Commands the theorems cover *)
(** A percentile has to be given a name: without, its column loses the number (see C40) *)
Definition plain_agg (e : Expr) : bool :=
  match aggregation e with
  | Some (n, _, args) =>
      plain_name_text n && match e with ECall f _ => negb (str_in f (map fst percentiles)) | _ => true end &&
      match args with
      | [] => match e with ECall f _ | EAlias (ECall f _) _ => String.eqb f "count" | _ => false end
      | [a] => plain_expr true a
      | _ => false
      end
  | None => false
  end.
Definition nonempty_list {A} (l : list A) : bool := match l with [] => false | _ => true end.
Definition is_field (e : Expr) : bool := match e with ELeaf (LConstant (KField n)) => plain_name_text n | _ => false end.
Definition plain_sort_key (k : option string * Expr) : bool :=
  is_field (snd k) && match fst k with None => true | Some s => String.eqb s "+" || String.eqb s "-" end.
Definition int64 (z : Z) : bool := ((- 2 ^ 63 <=? z) && (z <? 2 ^ 63))%Z.
Definition plain_head (e : Expr) (keeplast : bool) : bool :=
  match e with
  | ELeaf (LConstant (KInt n)) => int64 n && (0 <=? n)%Z
  | EBinary l op r =>
      match count_test l op r with
      | Some _ => match l, r with
                  | ELeaf (LConstant (KInt v)), _ | _, ELeaf (LConstant (KInt v)) => (0 <=? v)%Z && (v <? 2 ^ 63 - 2)%Z
                  | _, _ => false
                  end
      | None => false
      end
  | _ => false
  end.
Definition plain1 (c : Command) : bool :=
  match c with
  | CWhere e => plain_expr true e
  | CSearch e => plain_search e
  | CEval l => forallb (fun ne => plain_name_text (fst ne) && plain_expr true (snd ne)) l
  | CConvert _ l => forallb (fun c => str_in (fc_func c) ["memk"; "rmunit"; "rmcomma"]%string
                       && plain_name_text (fc_field c) && plain_name_text (fst (conversion c))) l
  | CRename l => forallb (fun en => is_field (fst en) && plain_name_text (snd en)) l
  | CTable l | CFields false l => nonempty_list l && forallb plain_name_text l
  | CHead e keeplast _ => plain_head e keeplast
  | CSort l count _ => nonempty_list l && forallb plain_sort_key l && int64 count && (0 <=? count)%Z
  | CStats _ funcs by_ =>
      nonempty_list funcs && forallb plain_agg funcs
      && match by_ with
         | None => true
         | Some l => forallb (fun f => match msf_span f with None => plain_between dquote (msf_field f) | Some _ => false end) l
         end
  | CAddTotals a => plain_name_text (at_field_name a) && forallb plain_name_text (at_fields a)
  | CFillNull v None => plain_between dquote v
  | CSPath c =>
      plain_name_text (sp_input c) && plain_between dquote (sp_path c)
      && plain_name_text (match sp_output c with Some o => o | None => sp_path c end)
  | _ => false
  end.

(** ** Where a pipeline's rows come from.  The first command reads the table main, unless it is
    - a search that names exactly one index among the conditions it joins with AND;
    - datamodel or tstats, which read the table of a dataset;
    - makeresults, which makes rows;
    - multisearch, which has pipelines of its own. *)
Definition index_test (l : Expr) (op : string) (r : Expr) : option string :=
  match l, r with
  | ELeaf (LConstant (KField i)), ELeaf (LConstant (KField n))
  | ELeaf (LConstant (KField i)), ELeaf (LConstant (KStr n)) =>
      if String.eqb i "index" && String.eqb op "=" && negb (String.eqb n "index") then Some n else None
  | _, _ => None
  end.
Fixpoint take_index (e : Expr) : option (string * option Expr) :=
  match e with
  | EBinary l op r =>
      match index_test l op r with
      | Some n => Some (n, None)
      | None =>
          if String.eqb op "AND" then
            match take_index l, take_index r with
            | Some (n, None), None => Some (n, Some r)
            | Some (n, Some l'), None => Some (n, Some (EBinary l' "AND" r))
            | None, Some (n, None) => Some (n, Some l)
            | None, Some (n, Some r') => Some (n, Some (EBinary l "AND" r'))
            | _, _ => None
            end
          else None
      end
  | _ => None
  end.
(** The table of a data model's dataset: root.a.b in the model m is the table m.a.b *)
Fixpoint after_dot (s : string) : option string :=
  match s with
  | EmptyString => None
  | String c s' => if Ascii.eqb c "." then Some s' else after_dot s'
  end.
Definition dataset_table (model node : option string) : option string :=
  match model, node with
  | Some m, None => Some m
  | Some m, Some n => option_map (fun rest => (m ++ "." ++ rest)%string) (after_dot n)
  | None, _ => None
  end.
(** A table and commands that give the same rows as a first command *)
Definition same_as (c : Command) : option (string * list Command) :=
  match c with
  | CSearch e =>
      match take_index e with
      | Some (n, None) => Some (n, [])
      | Some (n, Some e') => Some (n, [CSearch e'])
      | None => None
      end
  | CDataModel d =>
      match dm_search_mode d with
      | Some m => if String.eqb m "search"
                  then option_map (fun t => (t, [])) (dataset_table (dm_data_model_name d) (dm_dataset_name d)) else None
      | None => None
      end
  | CTStats o funcs model node where_ by_ None =>
      if tst_prestats o || tst_local o || tst_append o || tst_include_reduced_buckets o
         || match tst_fill_null_value o with Some _ => true | None => false end then None
      else option_map (fun t => (t, match where_ with Some e => [CWhere e] | None => [] end
                                   ++ [CStats (mkStatsOpts 1 false " " false) funcs by_])) (dataset_table model node)
  | _ => None
  end.
(** makeresults: count rows with the present time; the column id of Spark's range stays *)
Definition made_row (sp : Spark) (c : MakeResults) (i : nat) : Row :=
  [("id", SInt (Z.of_nat i)); ("_time", sp_fn sp "current_timestamp" [])]%string
  ++ (if mr_annotate c
      then [("_raw", SNull); ("host", SNull); ("source", SNull); ("sourcetype", SNull);
            ("splunk_server", SStr (mr_server c)); ("splunk_server_group", SNull)]%string else []).
Definition made_rows (sp : Spark) (c : MakeResults) : Table := map (made_row sp c) (seq 0 (Z.to_nat (mr_count c))).

Section Pipelines.
  Variable sp : Spark.
  Variable db : string -> option Table.
  Section Steps.
    Variable step : Command -> Table -> option Table.
    Fixpoint steps (p : list Command) (rows : Table) : option Table :=
      match p with
      | [] => Some rows
      | c :: p' => match step c rows with Some rows' => steps p' rows' | None => None end
      end.
    (** The rows after the first command *)
    Definition first_rows (c : Command) : option Table :=
      match same_as c with
      | Some (n, pre) => match db n with Some rows => run1 sp pre rows | None => None end
      | None =>
          match c with
          | CMakeResults m => Some (made_rows sp m)
          | CMultiSearch _ => step c []
          | _ => match db "main"%string with Some rows => step c rows | None => None end
          end
      end.
    Definition run_pipe (p : list Command) : option Table :=
      match p with
      | [] => None
      | c :: p' => match first_rows c with Some rows => steps p' rows | None => None end
      end.
  End Steps.
  Fixpoint step (c : Command) (rows : Table) {struct c} : option Table :=
    match c with
    | CJoin o p => option_map (joined_rows sp o rows) (run_pipe step p)
    | CMultiSearch ps => option_map (@List.concat Row) (all_some (map (run_pipe step) ps))
    | _ => step1 sp c rows
    end.
  Definition run : list Command -> option Table := run_pipe step.
End Pipelines.

(** ** Pipelines the theorems cover *)
Section PlainPipe.
  Variable plain : bool -> Command -> bool.
  Definition plain_first (c : Command) : bool :=
    match same_as c with
    | Some (n, pre) => plain_name_text n && forallb plain1 pre
    | None =>
        match c with
        | CMakeResults m => (0 <=? mr_count m)%Z && plain_between dquote (mr_server m)
                            && match mr_server_group m with None => true | Some _ => false end
        | _ => plain true c
        end
    end.
  Definition plain_pipe (p : list Command) : bool :=
    match p with
    | [] => false
    | c :: p' => plain_first c && forallb (plain false) p'
    end.
End PlainPipe.
Fixpoint plain_command (first : bool) (c : Command) {struct c} : bool :=
  match c with
  | CJoin o p =>
      (jo_max o =? 1)%Z && str_in (jo_type o) ["inner"; "left"; "outer"]%string
      && nonempty_list (jo_fields o) && forallb plain_name_text (jo_fields o) && plain_pipe plain_command p
  | CMultiSearch ps => first && nonempty_list ps && forallb (plain_pipe plain_command) ps
  | _ => plain1 c
  end.
Definition plain_pipeline : list Command -> bool := plain_pipe plain_command.
