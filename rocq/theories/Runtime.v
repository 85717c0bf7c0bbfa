(** The Python runtime library the generated code calls when allow_runtime=True:
    /repo/python/spl_transpiler/runtime.  Model only.

    A PySpark object (a column, a variable holding a data frame, a list of such, ...) is
    represented by the Python expression that builds it, in which no call of the library
    is left.  [None] is a Python exception.  Warnings are not modelled. *)
From Verif Require Import Str SpecPy SpecCol SpecSpark.
Open Scope list_scope.
Open Scope string_scope.

(** ** Python values *)
Inductive PV :=
| VLit (t : Py)                              (* a str, int, float, bool or None *)
| VObj (t : Py)                              (* a PySpark object *)
| VExpr (e : LibExpr)                        (* runtime/base.py 18-56, class Expr *)
| VStats (sorts : bool) (agg : option Py)    (* functions/stats.py 9-16, a StatsFunction: does it sort the frame
                                                by _time, and its aggregate (None: NotImplementedError) *)
| VModule                                    (* the module pyspark.sql.functions *)
with LibExpr :=
| EColumn (name : string)                    (* kind COLUMN *)
| ELiteral (t : Py)                          (* kind LITERAL *)
| ERaw (v : PV).                             (* kind RAW *)

(** base.py 22-39: support_plain_types.  A StatsFunction is a BaseModel without the fields
    of Expr, so it is refused. *)
Definition to_expr (v : PV) : option LibExpr :=
  match v with
  | VExpr e => Some e
  | VStats _ _ => None
  | VLit (PStr s) => Some (EColumn s)
  | VLit t => Some (ELiteral t)
  | v => Some (ERaw v)
  end.
(** base.py 41-50 *)
Definition to_pyspark_expr (e : LibExpr) : PV :=
  match e with
  | EColumn n => VObj (py_F "col" [PStr n])
  | ELiteral t => VObj (py_F "lit" [t])
  | ERaw v => v
  end.
(** The PySpark expression of a value handed to PySpark: literals and PySpark objects.
    PySpark refuses an Expr, a StatsFunction or a module. *)
Definition py_of (v : PV) : option Py := match v with VLit t | VObj t => Some t | _ => None end.
Definition expr_tree (e : LibExpr) : option Py := py_of (to_pyspark_expr e).
Definition obind {A B} (o : option A) (f : A -> option B) : option B := match o with Some a => f a | None => None end.
(** An argument for a parameter declared Expr, as the column it becomes *)
Definition arg_tree (v : PV) : option Py := obind (to_expr v) expr_tree.
(** Parameters declared int and str.  validate_call would also turn whole floats, booleans
    and numeric texts into an int; the generated code has none of them there. *)
Definition arg_int (v : PV) : option Z :=
  match v with VLit t => match lit_val t with Some (SInt z) => Some z | _ => None end | _ => None end.
Definition arg_str (v : PV) : option string := match v with VLit (PStr s) => Some s | _ => None end.
Definition py_of_int (z : Z) : Py := code_tree (dec z).

(** base.py 7-9: a result annotated as Expr is turned into one *)
Definition as_expr (t : Py) : option PV := Some (VExpr (ERaw (VObj t))).
Definition as_column (t : Py) : option PV := Some (VObj t).

(** ** functions/eval.py *)
(** Functions of one column that give an Expr: bit_not 37, md5 324, sha1 333, isnotnull 474,
    isnull 483, json_keys 606, abs 650, ceiling 659, exp 683, floor 692, ln 701, sqrt 755,
    mvcount 800, acos .. tanh 1140-1258 *)
Definition lib_unary : list (string * string) :=
  [ ("bit_not", "bitwise_not"); ("md5", "md5"); ("sha1", "sha1"); ("isnotnull", "isnotnull"); ("isnull", "isnull");
    ("json_keys", "json_object_keys"); ("abs", "abs"); ("ceiling", "ceil"); ("exp", "exp"); ("floor", "floor");
    ("ln", "log"); ("sqrt", "sqrt"); ("mvcount", "size"); ("acos", "acos"); ("acosh", "acosh"); ("asin", "asin");
    ("asinh", "asinh"); ("atan", "atan"); ("atanh", "atanh"); ("cos", "cos"); ("cosh", "cosh"); ("sin", "sin");
    ("sinh", "sinh"); ("tan", "tan"); ("tanh", "tanh") ].
(** Functions of one column without a declared result, which therefore give a column:
    len_ 1036, lower 1045, upper 1120, urldecode 1129 *)
Definition lib_unary_plain : list (string * string) :=
  [ ("len_", "length"); ("lower", "lower"); ("upper", "upper"); ("urldecode", "url_decode") ].
(** Functions of two columns that give an Expr: like 170, match 192, nullif 210, pow 730,
    atan2 1185, hypot 1221 *)
Definition lib_binary : list (string * string) :=
  [ ("like", "like"); ("match", "regexp_like"); ("nullif", "nullif"); ("pow", "pow"); ("atan2", "atan2"); ("hypot", "hypot") ].
(** Functions without parameters: false 137, null 201, true 230, now 366, time 441, pi 719,
    random 1025 *)
Definition lib_constants : list (string * Py) :=
  [ ("false", py_F "lit" [PName "False"]); ("null", py_F "lit" [PName "None"]); ("true", py_F "lit" [PName "True"]);
    ("now", py_F "current_timestamp" []); ("time", py_F "current_timestamp" []);
    ("pi", py_F "lit" [PNum "3.141592653589793"]); ("random", py_F "rand" []) ].
Fixpoint lookup_in {A} (k : string) (l : list (string * A)) : option A :=
  match l with [] => None | (k', a) :: l' => if String.eqb k k' then Some a else lookup_in k l' end.
Definition trees (args : list PV) : option (list Py) := all_some (map arg_tree args).

(** Calls of functions.eval.f.  Not listed, hence [None]: functions that always raise
    NotImplementedError (lookup 181, searchmatch 221, isbool 454, isint 465, isnum 494,
    isstr 505, typeof 516, json_object 529 .. json_extract_exact 595, json_set 617,
    json_set_exact 628, commands 778, mvdedup 811, mvfilter, mvfind, mvjoin, mvmap, mvrange,
    mvsort, mv_to_json_array, spath 1091), names the module does not define, and functions
    that raise for every argument:
    sum_ 764 and avg 968 (sum() of Python takes an iterable), max_ 988 and min_ 1012 with
    two or more arguments (the accumulated column has no to_pyspark_expr), mvappend 789
    (iterates over an Expr), mvzip 921 (hands Expr objects to PySpark), tostring 313 (calls
    to_pyspark_expr of an argument that is not converted to an Expr), validate 252 (the
    same), printf 287 and in_ 159 (a column is no list), tonumber 301 (hands the base, an int, to
    a user defined function by keyword; PySpark takes columns). *)
Definition eval_call (f : string) (args : list PV) : option PV :=
  match lookup_in f lib_unary with
  | Some g => match trees args with Some [x] => as_expr (py_F g [x]) | _ => None end
  | None =>
  match lookup_in f lib_unary_plain with
  | Some g => match trees args with Some [x] => as_column (py_F g [x]) | _ => None end
  | None =>
  match lookup_in f lib_binary with
  | Some g => match trees args with Some [x; y] => as_expr (py_F g [x; y]) | _ => None end
  | None =>
  match lookup_in f lib_constants with
  | Some t => match args with [] => as_expr t | _ => None end
  | None =>
  if String.eqb f "bit_and" then          (* 19-20: no return statement, so None, a literal *)
    match trees args with Some [_; _] => Some (VExpr (ELiteral (PName "None"))) | _ => None end
  else if String.eqb f "bit_or" then      (* 28-29 *)
    match trees args with Some [x; y] => as_expr (py_method x "bitwiseOR" [y]) | _ => None end
  else if String.eqb f "bit_xor" then     (* 48-49 *)
    match trees args with Some [x; y] => as_expr (py_method x "bitwiseXOR" [y]) | _ => None end
  else if String.eqb f "bit_shift_left" then    (* 59-60 *)
    match args with
    | [x; n] => obind (arg_tree x) (fun x => obind (arg_int n) (fun n => as_expr (py_F "shiftleft" [x; py_of_int n])))
    | _ => None
    end
  else if String.eqb f "bit_shift_right" then   (* 70-71 *)
    match args with
    | [x; n] => obind (arg_tree x) (fun x => obind (arg_int n) (fun n => as_expr (py_F "shiftright" [x; py_of_int n])))
    | _ => None
    end
  else if String.eqb f "case" then        (* 94-107: the branches are dropped and the module returned *)
    match trees args with
    | Some (_ :: l) => if Nat.odd (length l) then Some (VExpr (ERaw VModule)) else None
    | _ => None
    end
  else if String.eqb f "cidrmatch" then   (* 117-118; the user defined function is named cidr_match *)
    match trees args with Some [x; y] => as_expr (py_F "udfs.cidr_match" [x; y]) | _ => None end
  else if String.eqb f "ipmask" then      (* 278-279 *)
    match trees args with Some [x; y] => as_expr (py_F "udfs.ipmask" [x; y]) | _ => None end
  else if String.eqb f "coalesce" then    (* 128-129 *)
    match trees args with Some l => as_expr (py_F "coalesce" l) | None => None end
  else if String.eqb f "if_" then         (* 148-151 *)
    match trees args with
    | Some [c; x; y] => as_expr (py_method (py_F "when" [c; x]) "otherwise" [y])
    | _ => None
    end
  else if String.eqb f "sha256" then      (* 344-345 *)
    match trees args with Some [x] => as_expr (py_F "sha2" [x; PNum "256"]) | _ => None end
  else if String.eqb f "sha512" then      (* 355-356 *)
    match trees args with Some [x] => as_expr (py_F "sha2" [x; PNum "512"]) | _ => None end
  else if String.eqb f "relative_time" then   (* 392-405, without a span or a snap *)
    match trees args with Some [x] => as_expr (py_F "to_timestamp" [x]) | _ => None end
  else if String.eqb f "json_valid" then  (* 639-640 *)
    match trees args with
    | Some [x] => as_expr (py_method (py_F "get_json_object" [x; PStr "$"]) "isNotNull" [])
    | _ => None
    end
  else if String.eqb f "exact" then       (* 671-675 *)
    match trees args with Some [x] => as_expr (py_method x "cast" [PStr "double"]) | _ => None end
  else if String.eqb f "log" then         (* 710-711 *)
    match args with
    | [x] => obind (arg_tree x) (fun x => as_expr (py_F "log" [x; PNum "10"]))
    | [x; n] => obind (arg_tree x) (fun x => obind (arg_int n) (fun n => as_expr (py_F "log" [x; py_of_int n])))
    | _ => None
    end
  else if String.eqb f "round" then       (* 741-742 *)
    match args with
    | [x] => obind (arg_tree x) (fun x => as_expr (py_F "round" [x; PNum "0"]))
    | [x; n] => obind (arg_tree x) (fun x => obind (arg_int n) (fun n => as_expr (py_F "round" [x; py_of_int n])))
    | _ => None
    end
  else if String.eqb f "mvindex" then     (* 850-854 *)
    match args with
    | [x; n] => obind (arg_tree x) (fun x => obind (arg_int n) (fun n => as_expr (py_F "get" [x; py_of_int n])))
    | [x; n; m] =>
        obind (arg_tree x) (fun x => obind (arg_int n) (fun n => obind (arg_int m) (fun m =>
          as_expr (py_F "slice" [x; py_of_int (n + 1); py_of_int (m - n + 1)]))))
    | _ => None
    end
  else if String.eqb f "split" then       (* 945-946 *)
    match args with
    | [x; d] => obind (arg_tree x) (fun x => obind (arg_str d) (fun d => as_expr (py_F "split" [x; PStr d])))
    | _ => None
    end
  else if String.eqb f "max_" || String.eqb f "min_" then   (* 988-993, 1012-1017: one argument only *)
    match trees args with Some [x] => as_expr x | _ => None end
  else if String.eqb f "ltrim" || String.eqb f "rtrim" || String.eqb f "trim" then   (* 1056-1057, 1080-1081, 1111-1112 *)
    match args with
    | [x; s] => obind (arg_tree x) (fun x => obind (arg_str s) (fun s => as_column (py_F f [x; PStr s])))
    | _ => None
    end
  else if String.eqb f "replace" then     (* 1069-1070 *)
    match args with
    | [x; r; s] => obind (arg_tree x) (fun x => obind (arg_str r) (fun r => obind (arg_str s) (fun s =>
                     as_column (py_F "regexp_replace" [x; PStr r; PStr s]))))
    | _ => None
    end
  else if String.eqb f "substr" then      (* 1102-1103 *)
    match args with
    | [x; n; m] => obind (arg_tree x) (fun x => obind (arg_int n) (fun n => obind (arg_int m) (fun m =>
                     as_column (py_F "substring" [x; py_of_int n; py_of_int m]))))
    | _ => None
    end
  (* strftime 416 and strptime 430 need a text for the format, which the generated code never
     passes: they are left out *)
  else None
  end end end end.

(** ** functions/stats.py: functions of one column: avg 30, distinct_count 70 and dc 74, estdc 91
    (it has no validate_call, but EstdcStatsFn(x=x) converts its argument), max 149, mean 166,
    median 185, min 202, mode 219, stdev 280, stddev 297, sum_ 314, var 372, varp 389, list_ 446,
    values 463 *)
Definition stats_columns : list (string * (Py -> Py)) :=
  let fn g := fun x => py_F g [x] in
  [ ("avg", fn "avg"); ("distinct_count", fn "approx_count_distinct"); ("dc", fn "approx_count_distinct");
    ("estdc", fn "approx_count_distinct"); ("max", fn "max"); ("mean", fn "avg");
    ("median", fun x => py_F "percentile_approx" [x; PNum "0.5"]); ("min", fn "min"); ("mode", fn "mode");
    ("stdev", fn "stddev_samp"); ("stddev", fn "stddev_samp"); ("sum_", fn "sum"); ("var", fn "var_samp");
    ("varp", fn "var_pop"); ("list_", fn "collect_list"); ("values", fn "collect_set");
    ("range", fun x => PBin "-" (py_F "max" [x]) (py_F "min" [x]));            (* 263 *)
    ("sumsq", fun x => py_F "sum" [py_F "pow" [x; PNum "2"]]);                 (* 331 *)
    ("first", fun x => py_F "first" [x; PName "True"]);                        (* 410; ignorenulls is the second parameter *)
    ("last", fun x => py_F "last" [x; PName "True"]) ].                        (* 427 *)
(** Functions that sort by _time first: earliest 486, latest 525, rate 660 *)
Definition stats_sorted : list (string * (Py -> Py)) :=
  [ ("earliest", fun x => py_F "first" [x; PName "True"]);
    ("latest", fun x => py_F "last" [x; PName "True"]);
    ("rate", fun x => PBin "/" (PBin "-" (py_F "last" [x]) (py_F "first" [x]))
                      (PBin "-" (py_F "max" [py_F "col" [PStr "_time"]]) (py_F "min" [py_F "col" [PStr "_time"]]))) ].
(** Functions that refuse later: estdc_error 113, per_day 565, per_hour 587, per_minute 609,
    per_second 631.  rate_avg 715 and rate_sum 767 use window functions and are treated
    as failing too (not modelled). *)
Definition stats_refused : list string :=
  [ "estdc_error"; "per_day"; "per_hour"; "per_minute"; "per_second"; "rate_avg"; "rate_sum" ].
(** exactperc 134, percentile 244 and upperperc 355 need an int, given as a second argument *)
Definition stats_call (f : string) (args : list PV) : option PV :=
  match lookup_in f stats_columns, trees args with
  | Some g, Some [x] => Some (VStats false (Some (g x)))
  | Some _, _ => None
  | None, l =>
  match lookup_in f stats_sorted, l with
  | Some g, Some [x] => Some (VStats true (Some (g x)))
  | Some _, _ => None
  | None, _ =>
  if String.eqb f "count" then            (* 50-51, 45-46 *)
    match args with [] => Some (VStats false (Some (py_F "count" [py_F "lit" [PNum "1"]]))) | _ => None end
  else if String.eqb f "earliest_time" then   (* 504-505, 499-500 *)
    match args with [] => Some (VStats false (Some (py_F "min" [py_F "col" [PStr "_time"]]))) | _ => None end
  else if String.eqb f "latest_time" then     (* 543-544, 538-539 *)
    match args with [] => Some (VStats false (Some (py_F "max" [py_F "col" [PStr "_time"]]))) | _ => None end
  else if str_in f stats_refused then
    match l with Some [_] => Some (VStats false None) | _ => None end
  else None
  end end.

(** ** Values of Python expressions.  Calls of the library are carried out; everything else
    keeps its form, and its parts must be literals or PySpark objects.  The arguments of
    commands.* after the first one are left to the command. *)
Definition value_of (t : Py) : PV := match lit_val t with Some _ => VLit t | None => VObj t end.
Definition lib_function (f : Py) : option (string * string) :=
  match f with
  | PAttr (PAttr (PName lib) sub) name => if String.eqb lib "functions" then Some (sub, name) else None
  | _ => None
  end.
Definition is_command (f : Py) : bool :=
  match f with PAttr (PName lib) _ => String.eqb lib "commands" | _ => false end.
Definition swap {A} (kv : string * option A) : option (string * A) :=
  match snd kv with Some a => Some (fst kv, a) | None => None end.
Fixpoint lv (t : Py) : option PV :=
  let tree u := obind (lv u) py_of in
  match t with
  | PName _ | PNum _ | PStr _ => Some (value_of t)
  | PAttr e m => option_map (fun e => VObj (PAttr e m)) (tree e)
  | PUn o a => option_map (fun a => value_of (PUn o a)) (tree a)
  | PBin o a b => match tree a, tree b with Some a, Some b => Some (VObj (PBin o a b)) | _, _ => None end
  | PList l => option_map (fun l => VObj (PList l)) (all_some (map tree l))
  | PDict l =>
      option_map (fun l => VObj (PDict l))
        (all_some (map (fun kv => match tree (fst kv), tree (snd kv) with Some k, Some v => Some (k, v) | _, _ => None end) l))
  | PCall f args kwargs =>
      match lib_function f with
      | Some (sub, name) =>
          match all_some (map lv args), kwargs with
          | Some vs, [] => if String.eqb sub "eval" then eval_call name vs
                           else if String.eqb sub "stats" then stats_call name vs else None
          | _, _ => None
          end
      | None =>
          if is_command f then
            match args with
            | a :: rest => option_map (fun a => VObj (PCall f (a :: rest) kwargs)) (tree a)
            | [] => Some (VObj t)
            end
          else
            match tree f, all_some (map tree args), all_some (map (fun kv => swap (fst kv, tree (snd kv))) kwargs) with
            | Some f, Some args, Some kwargs => Some (VObj (PCall f args kwargs))
            | _, _, _ => None
            end
      end
  end.
(** The expression with the library's calls carried out *)
Definition lib (t : Py) : option Py := obind (lv t) py_of.

(** ** Commands *)
(** config.py 9-79.  An empty text counts as not given where Python asks for its truth. *)
Record Lookup := mkLookup {
  lk_index : option string; lk_source : option string; lk_source_type : option string; lk_host : option string;
  lk_host_tag : option string; lk_event_type : option string; lk_event_type_tag : option string;
  lk_saved_splunk : option string; lk_splunk_server : option string }.
Definition given (o : option string) : option string := match o with Some "" => None | o => o end.
Definition some_list {A} (o : option A) : list A := match o with Some a => [a] | None => [] end.

Section Library.
  Variable sp : Spark.
  Variable db : string -> option Table.
  (** DataFrame.dtypes: the type of a column of a table *)
  Variable column_type : Table -> string -> option string.

  Fixpoint where_all (conds : list Py) (rows : Table) : option Table :=
    match conds with
    | [] => Some rows
    | c :: l => obind (keep_where sp c rows) (where_all l)
    end.
  Definition table_lookup (k : Lookup) : option Table :=
    let test (col : string) (v : option string) : list Py :=
      some_list (option_map (fun s => PBin "==" (py_F "col" [PStr col]) (PStr s)) v) in
    let rest := List.concat
      [ test "_host" (lk_host k); test "_hosttag" (lk_host_tag k); test "_eventtype" (lk_event_type k);
        test "_eventtypetag" (lk_event_type_tag k); test "_savedsearch" (lk_saved_splunk k);
        test "_splunk_server" (lk_splunk_server k) ] in
    match given (lk_index k) with
    | Some n => obind (db n) (where_all (test "_source" (lk_source k) ++ test "_sourcetype" (lk_source_type k) ++ rest)%list)
    | None =>
        match (some_list (given (lk_source k)) ++ some_list (given (lk_source_type k)))%list with
        | [] => None
        | names => obind (db (join "_" (names ++ ["silver"])%list)) (where_all rest)
        end
    end.

  (** Keyword arguments by name; the arguments that are not named parameters *)
  Definition keyword (k : string) (kwargs : list (string * Py)) : option Py := lookup_in k kwargs.
  Definition others (params : list string) (kwargs : list (string * Py)) : list (string * Py) :=
    filter (fun kv => negb (str_in (fst kv) params)) kwargs.
  Definition lib_expr (t : Py) : option Py := obind (lv t) arg_tree.
  Definition named_exprs (kwargs : list (string * Py)) : option (list (string * Py)) :=
    all_some (map (fun kv => swap (fst kv, lib_expr (snd kv))) kwargs).

  (** commands/search.py 9-45.  The nine named parameters take texts. *)
  Definition search_params : list string :=
    [ "index"; "source"; "source_type"; "host"; "host_tag"; "event_type"; "event_type_tag"; "saved_splunk"; "splunk_server" ].
  Definition text_keyword (k : string) (kwargs : list (string * Py)) : option (option string) :=
    match keyword k kwargs with
    | None => Some None
    | Some (PStr s) => Some (Some s)
    | Some _ => None
    end.
  Definition search_condition (exprs : list Py) (fields : list (string * Py)) : Py :=
    fold_left (PBin "&") (exprs ++ map (fun kv => PBin "==" (py_F "col" [PStr (fst kv)]) (snd kv)) fields)%list
              (py_F "lit" [PName "True"]).
  Definition search_lookup (kwargs : list (string * Py)) : option Table :=
    match all_some (map (fun k => text_keyword k kwargs) search_params) with
    | Some [a; b; c; d; e; f; g; h; i] => table_lookup (mkLookup a b c d e f g h i)
    | _ => None
    end.
  Definition run_search (df : option Obj) (args : list Py) (kwargs : list (string * Py)) : option Obj :=
    if str_in "df" (map fst kwargs) then None else
    match all_some (map lib_expr args), named_exprs (others search_params kwargs) with
    | Some exprs, Some fields =>
        match df with
        | None =>
            obind (search_lookup kwargs) (fun rows =>
              option_map (OFrame None) (keep_where sp (search_condition exprs fields) rows))
        | Some (OFrame alias rows) => option_map (OFrame alias) (keep_where sp (search_condition exprs fields) rows)
        | Some _ => None
        end
    | _, _ => None
    end.

  (** commands/eval.py 6-10 *)
  Fixpoint with_columns (l : list (string * Py)) (rows : Table) : option Table :=
    match l with
    | [] => Some rows
    | (n, c) :: l' =>
        obind (map_rows (fun r => option_map (fun v => set_cell n v r) (cv sp r c)) rows) (with_columns l')
    end.
  Definition run_eval (df : option Obj) (args : list Py) (kwargs : list (string * Py)) : option Obj :=
    if str_in "df" (map fst kwargs) then None else
    match df, args, named_exprs kwargs with
    | Some (OFrame alias rows), [], Some l => option_map (OFrame alias) (with_columns l rows)
    | _, _, _ => None
    end.

  (** commands/fill_null.py 6-23 *)
  Definition column_names (rows : Table) : list string := nodup string_dec (List.concat (map (map fst) rows)).
  Definition fill_field (value ty f : string) (r : Row) : Row :=
    set_cell f (if is_null (cell f r) then sp_method sp "cast" (SStr value) [ALit (SStr ty)] else cell f r) r.
  Fixpoint fill_fields (types : string -> option string) (value : string) (fields : list string) (rows : Table) : option Table :=
    match fields with
    | [] => Some rows
    | f :: fs => match types f with
                 | Some ty => fill_fields types value fs (map (fill_field value ty f) rows)
                 | None => None
                 end
    end.
  Definition fill_null (value : string) (fields : option (list string)) (rows : Table) : option Table :=
    fill_fields (column_type rows) value (match fields with Some l => l | None => column_names rows end) rows.
  Definition str_list (t : Py) : option (option (list string)) :=
    match t with
    | PName n => if String.eqb n "None" then Some None else None
    | PList l => option_map Some (str_items l)
    | _ => None
    end.
  Definition run_fill_null (df : option Obj) (args : list Py) (kwargs : list (string * Py)) : option Obj :=
    match others ["value"; "fields"] kwargs with
    | _ :: _ => None
    | [] =>
        match df, args, keyword "value" kwargs, match keyword "fields" kwargs with Some t => str_list t | None => Some None end with
        | Some (OFrame alias rows), [], Some (PStr v), Some fields => option_map (OFrame alias) (fill_null v fields rows)
        | _, _, _, _ => None
        end
    end.

  (** commands/stats.py 7-22.  A BY column other than a named one is not modelled. *)
  Definition column_name (t : Py) : option string :=
    match t with
    | PCall (PAttr (PName f) m) [PStr n] [] => if String.eqb f "F" && String.eqb m "col" then Some n else None
    | _ => None
    end.
  Definition by_columns (t : option Py) : option (list string) :=
    match t with
    | None => Some []
    | Some (PList l) => all_some (map (fun u => obind (lib_expr u) column_name) l)
    | Some _ => None
    end.
  Definition stats_functions_of (kwargs : list (string * Py)) : option (list (string * (bool * option Py))) :=
    all_some (map (fun kv => match lv (snd kv) with Some (VStats s a) => Some (fst kv, (s, a)) | _ => None end) kwargs).
  Definition by_time (rows : Table) : Table := sp_sort sp (row_le (sp_le sp) [("_time", false)]) rows.
  Fixpoint stats_aggs (l : list (string * (bool * option Py))) (rows : Table) : option (Table * list Py) :=
    match l with
    | [] => Some (rows, [])
    | (label, (sorts, Some a)) :: l' =>
        option_map (fun p => (fst p, py_method a "alias" [PStr label] :: snd p))
          (stats_aggs l' (if sorts then by_time rows else rows))
    | (_, (_, None)) :: _ => None
    end.
  Definition stats (rows : Table) (by_ : list string) (funcs : list (string * (bool * option Py))) : option Obj :=
    match stats_aggs funcs rows with
    | Some (rows', (_ :: _) as aggs) => option_map (OFrame None) (aggregate sp by_ rows' aggs)
    | _ => None
    end.
  Definition run_stats (df : option Obj) (args : list Py) (kwargs : list (string * Py)) : option Obj :=
    if str_in "df" (map fst kwargs) then None else
    match df, args, by_columns (keyword "by" kwargs), stats_functions_of (others ["by"] kwargs) with
    | Some (OFrame _ rows), [], Some by_, Some funcs => stats rows by_ funcs
    | _, _, _, _ => None
    end.

  (** commands/data_model.py 10-44: the table of a dataset *)
  Definition data_model (name : string) (dataset : option string) : option Table :=
    table_lookup (mkLookup
      (Some (join "." (split_on "." name ++ tl (split_on "." (match dataset with Some d => d | None => "" end)))%list))
      None None None None None None None None).
  (** A call with a positional argument gives data_model_name, which is the first parameter: as
      a keyword it is then given twice, and neither None nor a data frame is a text *)
  Definition run_data_model (df : option Obj) (args : list Py) (kwargs : list (string * Py)) : option Obj := None.

  (** commands/tstats.py 11-56 *)
  Definition specifier (t : option Py) : option (option (string * option string)) :=
    match t with
    | None => Some None
    | Some (PDict [(PStr k1, PStr m); (PStr k2, n)]) =>
        if String.eqb k1 "datamodel" && String.eqb k2 "nodename" then
          match n with
          | PStr n => Some (Some (m, Some n))
          | PName x => if String.eqb x "None" then Some (Some (m, None)) else None
          | _ => None
          end
        else None
    | Some _ => None
    end.
  Definition run_tstats (df : option Obj) (args : list Py) (kwargs : list (string * Py)) : option Obj :=
    if str_in "df" (map fst kwargs) then None else
    match args, specifier (keyword "from_" kwargs), by_columns (keyword "by" kwargs),
          stats_functions_of (others ["fill_null_value"; "from_"; "where"; "by"] kwargs) with
    | [], Some from_, Some by_, Some funcs =>
        let table := match df, from_ with
                     | None, Some (m, n) => data_model m n
                     | Some (OFrame _ rows), None => Some rows
                     | _, _ => None
                     end in
        let table := match keyword "fill_null_value" kwargs with
                     | None => table
                     | Some (PStr v) => obind table (fill_null v None)
                     | Some _ => None
                     end in
        let table := match keyword "where" kwargs with
                     | None => table
                     | Some w => obind (lib_expr w) (fun c => obind table (keep_where sp c))
                     end in
        obind table (fun rows => stats rows by_ funcs)
    | _, _, _, _ => None
    end.

  (** commands/__init__.py: the functions of the module commands *)
  Definition library (m : string) (df : option Obj) (args : list Py) (kwargs : list (string * Py)) : option Obj :=
    if String.eqb m "search" then run_search df args kwargs
    else if String.eqb m "eval" then run_eval df args kwargs
    else if String.eqb m "fill_null" then run_fill_null df args kwargs
    else if String.eqb m "stats" then run_stats df args kwargs
    else if String.eqb m "data_model" then run_data_model df args kwargs
    else if String.eqb m "tstats" then run_tstats df args kwargs
    else None.

  (** The object a Python text computes when it is run with the library *)
  Definition runs (code : string) (o : Obj) : Prop :=
    exists assignments result assignments' result',
      python_program code assignments result /\
      all_some (map (fun xt => swap (fst xt, lib (snd xt))) assignments) = Some assignments' /\
      lib result = Some result' /\
      exec sp db library [] assignments' result' = Some o.
End Library.
