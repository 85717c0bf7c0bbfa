(** SPL function calls: /repo/src/functions/{mod,shared,eval_fns,stat_fns,convert_fns}.rs
    and the helpers of /repo/src/pyspark/transpiler/utils.rs. *)
From Verif Require Import Str SplAst PyAst.

(** src/pyspark/base.rs 8-14 *)
Inductive Rt := Disallow | Allow | Require.

(** src/pyspark/transpiler/utils.rs 4-25: left fold, no unaliasing. *)
Definition join_as_binaries (op : string) (l : list ColumnLike) : option ColumnLike :=
  match l with
  | nil => None
  | c :: l' => Some (fold_left (fun acc x => CBinaryOp op (PCol acc) (PCol x)) l' c)
  end.

(** src/pyspark/transpiler/utils.rs 115-166 *)
Definition CONVERSIONS : list (string * option string) :=
  [ ("%c", None); ("%+", None); ("%Ez", None); ("%f", Some "SSS"); ("%H", Some "HH");
    ("%I", Some "hh"); ("%k", Some "H"); ("%M", Some "mm"); ("%N", Some "SSS");
    ("%p", Some "a"); ("%Q", Some "SSS"); ("%3Q", Some "SSS"); ("%6Q", Some "SSSSSS");
    ("%9Q", Some "SSSSSSSSS"); ("%S", Some "ss"); ("%s", None); ("%T", Some "HH:mm:ss");
    ("%X", None); ("%Z", Some "z"); ("%z", Some "x"); ("%:z", Some "xxxx");
    ("%::z", Some "xxxxxx"); ("%:::z", Some "xx"); ("%F", Some "yyyy-MM-dd"); ("%x", None);
    ("%A", Some "EEEE"); ("%a", Some "EEE"); ("%d", Some "dd"); ("%e", Some "d");
    ("%j", Some "D"); ("%w", Some "e"); ("%b", Some "MMM"); ("%B", Some "MMMM");
    ("%m", Some "MM"); ("%y", Some "yy"); ("%Y", Some "yyyy"); ("%%", Some "%") ]%string.

(** src/pyspark/transpiler/utils.rs 168-181, the loop body *)
Fixpoint convert_time_go (convs : list (string * option string)) (fmt : string) : res string :=
  match convs with
  | nil => Ok fmt
  | (original, replacement) :: rest =>
      if contains original fmt then
        match replacement with
        | None => Err
        | Some r => convert_time_go rest (replace_all original r fmt)
        end
      else convert_time_go rest fmt
  end.
(** src/pyspark/transpiler/utils.rs 168-181 *)
Definition convert_time_format (fmt : string) : res string := convert_time_go CONVERSIONS fmt.

(** ** Argument conversion, src/functions/mod.rs 11-84.
    An argument is the raw SPL expression together with its conversion, which the
    Rust code recomputes on demand. *)
Definition Arg := (Expr * res PExpr)%type.

(** mod.rs 69-76 at type Expr *)
Definition arg_expr (a : Arg) : res PExpr := rmap pe_unaliased (snd a).
(** mod.rs 11-22 *)
Definition arg_int (a : Arg) : res Z :=
  match fst a with ELeaf (LConstant (KInt z)) => Ok z | _ => Err end.
(** mod.rs 36-67 *)
Definition expr_to_string (e : Expr) : res string :=
  match e with
  | ELeaf (LConstant (KStr s)) | ELeaf (LConstant (KField s)) | ELeaf (LConstant (KWildcard s))
  | ELeaf (LConstant (KVariable s)) | ELeaf (LConstant (KIPv4CIDR s)) => Ok s
  | _ => Err
  end.
Definition arg_str (a : Arg) : res string := expr_to_string (fst a).
(** mod.rs 78-84 at type Expr *)
Definition map_args (l : list Arg) : res (list PExpr) := rtraverse arg_expr l.

(** mod.rs 112-137: what function_transform! does with the block's value. *)
Definition ft_out (name : string) (c : ColumnLike) : ColumnLike :=
  c_aliased (PCol (cl_unaliased c)) name.
(** The same when the block yields an Expr (max, min). *)
Definition ft_out_e (name : string) (e : PExpr) : ColumnLike := c_aliased (pe_unaliased e) name.

(** The exact-arity form [args] with Expr parameters only. *)
Definition ft0 (name : string) (args : list Arg) (body : res ColumnLike) : res ColumnLike :=
  match args with nil => rmap (ft_out name) body | _ => Err end.
Definition ft1 (name : string) (args : list Arg) (body : PExpr -> res ColumnLike) : res ColumnLike :=
  match args with
  | [a] => let? x := arg_expr a in rmap (ft_out name) (body x)
  | _ => Err
  end.
Definition ft2 (name : string) (args : list Arg) (body : PExpr -> PExpr -> res ColumnLike) : res ColumnLike :=
  match args with
  | [a; b] => let? x := arg_expr a in let? y := arg_expr b in rmap (ft_out name) (body x y)
  | _ => Err
  end.
(** (x, n: i64) *)
Definition ft_ei (name : string) (args : list Arg) (body : PExpr -> Z -> res ColumnLike) : res ColumnLike :=
  match args with
  | [a; b] => let? x := arg_expr a in let? n := arg_int b in rmap (ft_out name) (body x n)
  | _ => Err
  end.
(** (x, s: String) *)
Definition ft_es (name : string) (args : list Arg) (body : PExpr -> string -> res ColumnLike) : res ColumnLike :=
  match args with
  | [a; b] => let? x := arg_expr a in let? s := arg_str b in rmap (ft_out name) (body x s)
  | _ => Err
  end.
(** The form [args -> mapped] () *)
Definition ft_map (name : string) (args : list Arg) (body : list PExpr -> res ColumnLike) : res ColumnLike :=
  let? l := map_args args in rmap (ft_out name) (body l).

(** ** src/functions/shared.rs *)
(** shared.rs 5-11 *)
Definition ctime (c : PExpr) (timeformat : string) : res ColumnLike :=
  let? f := convert_time_format timeformat in Ok (c_func "date_format" [c; pylit_str f]).

Definition memk_regex : string := "(?i)^(\d*\.?\d+)([kmg])$".
(** shared.rs 14-28 *)
Definition memk (c : PExpr) : ColumnLike :=
  let num_val := pfun "regexp_extract" [c; pylit_str memk_regex; pylit_int 1] in
  let num_val := pmeth num_val "cast" [pylit_str "double"] in
  let unit := pfun "upper" [pfun "regexp_extract" [c; pylit_str memk_regex; pylit_int 2]] in
  let is_k := pbin unit "==" (plit (dq ++ "K" ++ dq)) in
  let is_m := pbin unit "==" (plit (dq ++ "M" ++ dq)) in
  let is_g := pbin unit "==" (plit (dq ++ "G" ++ dq)) in
  let s := pfun "when" [is_k; plit "1.0"] in
  let s := pmeth s "when" [is_m; plit "1024.0"] in
  let s := pmeth s "when" [is_g; plit "1048576.0"] in
  let s := pmeth s "otherwise" [plit "1.0"] in
  c_binary num_val "*" s.
(** shared.rs 31-33 *)
Definition rmcomma (c : PExpr) : ColumnLike :=
  c_method (pfun "regexp_replace" [c; pylit_str ","; pylit_str ""]) "cast" [pylit_str "double"].
Definition rmunit_regex : string := "(?i)^(\d*\.?\d+)(\w*)$".
(** shared.rs 36-39 *)
Definition rmunit (c : PExpr) : ColumnLike :=
  c_method (pfun "regexp_extract" [c; pylit_str rmunit_regex; pylit_int 1]) "cast" [pylit_str "double"].

(** ** src/functions/eval_fns.rs *)
(** eval_fns.rs 152-156 *)
Definition offset_time (t : PExpr) (o : TimeSpan) : ColumnLike :=
  c_binary t "+" (pexpr_sql ("INTERVAL " ++ dec (ts_value o) ++ " " ++ upper (ts_scale o))%string).

(** Lookup in a literal match: string keys are distinct. *)
Fixpoint assoc {A} (k : string) (l : list (string * A)) : option A :=
  match l with
  | nil => None
  | (k', a) :: l' => if String.eqb k k' then Some a else assoc k l'
  end.

(** eval_fns.rs 158-172 *)
Definition round_units : list (string * string) :=
  [ ("years", "year"); ("months", "month"); ("weeks", "week"); ("days", "day");
    ("hours", "hour"); ("minutes", "minute"); ("seconds", "second");
    ("milliseconds", "millisecond"); ("microseconds", "microsecond") ]%string.
Definition round_time (t : PExpr) (scale : string) : res ColumnLike :=
  match assoc scale round_units with
  | Some r => Ok (c_func "date_trunc" [pylit_str r; t])
  | None => Err
  end.

(** eval_fns.rs 247-260 and 300-313: when(c1,v1).when(c2,v2)... ; [neg] wraps each
    condition in ~ (validate). *)
Fixpoint when_chain (neg : bool) (acc : option ColumnLike) (l : list PExpr) : option (option ColumnLike) :=
  match l with
  | nil => Some acc
  | c :: v :: rest =>
      let c := if neg then pnot c else c in
      when_chain neg (Some (match acc with
                            | None => c_func "when" [c; v]
                            | Some a => c_method (PCol a) "when" [c; v]
                            end)) rest
  | _ :: nil => None
  end.
Definition case_body (neg : bool) (l : list PExpr) : res ColumnLike :=
  match when_chain neg None l with
  | Some (Some c) => Ok c
  | _ => Err
  end.

(** eval_fns.rs 568-606: fold of a binary combination over the arguments *)
Definition fold_args (f : PExpr -> PExpr -> PExpr) (l : list PExpr) : option PExpr :=
  match l with nil => None | c :: l' => Some (fold_left f l' c) end.

(** eval_fns.rs 282, 294, 317, 321, 384-406, 410-436, 442-448, 481, 491, 503-513,
    525-539, 558, 630: functions that always bail. *)
Definition eval_unsupported : list string :=
  [ "lookup"; "searchmatch"; "ipmask"; "printf"; "isbool"; "isint"; "isnum"; "isstr"; "typeof";
    "json_object"; "json_append"; "json_array"; "json_array_to_mv"; "json_extend"; "json_extract";
    "json_extract_exact"; "json_set"; "json_set_exact"; "sigfig"; "commands"; "mvdedup";
    "mvfilter"; "mvfind"; "mvjoin"; "mvmap"; "mvrange"; "mvsort"; "mv_to_json_array"; "spath" ]%string.

(** eval_fns.rs, one-argument functions of the form name (x) => g(x):
    231, 335, 337, 392, 394, 438, 456, 458, 465, 467, 469, 485, 487, 499, 612, 614,
    640, 642, 646-654, 658-662, 666-672. *)
Definition eval_unary : list (string * string) :=
  [ ("bit_not", "bitwise_not"); ("md5", "md5"); ("sha1", "sha1"); ("isnotnull", "isnotnull");
    ("isnull", "isnull"); ("json_keys", "json_object_keys"); ("abs", "abs"); ("ceiling", "ceil");
    ("exp", "exp"); ("floor", "floor"); ("ln", "log"); ("sqrt", "sqrt"); ("sum", "sum");
    ("mvcount", "size"); ("len", "length"); ("lower", "lower"); ("upper", "upper");
    ("urldecode", "url_decode"); ("acos", "acos"); ("acosh", "acosh"); ("asin", "asin");
    ("asinh", "asinh"); ("atan", "atan"); ("atanh", "atanh"); ("cos", "cos"); ("cosh", "cosh");
    ("sin", "sin"); ("sinh", "sinh"); ("tan", "tan"); ("tanh", "tanh") ]%string.

(** eval_fns.rs, two-argument functions of the form name (x, y) => g(x, y):
    279, 287, 292, 471, 475, 617, 627, 638, 656, 664. *)
Definition eval_binary : list (string * string) :=
  [ ("like", "like"); ("match", "regexp_like"); ("nullif", "nullif"); ("log", "log");
    ("pow", "pow"); ("ltrim", "ltrim"); ("rtrim", "rtrim"); ("trim", "trim");
    ("atan2", "atan2"); ("hypot", "hypot") ]%string.

(** eval_fns.rs 216-693.  The first component of each pair passed to [ft*] is the
    alias written in the macro call, which is not always the function's own name
    (memk for rmunit, bit_or for bit_xor, now for relative_time, ...). *)
Definition eval_fn_bare (name : string) (args : list Arg) : res ColumnLike :=
  if existsb (String.eqb name) eval_unsupported then Err else
  match assoc name eval_unary with
  | Some g => ft1 name args (fun x => Ok (c_func g [x]))
  | None =>
  match assoc name eval_binary with
  | Some g => ft2 name args (fun x y => Ok (c_func g [x; y]))
  | None =>
  if String.eqb name "memk" then ft1 "memk" args (fun c => Ok (memk c))
  else if String.eqb name "rmunit" then ft1 "memk" args (fun c => Ok (rmunit c))
  else if String.eqb name "rmcomma" then ft1 "memk" args (fun c => Ok (rmcomma c))
  else if String.eqb name "bit_and" then
    ft2 "bit_and" args (fun a b => Ok (c_method a "bitwiseAND" [b]))
  else if String.eqb name "bit_or" then
    ft2 "bit_or" args (fun a b => Ok (c_method a "bitwiseOR" [b]))
  else if String.eqb name "bit_xor" then
    ft2 "bit_or" args (fun a b => Ok (c_method a "bitwiseXOR" [b]))
  else if String.eqb name "bit_shift_left" then
    ft_ei "bit_not" args (fun x n => Ok (c_func "shiftleft" [x; pylit_int n]))
  else if String.eqb name "bit_shift_right" then
    ft_ei "bit_not" args (fun x n => Ok (c_func "shiftright" [x; pylit_int n]))
  else if String.eqb name "case" then ft_map "case" args (case_body false)
  else if String.eqb name "validate" then ft_map "validate" args (case_body true)
  else if String.eqb name "cidrmatch" then
    match args with
    | [a; b] =>
        let? cidr := arg_str a in let? col := arg_str b in
        Ok (ft_out "cidrmatch"
              (c_func "expr" [pylit_str ("cidr_match('" ++ cidr ++ "', " ++ col ++ ")")%string]))
    | _ => Err
    end
  else if String.eqb name "coalesce" then ft_map "coalesce" args (fun l => Ok (c_func "coalesce" l))
  else if String.eqb name "false" then ft0 "false" args (Ok (CLiteral "False"))
  else if String.eqb name "true" then ft0 "true" args (Ok (CLiteral "True"))
  else if String.eqb name "null" then ft0 "null" args (Ok (CLiteral "None"))
  else if String.eqb name "if" then
    match args with
    | [a; b; c] =>
        let? x := arg_expr a in let? y := arg_expr b in let? z := arg_expr c in
        Ok (ft_out "if" (c_method (pfun "when" [x; y]) "otherwise" [z]))
    | _ => Err
    end
  else if String.eqb name "in" then ft2 "in" args (fun x v => Ok (c_method x "isin" [v]))
  else if String.eqb name "tonumber" then
    match args with
    | a :: rest =>
        let? x := arg_expr a in let? m := map_args rest in
        match m with
        | nil => Ok (ft_out "tonumber" (c_method x "cast" [pylit_str "double"]))
        | _ => Err
        end
    | nil => Err
    end
  else if String.eqb name "tostring" then
    match args with
    | a :: rest =>
        let? x := arg_expr a in let? m := map_args rest in
        match m with
        | nil => Ok (ft_out "tostring" (c_method x "cast" [pylit_str "string"]))
        | _ => Err
        end
    | nil => Err
    end
  else if String.eqb name "sha256" then ft1 "sha256" args (fun x => Ok (c_func "sha2" [x; pylit_int 256]))
  else if String.eqb name "sha512" then ft1 "sha512" args (fun x => Ok (c_func "sha2" [x; pylit_int 512]))
  else if String.eqb name "now" then ft0 "now" args (Ok (c_func "current_timestamp" []))
  else if String.eqb name "time" then ft0 "time" args (Ok (c_func "current_timestamp" []))
  else if String.eqb name "relative_time" then
    match args with
    | a :: rest =>
        let? t := arg_expr a in
        match rest with
        | (ELeaf (LConstant (KSnapTime s)), _) :: _ =>
            let t := c_func "to_timestamp" [t] in
            let t := match sn_span s with None => t | Some sp => offset_time (PCol t) sp end in
            let? t := round_time (PCol t) (sn_snap s) in
            Ok (ft_out "now"
                  (match sn_offset s with None => t | Some o => offset_time (PCol t) o end))
        | _ => Err
        end
    | nil => Err
    end
  else if String.eqb name "strftime" then
    ft_es "strftime" args (fun d f =>
      let? g := convert_time_format f in Ok (c_func "date_format" [d; pylit_str g]))
  else if String.eqb name "strptime" then
    ft_es "strptime" args (fun d f =>
      let? g := convert_time_format f in Ok (c_func "to_timestamp" [d; pylit_str g]))
  else if String.eqb name "json_valid" then
    ft1 "json_valid" args (fun x =>
      Ok (c_method (pfun "get_json_object" [x; pylit_str "$"]) "isNotNull" []))
  else if String.eqb name "exact" then ft1 "exact" args (fun x => Ok (c_method x "cast" [pylit_str "double"]))
  else if String.eqb name "pi" then ft0 "pi" args (Ok (CLiteral "3.141592653589793"))
  else if String.eqb name "round" then
    ft_ei "round" args (fun x n => Ok (c_func "round" [x; pylit_int n]))
  else if String.eqb name "mvappend" then ft_map "mvappend" args (fun l => Ok (c_func "concat" l))
  else if String.eqb name "mvindex" then
    match args with
    | a :: b :: rest =>
        let? x := arg_expr a in let? start := arg_int b in
        match rest with
        | nil => Ok (ft_out "mvindex" (c_func "get" [x; pylit_int start]))
        | c :: _ =>
            let? end_ := arg_int c in
            Ok (ft_out "mvindex"
                  (c_func "slice" [x; pylit_int (wrap64 (start + 1));
                                   pylit_int (wrap64 (wrap64 (end_ - start) + 1))]))
        end
    | _ => Err
    end
  else if String.eqb name "mvzip" then
    match args with
    | a :: b :: rest =>
        let? lhs := arg_expr a in let? rhs := arg_expr b in
        let? _ := map_args rest in
        let? delim := match rest with nil => Ok ","%string | d :: _ => arg_str d end in
        Ok (ft_out "mvzip"
              (c_func "zip_with" [lhs; rhs;
                 PyLit ("lambda left_, right_: F.concat_ws(r" ++ dq ++ delim ++ dq ++ ", left_, right_)")%string]))
    | _ => Err
    end
  else if String.eqb name "split" then
    ft_es "split" args (fun x d => Ok (c_func "split" [x; pylit_str d]))
  else if String.eqb name "avg" then
    ft_map "avg" args (fun l =>
      match fold_args (fun v c => pbin v "+" c) l with
      | Some v => Ok (c_binary v "/" (pylit_int (Z.of_nat (length l))))
      | None => Err
      end)
  else if String.eqb name "max" then
    let? l := map_args args in
    match fold_args (fun v c => pfun "greatest" [v; c]) l with
    | Some v => Ok (ft_out_e "max" v)
    | None => Err
    end
  else if String.eqb name "min" then
    let? l := map_args args in
    match fold_args (fun v c => pfun "least" [v; c]) l with
    | Some v => Ok (ft_out_e "min" v)
    | None => Err
    end
  else if String.eqb name "random" then ft0 "random" args (Ok (c_func "rand" []))
  else if String.eqb name "replace" then
    match args with
    | [a; b; c] =>
        let? x := arg_expr a in let? regex := arg_str b in let? repl := arg_str c in
        Ok (ft_out "replace" (c_func "regexp_replace" [x; pylit_str regex; pylit_str repl]))
    | _ => Err
    end
  else if String.eqb name "substr" then
    match args with
    | [a; b; c] =>
        let? x := arg_expr a in let? start := arg_int b in let? len := arg_int c in
        Ok (ft_out "substr" (c_func "substring" [x; pylit_int start; pylit_int len]))
    | _ => Err
    end
  else
    let? l := map_args args in
    Ok (CAliased (PCol (CFunctionCall name l)) name)
  end end.

(** eval_fns.rs 200-208: names that would clash with Python keywords or builtins *)
Definition runtime_eval_name (name : string) : string :=
  if existsb (String.eqb name) ["if"; "in"; "len"; "sum"; "max"; "min"]%string
  then (name ++ "_")%string else name.

(** eval_fns.rs 187-214 *)
Definition eval_fn_runtime (name : string) (args : list Arg) : res ColumnLike :=
  if String.eqb name "cidrmatch" then
    match args with
    | [a; b] =>
        let? cidr := arg_str a in let? col := arg_expr b in
        Ok (ft_out "cidrmatch" (CFunctionCall "functions.eval.cidrmatch" [pylit_str cidr; col]))
    | _ => Err
    end
  else
    let? l := map_args args in
    Ok (CFunctionCall ("functions.eval." ++ runtime_eval_name name)%string l).

(** eval_fns.rs 174-185 *)
Definition eval_fn (rt : Rt) (name : string) (args : list Arg) : res ColumnLike :=
  match rt with
  | Disallow => eval_fn_bare name args
  | Require => eval_fn_runtime name args
  | Allow => ror_else (eval_fn_runtime name args) (eval_fn_bare name args)
  end.

(** ** src/functions/stat_fns.rs *)
(** A decimal digit string as a number. *)
Fixpoint digits_val (acc : Z) (s : string) : Z :=
  match s with
  | EmptyString => acc
  | String c s' => digits_val (acc * 10 + Z.of_N (code c - 48))%Z s'
  end.
(** [str::parse::<u32>]: optional leading plus, digits, no overflow. *)
Definition parse_u32 (s : string) : res Z :=
  let d := match s with String c s' => if Ascii.eqb c "+"%char then s' else s | _ => s end in
  if String.eqb d "" then Err
  else if sforall is_digit d then
    let v := digits_val 0 d in if (v <? 2 ^ 32)%Z then Ok v else Err
  else Err.

(** Rust Display of (n as f64 / 100.0) for a u32 n: exact decimal, trailing zeros
    dropped (at most ten significant digits, so the shortest round-trip form). *)
Definition dec_hundredths (n : Z) : string :=
  let q := (n / 100)%Z in let r := (n mod 100)%Z in
  (dec q ++ (if r =? 0 then "" else
             if r mod 10 =? 0 then "." ++ dec (r / 10)
             else if r <? 10 then ".0" ++ dec r else "." ++ dec r)%Z)%string.

(** stat_fns.rs, one-argument functions of the form name (x) => g(x):
    114, 124, 127, 129, 145, 147, 153, 155, 168-172, 182, 184, 196, 198 *)
Definition stats_unary : list (string * string) :=
  [ ("avg", "avg"); ("distinct_count", "count_distinct"); ("dc", "count_distinct");
    ("estdc", "approx_count_distinct"); ("max", "max"); ("mean", "avg"); ("min", "min");
    ("mode", "mode"); ("stdev", "stddev_samp"); ("stdevp", "stddev_pop"); ("sum", "sum");
    ("var", "var_samp"); ("varp", "var_pop"); ("list", "collect_list"); ("values", "collect_set") ]%string.

(** stat_fns.rs 133, 220-238, 249-257 *)
Definition stats_unsupported : list string :=
  [ "estdc_error"; "per_day"; "per_hour"; "per_minute"; "per_second"; "rate_avg"; "rate_sum" ]%string.

(** stat_fns.rs 203, 212, 241 *)
Definition order_by_time (d : DataFrame) : DataFrame :=
  DOrderBy d [c_method (pcol "_time") "asc" []].

(** stat_fns.rs 138, 157, 176 *)
Definition stats_perc (alias func prefix name : string) (args : list Arg) : res ColumnLike :=
  ft1 alias args (fun x =>
    let? p := parse_u32 (replace_all prefix "" name) in
    Ok (c_func func [x; PyLit (dec_hundredths p)])).

(** stat_fns.rs 107-280 *)
Definition stats_fn_bare (name : string) (args : list Arg) (d : DataFrame)
  : res (DataFrame * ColumnLike) :=
  let keep (r : res ColumnLike) := rmap (fun c => (d, c)) r in
  let sorted (r : res ColumnLike) := rmap (fun c => (order_by_time d, c)) r in
  if existsb (String.eqb name) stats_unsupported then Err else
  match assoc name stats_unary with
  | Some g => keep (ft1 name args (fun x => Ok (c_func g [x])))
  | None =>
  if String.eqb name "count" then
    keep (ft_map "count" args (fun l =>
      match l with
      | nil => Ok (c_func "count" [plit "1"])
      | [x] => Ok (c_func "count" [x])
      | _ => Err
      end))
  else if starts_with "exactperc" name then
    keep (stats_perc "exactperc" "percentile" "exactperc" name args)
  else if String.eqb name "median" then
    keep (ft1 "median" args (fun x => Ok (c_func "percentile_approx" [x; plit "0.5"])))
  else if starts_with "percentile" name then
    keep (stats_perc "percentile" "percentile_approx" "percentile" name args)
  else if String.eqb name "range" then
    keep (ft1 "range" args (fun x => Ok (c_func "max" [pbin x "-" (pfun "min" [x])])))
  else if String.eqb name "sumsq" then
    keep (ft1 "sumsq" args (fun x => Ok (c_func "sum" [pbin x "*" x])))
  else if starts_with "upperperc" name then
    keep (stats_perc "upperperc" "percentile_approx" "upperperc" name args)
  else if String.eqb name "first" then
    keep (ft1 "first" args (fun x => Ok (c_func "first" [x; pylit_bool true])))
  else if String.eqb name "last" then
    keep (ft1 "last" args (fun x => Ok (c_func "last" [x; pylit_bool true])))
  else if String.eqb name "earliest" then
    sorted (ft1 "earliest" args (fun x => Ok (c_func "first" [x; pylit_bool true])))
  else if String.eqb name "earliest_time" then
    keep (ft_map "earliest_time" args (fun _ => Ok (c_func "min" [pcol "_time"])))
  else if String.eqb name "latest" then
    sorted (ft1 "latest" args (fun x => Ok (c_func "last" [x; pylit_bool true])))
  else if String.eqb name "latest_time" then
    keep (ft_map "latest_time" args (fun _ => Ok (c_func "max" [pcol "_time"])))
  else if String.eqb name "rate" then
    sorted (ft1 "rate" args (fun x =>
      Ok (c_binary (pbin (pfun "last" [x]) "-" (pfun "first" [x])) "/"
                   (pbin (pfun "max" [pcol "_time"]) "-" (pfun "min" [pcol "_time"])))))
  else
    let? l := map_args args in
    Ok (d, CAliased (PCol (CFunctionCall name l)) name)
  end.

(** stat_fns.rs 89-105 *)
Definition stats_fn_runtime (name : string) (args : list Arg) (d : DataFrame)
  : res (DataFrame * ColumnLike) :=
  let? l := map_args args in
  Ok (d, CFunctionCall ("functions.stats." ++ name)%string l).

(** ** src/functions/convert_fns.rs 41-75 *)
Definition convert_fn (timeformat : string) (c : FieldConversion) : res ColumnLike :=
  let x := pcol (fc_field c) in
  let f := fc_func c in
  if String.eqb f "ctime" then ctime x timeformat
  else if String.eqb f "memk" then Ok (memk x)
  else if String.eqb f "rmunit" then Ok (rmunit x)
  else if String.eqb f "rmcomma" then Ok (rmcomma x)
  else Ok (CAliased (PCol (CFunctionCall f [x])) f).
