(** What SPL expressions and commands do to rows.  Specification only: nothing here is
    taken from the transpiler.  Comparison, arithmetic and the functions of single values
    are those of SpecSpark.Spark: the theorems say which comparison is made of what, not
    how Spark compares. *)
From Verif Require Import Str SplAst SpecPy SpecCol SpecSpark.
Open Scope list_scope.

(** ** Wildcards: * is any run of characters, every other character is itself *)
Inductive Matches : string -> string -> Prop :=
| MEnd : Matches "" ""
| MChar : forall c p s, c <> "*"%char -> Matches p s -> Matches (String c p) (String c s)
| MStar : forall p run s, Matches p s -> Matches (String "*" p) (run ++ s)%string.
(** The same as a function *)
Fixpoint wild (p s : string) : bool :=
  match p with
  | EmptyString => match s with EmptyString => true | _ => false end
  | String c p' =>
      if Ascii.eqb c "*" then
        (fix any (s : string) : bool :=
           wild p' s || match s with String _ s' => any s' | EmptyString => false end) s
      else match s with String d s' => Ascii.eqb c d && wild p' s' | EmptyString => false end
  end.

(** ** Functions of values in eval expressions, with the Spark function that computes them *)
Definition value_functions : list (string * string) :=
  [ ("abs", "abs"); ("ceiling", "ceil"); ("exp", "exp"); ("floor", "floor"); ("ln", "log");
    ("sqrt", "sqrt"); ("len", "length"); ("lower", "lower"); ("upper", "upper"); ("md5", "md5");
    ("sha1", "sha1"); ("urldecode", "url_decode"); ("isnull", "isnull"); ("isnotnull", "isnotnull");
    ("bit_not", "bitwise_not"); ("json_keys", "json_object_keys"); ("mvcount", "size");
    ("acos", "acos"); ("acosh", "acosh"); ("asin", "asin"); ("asinh", "asinh"); ("atan", "atan");
    ("atanh", "atanh"); ("cos", "cos"); ("cosh", "cosh"); ("sin", "sin"); ("sinh", "sinh");
    ("tan", "tan"); ("tanh", "tanh") ]%string.
Definition two_value_functions : list (string * string) :=
  [ ("like", "like"); ("match", "regexp_like"); ("nullif", "nullif"); ("pow", "pow");
    ("ltrim", "ltrim"); ("rtrim", "rtrim"); ("trim", "trim"); ("atan2", "atan2"); ("hypot", "hypot") ]%string.
(** Functions whose arguments after the first one are written as constants *)
Inductive ConstKind := AnInt | AText.
Definition constant_functions : list (string * (string * list ConstKind)) :=
  [ ("round", ("round", [AnInt])); ("substr", ("substring", [AnInt; AnInt]));
    ("replace", ("regexp_replace", [AText; AText])); ("split", ("split", [AText]));
    ("bit_shift_left", ("shiftleft", [AnInt])); ("bit_shift_right", ("shiftright", [AnInt])) ]%string.
Fixpoint lookup_kinds (n : string) (l : list (string * (string * list ConstKind))) : option (string * list ConstKind) :=
  match l with
  | [] => None
  | (m, g) :: l' => if String.eqb n m then Some g else lookup_kinds n l'
  end.
(** Functions of one value: a conversion, a hash of some length *)
Definition conversions : list (string * string) := [("tonumber", "double"); ("exact", "double"); ("tostring", "string")]%string.
Definition hashes : list (string * Z) := [("sha256", 256%Z); ("sha512", 512%Z)]%string.
(** Functions of two integers: the method of a column that computes them *)
Definition bitwise : list (string * string) :=
  [("bit_and", "bitwiseAND"); ("bit_or", "bitwiseOR"); ("bit_xor", "bitwiseXOR")]%string.
Fixpoint lookup_int (n : string) (l : list (string * Z)) : option Z :=
  match l with
  | [] => None
  | (m, z) :: l' => if String.eqb n m then Some z else lookup_int n l'
  end.
Fixpoint lookup_name (n : string) (l : list (string * string)) : option string :=
  match l with
  | [] => None
  | (m, g) :: l' => if String.eqb n m then Some g else lookup_name n l'
  end.

(** The value belonging to the first condition equal to [b]; all conditions are boolean *)
Fixpoint first_branch (b : bool) (l : list Val) : option Val :=
  match l with
  | [] => Some SNull
  | c :: v :: l' =>
      match truth c, first_branch b l' with
      | Some t, Some rest => Some (match t with Some t => if Bool.eqb t b then v else rest | None => rest end)
      | _, _ => None
      end
  | [_] => None
  end.

(** ** Expressions of eval and where.  [None]: not covered, or a type error. *)
Definition spl_comparisons : list string := ["="; "=="; "!="; "<"; "<="; ">"; ">="]%string.
Definition spl_arithmetic : list string := ["+"; "-"; "*"; "/"; "%"]%string.
Definition cmp_name (op : string) : string := if String.eqb op "=" then "==" else op.
Definition not_null (v : Val) : bool := negb (is_null v).
(** The constant of an expression, and its value *)
Definition const_val (k : Constant) : option Val :=
  match k with
  | KInt z => Some (SInt z)
  | KStr s => Some (SStr s)
  | KDouble t => lit_val (code_tree t)
  | _ => None
  end.
(** The units of time, with their names in an interval and in date_trunc *)
Definition time_units : list (string * (string * string)) :=
  [ ("seconds", ("SECONDS", "second")); ("minutes", ("MINUTES", "minute")); ("hours", ("HOURS", "hour"));
    ("days", ("DAYS", "day")); ("weeks", ("WEEKS", "week")); ("months", ("MONTHS", "month")) ]%string.
Fixpoint unit_of (u : string) (l : list (string * (string * string))) : option (string * string) :=
  match l with
  | [] => None
  | (v, n) :: l' => if String.eqb u v then Some n else unit_of u l'
  end.
Definition unit_name (u : string) : string := match unit_of u time_units with Some (n, _) => n | None => "" end.
Definition unit_start (u : string) : string := match unit_of u time_units with Some (_, n) => n | None => "" end.
Section Values.
  Variable sp : Spark.
  (** Null if an operand is null *)
  Definition lifted (f : Val -> Val -> Val) (a b : Val) : Val :=
    match a, b with SNull, _ | _, SNull => SNull | _, _ => f a b end.
  Definition compare (op : string) : Val -> Val -> Val :=
    lifted (fun a b => SBool (sp_cmp sp (cmp_name op) a b)).
  Definition logic (f : option bool -> option bool -> option bool) (a b : Val) : option Val :=
    match truth a, truth b with Some x, Some y => Some (of_truth (f x y)) | _, _ => None end.
  Definition apply_op (op : string) (a b : Val) : option Val :=
    if String.eqb op "AND" then logic k_and a b
    else if String.eqb op "OR" then logic k_or a b
    else if str_in op spl_comparisons then Some (compare op a b)
    else if str_in op spl_arithmetic then Some (lifted (sp_arith sp op) a b)
    else None.
  (** Texts as numbers: without commas; the digits before a unit; kilobytes, given with the
      unit k, m or g *)
  Definition as_number (v : Val) : Val := sp_method sp "cast" v [ALit (SStr "double")].
  Definition part (pattern : string) (i : Z) (v : Val) : Val :=
    sp_fn sp "regexp_extract" [AVal v; ALit (SStr pattern); ALit (SInt i)].
  Definition without_commas (v : Val) : Val :=
    as_number (sp_fn sp "regexp_replace" [AVal v; ALit (SStr ","); ALit (SStr "")]).
  Definition without_unit (v : Val) : Val := as_number (part "(?i)^(\d*\.?\d+)(\w*)$" 1 v).
  Definition in_kilobytes (v : Val) : Val :=
    let pattern := "(?i)^(\d*\.?\d+)([kmg])$"%string in
    let unit := sp_fn sp "upper" [AVal (part pattern 2 v)] in
    let is u := is_true (compare "==" unit (SStr u)) in
    lifted (sp_arith sp "*") (as_number (part pattern 1 v))
      (SNum (if is "K" then "1.0" else if is "M" then "1024.0" else if is "G" then "1048576.0" else "1.0")).
  (** The sum of the values by the number of values; the largest and the smallest value, two
      at a time; the values as one list; conversions; hashes; functions with constants *)
  Definition more_fn (name : string) (l : list Val) : option Val :=
    match l with
    | [] => if String.eqb name "pi" then Some (SNum "3.141592653589793")
            else if String.eqb name "now" || String.eqb name "time" then Some (sp_fn sp "current_timestamp" [])
            else None
    | a :: rest =>
        if String.eqb name "avg" then
          Some (lifted (sp_arith sp "/") (fold_left (lifted (sp_arith sp "+")) rest a) (SInt (Z.of_nat (length l))))
        else if String.eqb name "max" then Some (fold_left (fun m x => sp_fn sp "greatest" [AVal m; AVal x]) rest a)
        else if String.eqb name "min" then Some (fold_left (fun m x => sp_fn sp "least" [AVal m; AVal x]) rest a)
        else if String.eqb name "mvappend" then Some (sp_fn sp "concat" (map AVal l))
        else match lookup_kinds name constant_functions with
        | Some (g, _) => Some (sp_fn sp g (AVal a :: map ALit rest))
        | None =>
        match rest with
        | [] =>
            if String.eqb name "json_valid" then Some (SBool (not_null (sp_fn sp "get_json_object" [AVal a; ALit (SStr "$")])))
            else if String.eqb name "rmcomma" then Some (without_commas a)
            else if String.eqb name "rmunit" then Some (without_unit a)
            else if String.eqb name "memk" then Some (in_kilobytes a)
            else match lookup_name name conversions, lookup_int name hashes with
                 | Some t, _ => Some (sp_method sp "cast" a [ALit (SStr t)])
                 | None, Some bits => Some (sp_fn sp "sha2" [AVal a; ALit (SInt bits)])
                 | None, None => None
                 end
        | [b] =>
            if String.eqb name "mvindex" then Some (sp_fn sp "get" [AVal a; ALit b])
            else option_map (fun m => sp_method sp m a [AVal b]) (lookup_name name bitwise)
        | [SInt first; SInt last] =>
            (* the items from the position first on, counted from one, as many as there are up to last *)
            if String.eqb name "mvindex"
            then Some (sp_fn sp "slice" [AVal a; ALit (SInt (first + 1)); ALit (SInt (last - first + 1))]) else None
        | _ => None
        end
        end
    end.
  Definition apply_fn (name : string) (l : list Val) : option Val :=
    if String.eqb name "if" then
      match l with
      | [c; a; b] => match truth c with Some _ => Some (if is_true c then a else b) | None => None end
      | _ => None
      end
    else if String.eqb name "case" then first_branch true l
    else if String.eqb name "validate" then first_branch false l
    else if String.eqb name "coalesce" then
      Some (match find not_null l with Some v => v | None => SNull end)
    else if String.eqb name "true" then match l with [] => Some (SBool true) | _ => None end
    else if String.eqb name "false" then match l with [] => Some (SBool false) | _ => None end
    else if String.eqb name "null" then match l with [] => Some SNull | _ => None end
    else match lookup_name name value_functions, l with
         | Some g, [a] => fn_val sp g [AVal a]
         | _, _ =>
             match lookup_name name two_value_functions, l with
             | Some g, [a; b] => fn_val sp g [AVal a; AVal b]
             | _, _ => more_fn name l
             end
         end.
  (** A time moved by some units, given to Spark as an SQL interval; cut down to the start of a unit; relative_time: moved, cut
      down and moved again, each as far as the specifier asks for it *)
  Definition interval (o : TimeSpan) (row : Row) : Val :=
    sp_sql sp ("INTERVAL " ++ dec (ts_value o) ++ " " ++ unit_name (ts_scale o))%string row.
  Definition moved (row : Row) (o : option TimeSpan) (t : Val) : Val :=
    match o with Some o => lifted (sp_arith sp "+") t (interval o row) | None => t end.
  Definition start_of (unit : string) (t : Val) : Val := sp_fn sp "date_trunc" [ALit (SStr (unit_start unit)); AVal t].
  Definition relative (row : Row) (s : SnapTime) (v : Val) : Val :=
    moved row (sn_offset s) (start_of (sn_snap s) (moved row (sn_span s) (sp_fn sp "to_timestamp" [AVal v]))).
  (** One value of an IN list against a value that is not null *)
  Definition in_item (v : Val) (k : Expr) : bool :=
    match k with
    | ELeaf (LConstant (KWildcard p)) => wild p (val_text v)
    | ELeaf (LConstant (KBool b)) => sp_cmp sp "==" v (SBool b)
    | ELeaf (LConstant (KInt z)) => sp_cmp sp "==" v (SInt z)
    | ELeaf (LConstant (KDouble t)) =>
        match lit_val (code_tree t) with Some w => sp_cmp sp "==" v w | None => false end
    | ELeaf (LConstant (KStr s)) | ELeaf (LConstant (KField s)) | ELeaf (LConstant (KIPv4CIDR s)) =>
        sp_cmp sp "==" v (SStr s)
    | _ => false
    end.
  Definition membership (v : Val) (l : list Expr) : Val :=
    match v with SNull => SNull | _ => SBool (existsb (in_item v) l) end.
  Definition wild_val (v : Val) (p : string) : Val :=
    match v with SNull => SNull | _ => SBool (wild p (val_text v)) end.
  Definition negate (v : Val) : option Val := option_map (fun b => of_truth (k_not b)) (truth v).
  Fixpoint ev (row : Row) (e : Expr) : option Val :=
    match e with
    | ELeaf (LConstant (KField n)) => Some (cell n row)
    | ELeaf (LConstant k) => const_val k
    | EBinary l op r =>
        match r with
        | ELeaf (LConstant (KWildcard p)) =>
            match ev row l with
            | Some v =>
                if String.eqb op "=" || String.eqb op "==" then Some (wild_val v p)
                else if String.eqb op "!=" then negate (wild_val v p) else None
            | None => None
            end
        | _ => match ev row l, ev row r with Some a, Some b => apply_op op a b | _, _ => None end
        end
    | EUnary op r =>
        if String.eqb op "NOT" then match ev row r with Some v => negate v | None => None end else None
    | ECall name args =>
        match all_some (map (ev row) args) with
        | Some l => apply_fn name l
        | None =>
            match args with
            | [a; ELeaf (LConstant (KSnapTime s))] =>
                if String.eqb name "relative_time" then option_map (relative row s) (ev row a) else None
            | _ => None
            end
        end
    | EFieldIn f l => Some (membership (cell f row) l)
    | _ => None
    end.
End Values.

(** ** Expressions the theorems cover.  Strings and names contain no single quote and no
    line break, names no backslash, strings only backslashes Python keeps, such as those of
    \d and \. (see C24 for the others), wildcard patterns no character that is
    special in SQL LIKE (see C32). *)
Definition plain_pattern (p : string) : bool :=
  plain_between dquote p && sforall (fun c => negb (Ascii.eqb c "%" || Ascii.eqb c "_")) p.
Definition plain_number (t : string) : bool :=
  match t with
  | String c s => if Ascii.eqb c "-" then is_number s else is_number t
  | EmptyString => false
  end.
Definition plain_in_value (e : Expr) : bool :=
  match e with
  | ELeaf (LConstant (KWildcard p)) => plain_pattern p
  | ELeaf (LConstant (KBool _)) | ELeaf (LConstant (KInt _)) => true
  | ELeaf (LConstant (KDouble t)) => plain_number t
  | ELeaf (LConstant (KStr s)) => stands dquote false s
  | ELeaf (LConstant (KField s)) | ELeaf (LConstant (KIPv4CIDR s)) => plain_between dquote s
  | _ => false
  end.
Definition arity_ok (name : string) (n : nat) : bool :=
  if String.eqb name "if" then Nat.eqb n 3
  else if str_in name ["case"; "validate"]%string then Nat.ltb 0 n && Nat.even n
  else if String.eqb name "coalesce" then Nat.ltb 0 n
  else if str_in name ["true"; "false"; "null"]%string then Nat.eqb n 0
  else match lookup_name name value_functions, lookup_name name two_value_functions with
       | Some _, _ => Nat.eqb n 1
       | None, Some _ => Nat.eqb n 2
       | None, None => false
       end.
Definition further_names : list string :=
  ["pi"; "now"; "time"; "avg"; "max"; "min"; "mvappend"; "mvindex"; "json_valid"; "rmcomma"; "rmunit"; "memk"]%string
  ++ map fst constant_functions ++ map fst conversions ++ map fst hashes ++ map fst bitwise.
Definition int_constant (e : Expr) : option Z := match e with ELeaf (LConstant (KInt z)) => Some z | _ => None end.
Definition is_constant (k : ConstKind) (e : Expr) : bool :=
  match k, e with
  | AnInt, ELeaf (LConstant (KInt _)) => true
  | AText, ELeaf (LConstant (KStr s)) => stands dquote false s
  | _, _ => false
  end.
Fixpoint are_constants (ks : list ConstKind) (l : list Expr) : bool :=
  match ks, l with
  | [], [] => true
  | k :: ks', e :: l' => is_constant k e && are_constants ks' l'
  | _, _ => false
  end.
(** Values whose code is not cut by a method call: the code of a negation is (see C23) *)
Definition takes_dot (e : Expr) : bool :=
  match e with
  | EUnary _ _ | EBinary _ _ (ELeaf (LConstant (KWildcard _))) => false
  | ECall name _ => negb (str_in name ["max"; "min"]%string)
  | _ => true
  end.
(** The arguments the further functions take.  mvindex: positions from the start, in order
    (see C59 for positions from the end). *)
Definition further (name : string) (args : list Expr) : bool :=
  match args with
  | [] => str_in name ["pi"; "now"; "time"]%string
  | a :: rest =>
      if str_in name ["avg"; "max"; "min"; "mvappend"]%string then true
      else match lookup_kinds name constant_functions with
      | Some (_, ks) => are_constants ks rest
      | None =>
      if String.eqb name "mvindex" then
        match map int_constant rest with
        | [Some z] => (0 <=? z)%Z
        | [Some z; Some w] => ((0 <=? z) && (z <=? w) && (w <? 2 ^ 62))%Z
        | _ => false
        end
      else match rest with
           | [] => str_in name (["json_valid"; "rmcomma"; "rmunit"; "memk"]%string ++ map fst hashes) || str_in name (map fst conversions) && takes_dot a
           | [_] => str_in name (map fst bitwise) && takes_dot a
           | _ => false
           end
      end
  end.
Definition plain_unit (u : string) : bool := str_in u (map fst time_units).
Definition plain_span (o : option TimeSpan) : bool := match o with Some o => plain_unit (ts_scale o) | None => true end.
Definition plain_snap (s : SnapTime) : bool := plain_span (sn_span s) && plain_unit (sn_snap s) && plain_span (sn_offset s).
(** [calls]: are function calls covered? (only without the runtime) *)
Fixpoint plain_expr (calls : bool) (e : Expr) : bool :=
  match e with
  | ELeaf (LConstant k) =>
      match k with
      | KField s => plain_name_text s
      | KStr s => stands squote false s
      | KInt _ => true
      | KDouble t => plain_number t
      | _ => false
      end
  | EBinary l op r =>
      match r with
      | ELeaf (LConstant (KWildcard p)) =>
          match l with
          | ELeaf (LConstant (KField n)) => plain_name_text n && plain_pattern p && str_in op ["="; "=="; "!="]%string
          | _ => false
          end
      | _ => plain_expr calls l && plain_expr calls r && str_in op (["AND"; "OR"]%string ++ spl_comparisons ++ spl_arithmetic)
      end
  | EUnary op r => String.eqb op "NOT" && plain_expr calls r
  | ECall name args =>
      calls && ((arity_ok name (length args) || further name args) && forallb (plain_expr calls) args
                || match args with
                   | [a; ELeaf (LConstant (KSnapTime s))] => String.eqb name "relative_time" && plain_expr calls a && plain_snap s
                   | _ => false
                   end)
  | EFieldIn f l => plain_name_text f && match l with [] => false | _ => forallb plain_in_value l end
  | _ => false
  end.
