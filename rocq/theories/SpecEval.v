(** Calls of functions in eval and where.  Specification only. *)
From Verif Require Import Str SplAst.
Open Scope list_scope.

(** The expressions that are computed when e is computed: e itself, the sides of an
    operator, the arguments of a call.  mvindex has three arguments and relative_time two;
    what is written after them is not computed. *)
Definition read_args (f : string) (args : list Expr) : list Expr :=
  if String.eqb f "mvindex" then firstn 3 args else if String.eqb f "relative_time" then firstn 2 args else args.
Inductive part (x : Expr) : Expr -> Prop :=
| P_self : part x x
| P_left : forall l o r, part x l -> part x (EBinary l o r)
| P_right : forall l o r, part x r -> part x (EBinary l o r)
| P_not : forall o r, part x r -> part x (EUnary o r)
| P_argument : forall f args a, In a (read_args f args) -> part x a -> part x (ECall f args).
(** The expressions a command computes *)
Definition computed_by (c : Command) (e : Expr) : Prop :=
  match c with
  | CEval l => In e (map snd l)
  | CWhere e' => e = e'
  | _ => False
  end.

(** Documented functions that are never translated *)
Definition untranslated : list string :=
  [ "searchmatch"; "lookup"; "ipmask"; "printf"; "isbool"; "isint"; "isnum"; "isstr"; "typeof";
    "json_object"; "json_append"; "json_array"; "json_array_to_mv"; "json_extend"; "json_extract";
    "json_extract_exact"; "json_set"; "json_set_exact"; "sigfig"; "commands"; "mvdedup";
    "mvfilter"; "mvfind"; "mvjoin"; "mvmap"; "mvrange"; "mvsort"; "mv_to_json_array"; "spath" ]%string.

(** The aggregations of stats and tstats; a name may follow after AS *)
Definition aggregates (c : Command) (f : string) (args : list Expr) : Prop :=
  exists e, (e = ECall f args \/ exists n, e = EAlias (ECall f args) n) /\
    match c with CStats _ l _ => In e l | CTStats _ l _ _ _ _ _ => In e l | _ => False end.
(** Documented aggregations that are never translated *)
Definition untranslated_aggregations : list string :=
  [ "estdc_error"; "per_day"; "per_hour"; "per_minute"; "per_second"; "rate_avg"; "rate_sum" ]%string.
(** The numbers of arguments documented for aggregations *)
Definition aggregation_counts : list (string * list nat) :=
  [ ("avg", [1]); ("count", [0; 1]); ("dc", [1]); ("distinct_count", [1]); ("estdc", [1]); ("max", [1]); ("mean", [1]); ("median", [1]);
    ("min", [1]); ("mode", [1]); ("range", [1]); ("stdev", [1]); ("stdevp", [1]); ("sum", [1]); ("sumsq", [1]); ("var", [1]); ("varp", [1]);
    ("first", [1]); ("last", [1]); ("list", [1]); ("values", [1]); ("earliest", [1]); ("latest", [1]); ("rate", [1]) ]%string.

(** The numbers of arguments documented for functions *)
Definition argument_counts : list (string * list nat) :=
  [ ("abs", [1]); ("ceiling", [1]); ("exp", [1]); ("floor", [1]); ("ln", [1]); ("sqrt", [1]); ("len", [1]);
    ("lower", [1]); ("upper", [1]); ("md5", [1]); ("sha1", [1]); ("sha256", [1]); ("sha512", [1]);
    ("urldecode", [1]); ("isnull", [1]); ("isnotnull", [1]); ("bit_not", [1]); ("json_keys", [1]);
    ("json_valid", [1]); ("exact", [1]); ("mvcount", [1]);
    ("acos", [1]); ("acosh", [1]); ("asin", [1]); ("asinh", [1]); ("atan", [1]); ("atanh", [1]); ("cos", [1]);
    ("cosh", [1]); ("sin", [1]); ("sinh", [1]); ("tan", [1]); ("tanh", [1]);
    ("like", [2]); ("match", [2]); ("nullif", [2]); ("pow", [2]); ("atan2", [2]); ("hypot", [2]);
    ("strftime", [2]); ("strptime", [2]); ("split", [2]); ("cidrmatch", [2]);
    ("bit_and", [2]); ("bit_or", [2]); ("bit_xor", [2]); ("bit_shift_left", [2]); ("bit_shift_right", [2]);
    ("if", [3]); ("replace", [3]);
    ("pi", [0]); ("now", [0]); ("time", [0]); ("null", [0]); ("true", [0]); ("false", [0]); ("random", [0]);
    ("log", [1; 2]); ("round", [1; 2]); ("substr", [2; 3]); ("ltrim", [1; 2]); ("rtrim", [1; 2]); ("trim", [1; 2]);
    ("tostring", [1; 2]); ("tonumber", [1; 2]) ]%string.
(** The documented functions that take a list of arguments in parentheses *)
Definition documented : list string :=
  untranslated ++ map fst argument_counts ++
  [ "case"; "validate"; "coalesce"; "in"; "relative_time"; "mvappend"; "mvindex"; "mvzip"; "avg"; "max"; "min"; "sum" ]%string.
