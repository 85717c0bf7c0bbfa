(** Pipelines whose calls of the runtime library do what the standalone code does.
    Specification only. *)
From Verif Require Import Str SplAst PyAst Functions Commands Api SpecPy SpecCol SpecFrame SpecSpark SpecRows SpecCommands SpecCall.
From Verif Require Runtime.
Import Runtime (runs).
Open Scope list_scope.
Open Scope string_scope.

(** ** Expressions.  The library returns an Expr of its own from most functions, which
    operators do not take: only these four functions return a column. *)
Definition column_functions : list string := ["len"; "lower"; "upper"; "urldecode"].
(** Functions the library cannot compute: case returns a module, validate and the trims raise;
    and relative_time and the further functions of SpecRows, which are not covered here *)
Definition broken_functions : list string := ["case"; "validate"; "ltrim"; "rtrim"; "trim"; "relative_time"] ++ further_names.
(** [col]: must it be a column? *)
Fixpoint lib_value (col : bool) (e : Expr) : bool :=
  match e with
  | EBinary l _ r => lib_value true l && lib_value true r
  | EUnary _ r => lib_value true r
  | ECall f args =>
      (if col then str_in f column_functions else negb (str_in f broken_functions)) && forallb (lib_value false) args
  | _ => true
  end.

(** ** search.  Words alone are not looked for; tests of metadata fields are dropped or
    look at a column of another name; wildcards are compared as texts. *)
Fixpoint no_words (e : Expr) : bool :=
  match e with
  | EBinary l op r => if String.eqb op "AND" || String.eqb op "OR" then no_words l && no_words r else true
  | EUnary _ r => no_words r
  | ELeaf _ => false
  | _ => true
  end.
Definition equality (op : string) : bool := String.eqb op "=" || String.eqb op "==".
Definition search_names : list string := ["df"; "source_type"; "host_tag"; "event_type"; "event_type_tag"; "saved_splunk"].
Definition lib_condition (e : Expr) : bool :=
  no_words e &&
  match e with
  | EBinary (ELeaf (LConstant (KField f))) op r =>
      negb (str_in f (map fst metadata)) &&
      (negb (equality op)
       || py_ident f && negb (str_in f search_names) && match r with ELeaf (LConstant (KWildcard _)) => false | _ => true end)
  | _ => true
  end.
(** The fields tested for equality *)
Definition equal_fields (l : list Expr) : list string :=
  List.concat (map (fun e => match e with
                             | EBinary (ELeaf (LConstant (KField f))) op _ => if equality op then [f] else []
                             | _ => []
                             end) l).
Definition lib_conditions (l : list Expr) : bool := forallb lib_condition l && distinct (equal_fields l).

(** ** stats and tstats.  Functions of one column that the library computes in the same way *)
Definition lib_stats : list string :=
  ["avg"; "mean"; "estdc"; "max"; "min"; "mode"; "stdev"; "var"; "varp"; "values";
   "first"; "last"; "earliest"; "latest"; "rate"].
Definition lib_agg (e : Expr) : bool :=
  match e with
  | ECall f [] | EAlias (ECall f []) _ => String.eqb f "count"
  | ECall f [a] | EAlias (ECall f [a]) _ => str_in f lib_stats && lib_value false a
  | _ => false
  end.
Definition lib_aggs (taken : list string) (funcs : list Expr) : bool :=
  forallb lib_agg funcs && forallb (fun n => py_ident n && negb (str_in n taken)) (map label funcs) && distinct (map label funcs).
Definition lib_by (by_ : option (list MaybeSpannedField)) : bool :=
  match by_ with Some l => forallb (fun f => plain_name_text (msf_field f)) l | None => true end.

(** ** Commands that call the library *)
Definition call_command (c : Command) : bool :=
  plain1 c &&
  match c with
  | CSearch e => lib_conditions (conjuncts e)
  | CEval l => forallb (fun ne => py_ident (fst ne) && negb (String.eqb (fst ne) "df") && lib_value false (snd ne)) l
               && distinct (map fst l)
  | CStats _ funcs by_ => lib_aggs ["df"; "by"] funcs && lib_by by_
  | _ => false
  end.
(** Those that can come first: a search that names an index, and tstats *)
Definition first_call (c : Command) : bool :=
  match c with
  | CSearch e =>
      match take_index e with
      | Some (n, rest) =>
          negb (String.eqb n "") && plain_between dquote n
          && match rest with Some e' => plain_search e' && lib_conditions (conjuncts e') | None => true end
      | None => false
      end
  | CTStats _ funcs model node where_ by_ None =>
      match same_as c, dataset_table model node with
      | Some (_, pre), Some t =>
          negb (String.eqb t "") && forallb plain1 pre
          && match model with Some m => plain_between dquote m | None => false end
          && match node with Some n => plain_between dquote n | None => true end
          && match where_ with Some e => lib_value false e | None => true end
          && lib_aggs ["df"; "fill_null_value"; "from_"; "where"; "by"] funcs && lib_by by_
      | _, _ => false
      end
  | _ => false
  end.
(** ** Commands without a call *)
Definition frame_command (c : Command) : bool :=
  plain1 c &&
  match c with
  | CWhere e => lib_value true e
  | CRename _ | CTable _ | CFields false _ | CHead _ _ _ | CSort _ _ _ => true
  | _ => false
  end.

(** ** Pipelines: calls come one after the other (Python cannot read the code generated for a
    call after other commands that follow a call, see C19) *)
Fixpoint then_calls (p : list Command) : bool :=
  forallb frame_command p || match p with c :: p' => call_command c && then_calls p' | [] => true end.
Fixpoint frames_calls (p : list Command) : bool :=
  then_calls p || match p with c :: p' => frame_command c && frames_calls p' | [] => true end.
Definition lib_pipeline (p : list Command) : bool :=
  match p with
  | c :: p' => (first_call c && then_calls p') || (frame_command c && frames_calls p')
  | [] => false
  end.

(** ** What a pipeline or a query gives when it is run with the library *)
Definition lib_gives (env : Env) (sp : Spark) (db : string -> option Table) (types : Table -> string -> option string)
    (p : list Command) (o : Obj) : Prop :=
  exists code, render_pyspark env p = Ok code /\ forall x, runs sp db types code x <-> x = o.
Definition lib_text_gives (env : Env) (sp : Spark) (db : string -> option Table) (types : Table -> string -> option string)
    (text : string) (o : Obj) : Prop :=
  exists code, transpile env text = Some (Ok code) /\ forall x, runs sp db types code x <-> x = o.
Definition lib_text_fails (env : Env) (sp : Spark) (db : string -> option Table) (types : Table -> string -> option string)
    (text : string) : Prop :=
  exists code, transpile env text = Some (Ok code) /\ forall x, ~ runs sp db types code x.
