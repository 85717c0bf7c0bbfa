(** What the generated programs compute: a small semantics of PySpark on the Python trees
    of SpecPy.v.  Specification only.

    A row is an ordered list of named cells; a table is a list of rows.  Simplifications:
    a column no cell of the row has reads as null (Spark refuses a column no row has),
    names are compared exactly, and a dot in a name has no special meaning.  The order of
    groups after groupBy is that of their first rows.  Everything the theorems do not need
    to know about Spark (comparison and arithmetic of values, functions, SQL texts,
    aggregates, the order of sorting) is a parameter: [Spark]. *)
From Coq Require Import Decimal DecimalString.
From Verif Require Import Str SpecPy.
Open Scope list_scope.

Fixpoint all_some {A} (l : list (option A)) : option (list A) :=
  match l with
  | [] => Some []
  | Some a :: l' => option_map (cons a) (all_some l')
  | None :: _ => None
  end.
(** ** Values, rows, tables *)
Inductive Val :=
| SNull
| SBool (b : bool)
| SInt (z : Z)
| SNum (text : string)   (* a number that is not an integer, by its decimal text *)
| SStr (s : string).
Definition Row := list (string * Val).
Definition Table := list Row.
Fixpoint cell (n : string) (r : Row) : Val :=
  match r with
  | [] => SNull
  | (m, v) :: r' => if String.eqb n m then v else cell n r'
  end.
(** withColumn: replace the cell where it is, or add it at the end *)
Fixpoint set_cell (n : string) (v : Val) (r : Row) : Row :=
  match r with
  | [] => [(n, v)]
  | (m, w) :: r' => if String.eqb n m then (n, v) :: r' else (m, w) :: set_cell n v r'
  end.
Definition rename_cell (old new : string) (r : Row) : Row :=
  map (fun c => if String.eqb (fst c) old then (new, snd c) else c) r.
Definition keep_cells (names : list string) (r : Row) : Row := map (fun n => (n, cell n r)) names.
(** The text of a value, for LIKE *)
Definition val_text (v : Val) : string :=
  match v with
  | SNull => ""
  | SBool b => if b then "true" else "false"
  | SInt z => dec z
  | SNum t => t
  | SStr s => s
  end%string.

(** ** What is left open about Spark *)
(** An argument of a function or method: a column's value in the row, or a Python literal
    (which some functions take for a column's name) *)
Inductive FArg := AVal (v : Val) | ALit (v : Val).
Record Spark := mkSpark {
  sp_cmp : string -> Val -> Val -> bool;                (* == != < <= > >= on values that are not null *)
  sp_arith : string -> Val -> Val -> Val;               (* + - * / % on values that are not null *)
  sp_fn : string -> list FArg -> Val;                   (* functions F.name(...) of a row's values *)
  sp_method : string -> Val -> list FArg -> Val;        (* methods of columns: cast, isNotNull, ... *)
  sp_sql : string -> Row -> Val;                        (* F.expr of an SQL text *)
  sp_agg : string -> list (list FArg) -> Val;           (* aggregate functions of a group's arguments *)
  sp_sort : (Row -> Row -> bool) -> Table -> Table;     (* orderBy *)
  sp_le : Val -> Val -> bool                            (* the order orderBy uses *)
}.

(** ** SQL LIKE: % any run of characters, _ any character, backslash quotes the next one *)
Fixpoint like (p s : string) : bool :=
  match p with
  | EmptyString => match s with EmptyString => true | _ => false end
  | String c p' =>
      if Ascii.eqb c "%" then
        (fix any (s : string) : bool :=
           like p' s || match s with String _ s' => any s' | EmptyString => false end) s
      else if Ascii.eqb c "_" then
        match s with String _ s' => like p' s' | EmptyString => false end
      else if Ascii.eqb c "\" then
        match p' with
        | String e p'' => match s with String d s' => Ascii.eqb e d && like p'' s' | EmptyString => false end
        | EmptyString => false
        end
      else match s with String d s' => Ascii.eqb c d && like p' s' | EmptyString => false end
  end.

(** ** Python literals *)
Definition num_val (text : string) : Val :=
  match NilZero.uint_of_string text with
  | Some u => SInt (Z.of_uint u)
  | None => SNum text
  end.
Definition lit_val (t : Py) : option Val :=
  match t with
  | PStr s => Some (SStr s)
  | PNum n => Some (num_val n)
  | PUn o (PNum n) =>
      if String.eqb o "-" then
        Some (match num_val n with SInt z => SInt (- z) | SNum t => SNum (String "-" t) | v => v end)
      else None
  | PName x =>
      if String.eqb x "True" then Some (SBool true)
      else if String.eqb x "False" then Some (SBool false)
      else if String.eqb x "None" then Some SNull
      else None
  | _ => None
  end.

(** ** Three-valued logic: null is unknown *)
Definition truth (v : Val) : option (option bool) :=
  match v with SBool b => Some (Some b) | SNull => Some None | _ => None end.
Definition of_truth (b : option bool) : Val := match b with Some b => SBool b | None => SNull end.
Definition k_and (a b : option bool) : option bool :=
  match a, b with
  | Some false, _ | _, Some false => Some false
  | Some true, x => x
  | None, _ => None
  end.
Definition k_or (a b : option bool) : option bool :=
  match a, b with
  | Some true, _ | _, Some true => Some true
  | Some false, x => x
  | None, _ => None
  end.
Definition k_not (a : option bool) : option bool := option_map negb a.
Definition is_true (v : Val) : bool := match v with SBool true => true | _ => false end.

Definition comparison_ops : list string := ["=="; "!="; "<"; "<="; ">"; ">="]%string.
Definition arithmetic_ops : list string := ["+"; "-"; "*"; "/"; "%"]%string.

(** ** Columns.  [None]: not a column expression, or a type error.  The second component
    tells a chain of when(...) calls from other columns: is a branch still to be chosen? *)
Inductive Chain := NoChain | Undecided | Decided.
Definition plain_value (v : option Val) : option (Val * Chain) := option_map (fun v => (v, NoChain)) v.
Definition py_arg (t : Py) (v : Val) : FArg := match lit_val t with Some _ => ALit v | None => AVal v end.
(** coalesce, isnull, isnotnull of column values; other functions are open *)
Fixpoint first_value (l : list FArg) : option Val :=
  match l with
  | [] => Some SNull
  | AVal SNull :: l' => first_value l'
  | AVal v :: l' => match first_value l' with Some _ => Some v | None => None end
  | ALit _ :: _ => None
  end.
Definition is_null (v : Val) : bool := match v with SNull => true | _ => false end.
(** Functions that aggregate a group of rows: not allowed elsewhere *)
Definition aggregate_functions : list string :=
  [ "count"; "sum"; "avg"; "min"; "max"; "mode"; "count_distinct"; "approx_count_distinct"; "stddev_samp";
    "stddev_pop"; "var_samp"; "var_pop"; "collect_list"; "collect_set"; "first"; "last"; "percentile";
    "percentile_approx" ]%string.
Definition fn_val (sp : Spark) (f : string) (args : list FArg) : option Val :=
  if str_in f aggregate_functions then None
  else if String.eqb f "coalesce" then first_value args
  else if String.eqb f "isnull" then match args with [AVal v] => Some (SBool (is_null v)) | _ => None end
  else if String.eqb f "isnotnull" then match args with [AVal v] => Some (SBool (negb (is_null v))) | _ => None end
  else Some (sp_fn sp f args).
Section Columns.
  Variable sp : Spark.
  Variable row : Row.
  Definition bin_val (op : string) (a b : Val) : option Val :=
    if String.eqb op "&" then
      match truth a, truth b with Some x, Some y => Some (of_truth (k_and x y)) | _, _ => None end
    else if String.eqb op "|" then
      match truth a, truth b with Some x, Some y => Some (of_truth (k_or x y)) | _, _ => None end
    else if str_in op comparison_ops then
      match a, b with SNull, _ | _, SNull => Some SNull | _, _ => Some (SBool (sp_cmp sp op a b)) end
    else if str_in op arithmetic_ops then
      match a, b with SNull, _ | _, SNull => Some SNull | _, _ => Some (sp_arith sp op a b) end
    else None.
  Definition like_val (v : Val) (p : string) : Val :=
    match v with SNull => SNull | _ => SBool (like p (val_text v)) end.
  (** regexp_like takes a string for the name of a column *)
  Definition named_columns (f : string) (args : list FArg) : list FArg :=
    if String.eqb f "regexp_like" then map (fun a => match a with ALit (SStr n) => AVal (cell n row) | _ => a end) args else args.
  Fixpoint cvx (t : Py) : option (Val * Chain) :=
    let cv u := option_map fst (cvx u) in
    let vals l := all_some (map (fun u => option_map (py_arg u) (cv u)) l) in
    let branch c v : option (Val * Chain) :=
      match cv c, cv v with
      | Some c, Some v => match truth c with
                          | Some b => Some (if is_true c then (v, Decided) else (SNull, Undecided))
                          | None => None
                          end
      | _, _ => None
      end in
    match t with
    | PCall (PAttr e m) args [] =>
        match e with
        | PName mod_ =>
            if String.eqb mod_ "F" then
              if String.eqb m "col" then
                match args with [PStr n] => Some (cell n row, NoChain) | _ => None end
              else if String.eqb m "lit" then
                match args with [a] => plain_value (lit_val a) | _ => None end
              else if String.eqb m "expr" then
                match args with [PStr s] => Some (sp_sql sp s row, NoChain) | _ => None end
              else if String.eqb m "when" then
                match args with [c; v] => branch c v | _ => None end
              else match vals args with Some l => plain_value (fn_val sp m (named_columns m l)) | None => None end
            else None
        | _ =>
            match cvx e with
            | None => None
            | Some (v, ch) =>
                if String.eqb m "alias" then
                  match args with [PStr _] => Some (v, NoChain) | _ => None end
                else if String.eqb m "like" then
                  match args with [PStr p] => Some (like_val v p, NoChain) | _ => None end
                else if String.eqb m "ilike" then
                  match args with [PStr p] => Some (match v with SNull => SNull | _ => SBool (like (lower p) (lower (val_text v))) end, NoChain) | _ => None end
                else if String.eqb m "when" then
                  match args, ch with
                  | [c; x], Undecided => branch c x
                  | [_; _], Decided => Some (v, Decided)
                  | _, _ => None
                  end
                else if String.eqb m "otherwise" then
                  match args, ch with
                  | [x], Undecided => plain_value (cv x)
                  | [_], Decided => Some (v, NoChain)
                  | _, _ => None
                  end
                else if String.eqb m "isNotNull" then
                  match args with [] => Some (SBool (negb (is_null v)), NoChain) | _ => None end
                else plain_value (option_map (sp_method sp m v) (vals args))
            end
        end
    | PBin op a b =>
        match cv a, cv b with
        | Some x, Some y => plain_value (bin_val op x y)
        | _, _ => None
        end
    | PUn o a =>
        if String.eqb o "~" then
          match cv a with
          | Some x => match truth x with Some b => Some (of_truth (k_not b), NoChain) | None => None end
          | None => None
          end
        else plain_value (lit_val t)
    | PStr _ | PNum _ | PName _ => plain_value (lit_val t)
    | _ => None
    end.
  Definition cv (t : Py) : option Val := option_map fst (cvx t).
  (** The arguments of a call in this row *)
  Definition arg_vals (args : list Py) : option (list FArg) :=
    all_some (map (fun u => option_map (py_arg u) (cv u)) args).
End Columns.

(** Aggregate expressions over a group: calls of aggregate functions (which have at least
    one argument), combined with operators *)
Fixpoint agg_val (sp : Spark) (rows : Table) (t : Py) : option Val :=
  match t with
  | PCall (PAttr (PName mod_) f) (a :: args) [] =>
      if String.eqb mod_ "F" && str_in f aggregate_functions then
        option_map (sp_agg sp f) (all_some (map (fun r => arg_vals sp r (a :: args)) rows))
      else None
  | PBin op a b =>
      match agg_val sp rows a, agg_val sp rows b with
      | Some x, Some y => bin_val sp op x y
      | _, _ => None
      end
  | _ => None
  end.

(** ** Data frames *)
Inductive Obj :=
| OFrame (alias : option string) (rows : Table)
| OGrouped (keys : list string) (rows : Table)
| ORows (rows : Table).    (* a Python list of rows, which has no data frame methods *)

Definition int_arg_of (t : Py) : option Z := match lit_val t with Some (SInt z) => Some z | _ => None end.
(** The name of a selected column *)
Definition out_name (t : Py) : option string :=
  match t with
  | PCall (PAttr e m) [PStr n] [] =>
      if String.eqb m "alias" then Some n
      else match e with
           | PName f => if String.eqb f "F" && String.eqb m "col" then Some n else None
           | _ => None
           end
  | _ => None
  end.
Definition unalias (t : Py) : Py :=
  match t with
  | PCall (PAttr e m) [PStr n] [] => if String.eqb m "alias" then e else t
  | _ => t
  end.
(** One sort key: the column and whether it is descending *)
Definition sort_key_of (t : Py) : option (string * bool) :=
  match t with
  | PCall (PAttr (PCall (PAttr (PName f) c) [PStr n] []) m) [] [] =>
      if String.eqb f "F" && String.eqb c "col" then
        if String.eqb m "asc" then Some (n, false)
        else if String.eqb m "desc" then Some (n, true) else None
      else None
  | _ => None
  end.
(** Lexicographic comparison by several keys *)
Fixpoint row_le (le : Val -> Val -> bool) (keys : list (string * bool)) (a b : Row) : bool :=
  match keys with
  | [] => true
  | (n, desc) :: ks =>
      let x := cell n a in
      let y := cell n b in
      let fwd := if desc then le y x else le x y in
      let back := if desc then le x y else le y x in
      if fwd && back then row_le le ks a b else fwd
  end.
(** Distinct keys of a table, in order of appearance *)
Definition val_eqb (a b : Val) : bool :=
  match a, b with
  | SNull, SNull => true
  | SBool x, SBool y => Bool.eqb x y
  | SInt x, SInt y => Z.eqb x y
  | SNum x, SNum y => String.eqb x y
  | SStr x, SStr y => String.eqb x y
  | _, _ => false
  end.
Fixpoint vals_eqb (a b : list Val) : bool :=
  match a, b with
  | [], [] => true
  | x :: a', y :: b' => val_eqb x y && vals_eqb a' b'
  | _, _ => false
  end.
Definition key_of (keys : list string) (r : Row) : list Val := map (fun k => cell k r) keys.
Fixpoint distinct_keys (seen : list (list Val)) (l : list (list Val)) : list (list Val) :=
  match l with
  | [] => []
  | k :: l' => if existsb (vals_eqb k) seen then distinct_keys seen l' else k :: distinct_keys (k :: seen) l'
  end.
Definition group_rows (keys : list string) (rows : Table) (k : list Val) : Table :=
  filter (fun r => vals_eqb k (key_of keys r)) rows.
(** Qualified names of an aliased frame, for join conditions *)
Definition qualify (alias : option string) (r : Row) : Row :=
  match alias with
  | Some a => map (fun c => (a ++ "." ++ fst c, snd c)%string) r
  | None => r
  end.
Definition str_items (l : list Py) : option (list string) :=
  all_some (map (fun t => match t with PStr s => Some s | _ => None end) l).

(** F.window(column, length) among the keys of groupBy: a column named window.  Spark accepts one. *)
Definition window_item (t : Py) : option (string * string) :=
  match t with
  | PCall (PAttr (PName f) w) [PStr x; PStr d] [] => if String.eqb f "F" && String.eqb w "window" then Some (x, d) else None
  | _ => None
  end.
Definition key_name (t : Py) : option string :=
  match t with PStr s => Some s | _ => option_map (fun _ => "window"%string) (window_item t) end.

Section Frames.
  Variable sp : Spark.
  Variable db : string -> option Table.
  Variable commands : string -> option Obj -> list Py -> list (string * Py) -> option Obj.

  Definition keep_where (c : Py) (rows : Table) : option Table :=
    match all_some (map (fun r => match cv sp r c with
                                  | Some v => match truth v with Some _ => Some (is_true v) | None => None end
                                  | None => None
                                  end) rows) with
    | Some keep => Some (map fst (filter snd (combine rows keep)))
    | None => None
    end.
  Definition windowed (l : list Py) (rows : Table) : option Obj :=
    match all_some (map key_name l), List.concat (map (fun t => match window_item t with Some w => [w] | None => [] end) l) with
    | Some ks, [(x, d)] =>
        Some (OGrouped ks (map (fun r => set_cell "window" (sp_fn sp "window" [AVal (cell x r); ALit (SStr d)]) r) rows))
    | _, _ => None
    end.
  Definition map_rows (f : Row -> option Row) (rows : Table) : option Table := all_some (map f rows).
  Definition select_row (cols : list Py) (r : Row) : option Row :=
    all_some (map (fun c => match out_name c, cv sp r c with Some n, Some v => Some (n, v) | _, _ => None end) cols).
  (** One row per distinct key: the key's cells, then the aggregates *)
  Definition aggregate (keys : list string) (rows : Table) (aggs : list Py) : option Table :=
    match all_some (map (fun a => option_map (fun n => (n, unalias a)) (out_name a)) aggs) with
    | Some named =>
        let groups := match keys with [] => [[]] | _ => distinct_keys [] (map (key_of keys) rows) end in
        all_some (map (fun k => option_map (app (combine keys k))
          (all_some (map (fun na => option_map (pair (fst na)) (agg_val sp (group_rows keys rows k) (snd na))) named))) groups)
    | None => None
    end.
  Definition join_rows (la ra : option string) (cond : Py) (left right : Table) (kind : string) : option Table :=
    match all_some (map (fun l =>
            option_map (fun ms => (l, ms))
              (all_some (map (fun r => match cv sp (qualify la l ++ qualify ra r) cond with
                                       | Some v => match truth v with Some _ => Some (r, is_true v) | None => None end
                                       | None => None
                                       end) right))) left) with
    | Some pairs =>
        let matches (lm : Row * list (Row * bool)) := map (fun r => fst lm ++ fst r) (filter snd (snd lm)) in
        if String.eqb kind "inner" then Some (List.concat (map matches pairs))
        else if String.eqb kind "left" then
          Some (List.concat (map (fun lm => match matches lm with [] => [fst lm] | l => l end) pairs))
        else if String.eqb kind "outer" then
          Some (List.concat (map (fun lm => match matches lm with [] => [fst lm] | l => l end) pairs)
                ++ map snd (filter (fun ir => negb (existsb (fun lm => nth (fst ir) (map snd (snd lm)) false) pairs))
                                   (combine (seq 0 (length right)) right)))
        else None
    | None => None
    end.

  (** A method of a data frame or of grouped data.  [objs] are the data frames among the
      arguments, at their positions. *)
  Definition frame_method (o : Obj) (m : string) (args : list Py) (objs : list (option Obj))
    (kwargs : list (string * Py)) : option Obj :=
    match o with
    | OGrouped keys rows =>
        if String.eqb m "agg" then
          match kwargs with [] => option_map (OFrame None) (aggregate keys rows args) | _ => None end
        else None
    | ORows _ => None
    | OFrame alias rows =>
        let frame := option_map (OFrame alias) in
        if String.eqb m "unionByName" then
          match args, objs, kwargs with
          | [_], [Some (OFrame _ rows')], [(k, PName b)] =>
              if String.eqb k "allowMissingColumns" && String.eqb b "True" then Some (OFrame None (rows ++ rows')) else None
          | _, _, _ => None
          end
        else match kwargs with _ :: _ => None | [] =>
        if String.eqb m "where" then
          match args with [c] => frame (keep_where c rows) | _ => None end
        else if String.eqb m "select" then
          match args with [] => None | _ => option_map (OFrame None) (map_rows (select_row args) rows) end
        else if String.eqb m "withColumn" then
          match args with
          | [PStr n; c] => frame (map_rows (fun r => option_map (fun v => set_cell n v r) (cv sp r c)) rows)
          | _ => None
          end
        else if String.eqb m "withColumnRenamed" then
          match args with [PStr a; PStr b] => Some (OFrame alias (map (rename_cell a b) rows)) | _ => None end
        else if String.eqb m "limit" then
          match args with
          | [a] => match int_arg_of a with
                   | Some z => if (z <? 0)%Z then None else Some (OFrame alias (firstn (Z.to_nat z) rows))
                   | None => None
                   end
          | _ => None
          end
        else if String.eqb m "tail" then
          match args with
          | [a] => match int_arg_of a with
                   | Some z => if (z <? 0)%Z then None else Some (ORows (skipn (length rows - Z.to_nat z) rows))
                   | None => None
                   end
          | _ => None
          end
        else if String.eqb m "orderBy" then
          match all_some (map sort_key_of args) with
          | Some (k :: keys) => Some (OFrame alias (sp_sort sp (row_le (sp_le sp) (k :: keys)) rows))
          | _ => None
          end
        else if String.eqb m "groupBy" then
          match args with
          | [PList l] => match str_items l with Some ks => Some (OGrouped ks rows) | None => windowed l rows end
          | _ => None
          end
        else if String.eqb m "alias" then
          match args with [PStr a] => Some (OFrame (Some a) rows) | _ => None end
        else if String.eqb m "join" then
          match args, objs with
          | [_; c; PStr kind], Some (OFrame ra others) :: _ =>
              option_map (OFrame None) (join_rows alias ra c rows others kind)
          | _, _ => None
          end
        else if String.eqb m "fillna" then
          match args with
          | [PStr v] => Some (OFrame alias (map (map (fun c => match snd c with SNull => (fst c, SStr v) | _ => c end)) rows))
          | _ => None
          end
        else None
        end
    end.

  Fixpoint fv (vars : list (string * Obj)) (t : Py) : option Obj :=
    match t with
    | PName x => match find (fun v => String.eqb x (fst v)) vars with Some v => Some (snd v) | None => None end
    | PCall (PAttr e m) args kwargs =>
        let objs := map (fv vars) args in
        let method := match fv vars e with Some o => frame_method o m args objs kwargs | None => None end in
        match e with
        | PName mod_ =>
            if String.eqb mod_ "spark" then
              if String.eqb m "table" then
                match args, kwargs with [PStr n], [] => option_map (OFrame None) (db n) | _, _ => None end
              else if String.eqb m "range" then
                match args, kwargs with
                | [PNum a; n; PNum b], [] =>
                    match int_arg_of n with
                    | Some z => if String.eqb a "0" && String.eqb b "1"
                                then Some (OFrame None (map (fun i => [("id"%string, SInt (Z.of_nat i))]) (seq 0 (Z.to_nat z))))
                                else None
                    | None => None
                    end
                | _, _ => None
                end
              else None
            else if String.eqb mod_ "commands" then
              match args, objs with
              | PName x :: args', o :: _ =>
                  if String.eqb x "None" then commands m None args' kwargs
                  else match o with Some o => commands m (Some o) args' kwargs | None => None end
              | _ :: args', Some o :: _ => commands m (Some o) args' kwargs
              | _, _ => None
              end
            else method
        | _ => method
        end
    | _ => None
    end.

  (** A program: assignments one after the other, then the value of the last expression *)
  Fixpoint exec (vars : list (string * Obj)) (p : list (string * Py)) (result : Py) : option Obj :=
    match p with
    | [] => fv vars result
    | (x, t) :: p' => match fv vars t with Some o => exec ((x, o) :: vars) p' result | None => None end
    end.
  (** The object the Python text computes, if Python can read it as a program *)
  Definition computes (code : string) (o : Obj) : Prop :=
    exists assignments result, python_program code assignments result /\ exec [] assignments result = Some o.
End Frames.
(** Programs that call no runtime command *)
Definition no_commands : string -> option Obj -> list Py -> list (string * Py) -> option Obj := fun _ _ _ _ => None.
