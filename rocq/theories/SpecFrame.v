(** The Python program a generated data frame stands for: assignments and a last
    expression.  Specification for reading rendered data frames. *)
From Verif Require Import Str PyAst SpecPy SpecCol.
Open Scope list_scope.

(** spark.table('name') *)
Definition py_table (n : string) : Py := py_method (PName "spark") "table" [PStr n].
Definition con_tree (c : ColumnOrName) : Py :=
  match c with CNColumn c => col_tree c | CNName s => PStr s end.
Definition py_int (z : Z) : Py := code_tree (dec z).
(** Source code used as a data frame: only spark.range(0, n, 1) is generated.  The text
    of the count: *)
Definition raw_count (code : string) : option string :=
  match strip_prefix "spark.range(0, " code with
  | Some rest =>
      let n := substring 0 (String.length rest - 4) rest in
      if String.eqb rest (n ++ ", 1)") then Some n else None
  | None => None
  end.
Definition raw_tree (code : string) : Py :=
  match raw_count code with
  | Some n => py_method (PName "spark") "range" [PNum "0"; code_tree n; PNum "1"]
  | None => PName code
  end.

Definition Prog := (list (string * Py) * Py)%type.

(** Assignments and value of a runtime argument and of a data frame.  Only runtime calls
    and named frames are assigned; every other step is a method call on its source.
    Frames inside dictionaries, lists and runtime function calls do not occur. *)
Fixpoint rt_prog (r : RuntimeExpr) : Prog :=
  match r with
  | RDataFrame d => df_prog d
  | RExpr e => ([], pexpr_tree e)
  | RDict kvs => ([], PDict (map (fun kv => (PStr (fst kv), snd (rt_prog (snd kv)))) kvs))
  | RList l => ([], PList (map (fun x => snd (rt_prog x)) l))
  | RFunc f args kwargs =>
      ([], PCall (py_path ("functions." ++ f)%string) (map (fun x => snd (rt_prog x)) args)
                 (map (fun kv => (fst kv, snd (rt_prog (snd kv)))) kwargs))
  end
with df_prog (d : DataFrame) : Prog :=
  let step (p : Prog) (m : string) (args : list Py) : Prog := (fst p, py_method (snd p) m args) in
  match d with
  | DSource n => ([], py_table n)
  | DRawSource code => ([], raw_tree code)
  | DRuntime name src f args kwargs =>
      let s := match src with Some d => df_prog d | None => ([], PName "None") end in
      (fst s ++ List.concat (map (fun x => fst (rt_prog x)) args)
             ++ List.concat (map (fun kv => fst (rt_prog (snd kv))) kwargs)
             ++ [(name, PCall (PAttr (PName "commands") f) (snd s :: map (fun x => snd (rt_prog x)) args)
                              (map (fun kv => (fst kv, snd (rt_prog (snd kv)))) kwargs))],
       PName name)
  | DNamed src n => (fst (df_prog src) ++ [(n, snd (df_prog src))], PName n)
  | DSelect src cols => step (df_prog src) "select"%string (map col_tree cols)
  | DWhere src e => step (df_prog src) "where"%string [pexpr_tree e]
  | DGroupBy src cols => step (df_prog src) "groupBy"%string [PList (map con_tree cols)]
  | DAggregation src cols => step (df_prog src) "agg"%string (map col_tree cols)
  | DWithColumn src n c => step (df_prog src) "withColumn"%string [PStr n; col_tree c]
  | DWithColumnRenamed src o n => step (df_prog src) "withColumnRenamed"%string [PStr o; PStr n]
  | DOrderBy src cols => step (df_prog src) "orderBy"%string (map col_tree cols)
  | DUnionByName src other =>
      (fst (df_prog src),
       PCall (PAttr (snd (df_prog src)) "unionByName") [snd (df_prog other)]
             [("allowMissingColumns"%string, PName "True")])
  | DLimit src n => step (df_prog src) "limit"%string [py_int n]
  | DTail src n => step (df_prog src) "tail"%string [py_int n]
  | DJoin src other cond ty =>
      step (df_prog src) "join"%string [snd (df_prog other); pexpr_tree cond; PStr ty]
  | DAlias src n => step (df_prog src) "alias"%string [PStr n]
  | DArbitraryMethod src m params => step (df_prog src) m (map pexpr_tree params)
  end.

(** ** Frames that can be written down without further quoting *)
Definition plain_con (c : ColumnOrName) : bool :=
  match c with CNColumn c => plain_col c | CNName s => plain_between dquote s end.
Definition nonempty {A} (l : list A) : bool := match l with [] => false | _ => true end.
(** Frames that need no assignments before them *)
Fixpoint inline (d : DataFrame) : bool :=
  match d with
  | DSource _ | DRawSource _ => true
  | DRuntime _ _ _ _ _ | DNamed _ _ => false
  | DSelect s _ | DWhere s _ | DGroupBy s _ | DAggregation s _ | DWithColumn s _ _
  | DWithColumnRenamed s _ _ | DOrderBy s _ | DUnionByName s _ | DLimit s _ | DTail s _
  | DJoin s _ _ _ | DAlias s _ | DArbitraryMethod s _ _ => inline s
  end.
(** Frames that are a name or need no assignments *)
Definition operand (d : DataFrame) : bool :=
  match d with DRuntime _ _ _ _ _ | DNamed _ _ => true | _ => inline d end.
Fixpoint distinct (l : list string) : bool :=
  match l with [] => true | x :: l' => negb (str_in x l') && distinct l' end.
Fixpoint plain_rt (r : RuntimeExpr) : bool :=
  match r with
  | RDataFrame d => false
  | RExpr e => plain_pexpr e
  | RDict kvs => forallb (fun kv => plain_between dquote (fst kv) && plain_rt (snd kv)) kvs
  | RList l => forallb plain_rt l
  | RFunc f args kwargs =>
      forallb py_ident (split_on "." ("functions." ++ f)%string)
      && forallb plain_rt args && forallb (fun kv => py_ident (fst kv) && plain_rt (snd kv)) kwargs
      && distinct (map fst kwargs)
  end.
Fixpoint plain_df (d : DataFrame) : bool :=
  match d with
  | DSource n => plain_name_text n
  | DRawSource code => match raw_count code with Some n => plain_code n | None => false end
  | DRuntime name src f args kwargs =>
      py_ident name
      && match src with Some s => operand s && plain_df s | None => true end
      && py_ident f && forallb plain_rt args
      && forallb (fun kv => py_ident (fst kv) && plain_rt (snd kv)) kwargs
      && distinct (map fst kwargs)
  | DNamed s n => operand s && plain_df s && py_ident n
  | DSelect s cols | DAggregation s cols | DOrderBy s cols =>
      plain_df s && nonempty cols && forallb plain_col cols
  | DWhere s e => plain_df s && plain_pexpr e
  | DGroupBy s cols => plain_df s && forallb plain_con cols
  | DWithColumn s n c => plain_df s && plain_name_text n && plain_col c
  | DWithColumnRenamed s o n => plain_df s && plain_name_text o && plain_name_text n
  | DUnionByName s o => plain_df s && plain_df o && inline o
  | DLimit s n | DTail s n => plain_df s
  | DJoin s o c t => plain_df s && plain_df o && inline o && plain_pexpr c && plain_name_text t
  | DAlias s n => plain_df s && plain_name_text n
  | DArbitraryMethod s m l => plain_df s && py_ident m && nonempty l && forallb plain_pexpr l
  end.
