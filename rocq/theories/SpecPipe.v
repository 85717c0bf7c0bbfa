(** Specifications about whole pipelines: which commands occur in a pipeline, which
    commands PySpark code can be generated for, and what the generated data frames
    look like. *)
From Coq Require Import String List Arith.
Import ListNotations.
From Verif Require Import Str SplAst PyAst Render.
Open Scope string_scope.
Open Scope list_scope.

(** A command of the pipeline itself, or of a sub-search of one of its commands *)
Inductive occurs (c : Command) : list Command -> Prop :=
| OC_here : forall p, In c p -> occurs c p
| OC_join : forall p o q, In (CJoin o q) p -> occurs c q -> occurs c p
| OC_multisearch : forall p qs q, In (CMultiSearch qs) p -> In q qs -> occurs c q -> occurs c p.

(** The commands that are parsed but not translated *)
Definition untranslatable (c : Command) : Prop :=
  match c with
  | CCollect _ | CDedup _ _ _ _ _ _ _ _ | CEventStats _ _ _ | CFormat _ | CInputLookup _ _
  | CMap _ _ | CMvCombine _ _ | CMvExpand _ _ | CReturn _ _ | CStreamStats _ _ _ _ => True
  | _ => False
  end.

(** ** Looking inside generated columns and data frames *)
(** Every column written inside a column, the column itself first *)
Fixpoint subcolumns (c : ColumnLike) : list ColumnLike :=
  c :: match c with
       | CNamed _ | CLiteral _ => []
       | CMethodCall col _ args => subcolumns_of col ++ List.concat (map subcolumns_of args)
       | CFunctionCall _ args => List.concat (map subcolumns_of args)
       | CAliased col _ => subcolumns_of col
       | CBinaryOp _ l r => subcolumns_of l ++ subcolumns_of r
       | CUnaryNot r => subcolumns_of r
       end
with subcolumns_of (e : PExpr) : list ColumnLike :=
  match e with PCol c => subcolumns c | PyLit _ => [] end.

Definition is_alias (c : ColumnLike) : Prop := match c with CAliased _ _ => True | _ => False end.
Definition is_alias_of (e : PExpr) : Prop := match e with PCol c => is_alias c | PyLit _ => False end.
(** Operands, receivers and the thing an alias is given to carry no alias *)
Definition operands_unaliased (c : ColumnLike) : Prop :=
  match c with
  | CMethodCall col _ _ => ~ is_alias_of col
  | CAliased col _ => ~ is_alias_of col
  | CBinaryOp _ l r => ~ is_alias_of l /\ ~ is_alias_of r
  | CUnaryNot r => ~ is_alias_of r
  | _ => True
  end.

(** The column expressions a runtime argument holds, and the data frames *)
Fixpoint rt_exprs (r : RuntimeExpr) : list PExpr :=
  match r with
  | RDataFrame _ => []
  | RExpr e => [e]
  | RDict kvs => List.concat (map (fun kv => rt_exprs (snd kv)) kvs)
  | RList l => List.concat (map rt_exprs l)
  | RFunc _ args kwargs =>
      List.concat (map rt_exprs args) ++ List.concat (map (fun kv => rt_exprs (snd kv)) kwargs)
  end.
(** Every data frame a data frame is computed from, itself first *)
Fixpoint rt_frames (r : RuntimeExpr) : list DataFrame :=
  match r with
  | RDataFrame d => frames d
  | RExpr _ => []
  | RDict kvs => List.concat (map (fun kv => rt_frames (snd kv)) kvs)
  | RList l => List.concat (map rt_frames l)
  | RFunc _ args kwargs =>
      List.concat (map rt_frames args) ++ List.concat (map (fun kv => rt_frames (snd kv)) kwargs)
  end
with frames (d : DataFrame) : list DataFrame :=
  d :: match d with
       | DSource _ | DRawSource _ => []
       | DRuntime _ src _ args kwargs =>
           match src with Some s => frames s | None => [] end
             ++ List.concat (map rt_frames args) ++ List.concat (map (fun kv => rt_frames (snd kv)) kwargs)
       | DNamed s _ | DSelect s _ | DWhere s _ | DGroupBy s _ | DAggregation s _
       | DWithColumn s _ _ | DWithColumnRenamed s _ _ | DOrderBy s _ | DLimit s _ | DTail s _
       | DAlias s _ | DArbitraryMethod s _ _ => frames s
       | DUnionByName s o => frames s ++ frames o
       | DJoin s o _ _ => frames s ++ frames o
       end.
Definition con_exprs (c : ColumnOrName) : list PExpr :=
  match c with CNColumn c => [PCol c] | CNName _ => [] end.
(** The column expressions written in one step of a data frame *)
Definition step_exprs (d : DataFrame) : list PExpr :=
  match d with
  | DSource _ | DRawSource _ | DNamed _ _ | DWithColumnRenamed _ _ _ | DUnionByName _ _
  | DLimit _ _ | DTail _ _ | DAlias _ _ => []
  | DRuntime _ _ _ args kwargs =>
      List.concat (map rt_exprs args) ++ List.concat (map (fun kv => rt_exprs (snd kv)) kwargs)
  | DSelect _ l | DAggregation _ l | DOrderBy _ l => map PCol l
  | DWhere _ e | DJoin _ _ e _ => [e]
  | DGroupBy _ l => List.concat (map con_exprs l)
  | DWithColumn _ _ c => [PCol c]
  | DArbitraryMethod _ _ l => l
  end.
(** Every column of a data frame, at any depth *)
Definition all_columns (d : DataFrame) : list ColumnLike :=
  List.concat (map (fun x => List.concat (map subcolumns_of (step_exprs x))) (frames d)).
(** Conditions and assigned columns of one step *)
Definition step_conditions (d : DataFrame) : list PExpr :=
  match d with
  | DWhere _ e | DJoin _ _ e _ => [e]
  | DWithColumn _ _ c => [PCol c]
  | _ => []
  end.
Definition is_runtime (d : DataFrame) : Prop :=
  match d with DRuntime _ _ _ _ _ | DNamed _ _ => True | _ => False end.

(** ** The functions a query calls *)
Fixpoint called (e : Expr) : list string :=
  match e with
  | EBinary l _ r => called l ++ called r
  | EUnary _ r => called r
  | ECall f args => f :: List.concat (map called args)
  | EAlias e _ => called e
  | _ => []
  end.
(** The functions called by one command, not counting its sub-searches *)
Definition command_calls (c : Command) : list string :=
  match c with
  | CEval l => List.concat (map (fun fe => called (snd fe)) l)
  | CSearch e | CWhere e => called e
  | CStats _ l _ => List.concat (map called l)
  | CTStats _ l _ _ w _ _ => List.concat (map called l) ++ match w with Some e => called e | None => [] end
  | CConvert _ l => map fc_func l
  | _ => []
  end.

(** ** The text of a data frame, cut into pieces
    [frag_df] follows the same layout as the renderer but keeps apart the places where
    a name is assigned, where an assignment line ends, and where a name is used.
    [spell] forgets the distinction again; it is a theorem that spelling the pieces
    gives the rendered text. *)
Inductive Frag :=
| FText (s : string)
| FAssign (name : string)
| FEndLine
| FUse (name : string).
Definition spell1 (f : Frag) : string :=
  match f with FText s => s | FAssign n => (n ++ " = ")%string | FEndLine => nl | FUse n => n end.
Definition spell (l : list Frag) : string := sconcat (map spell1 l).

Fixpoint frag_join (sep : string) (l : list (list Frag)) : list Frag :=
  match l with
  | nil => nil
  | x :: nil => x
  | x :: l' => x ++ FText sep :: frag_join sep l'
  end.
Record FCode := mkFCode { f_lines : list (list Frag); f_expr : list Frag }.
(** Lines first, each ended, then the expression *)
Definition f_all (c : FCode) : list Frag :=
  List.concat (map (fun l => l ++ [FEndLine]) (f_lines c)) ++ f_expr c.
Fixpoint frag_rexpr (r : RuntimeExpr) : FCode :=
  match r with
  | RDataFrame d => frag_df d
  | RExpr e => mkFCode [] [FText (render_pexpr e)%string]
  | RDict kvs =>
      mkFCode [] (FText "{ " :: frag_join ", " (map (fun kv =>
         FText (dq ++ fst kv ++ dq ++ ": ")%string :: f_expr (frag_rexpr (snd kv))) kvs) ++ [FText " }"])
  | RList l =>
      mkFCode [] (FText "[ " :: frag_join ", " (map (fun x => f_expr (frag_rexpr x)) l) ++ [FText " ]"])
  | RFunc f args kwargs =>
      mkFCode [] (FText ("functions." ++ f ++ "(")%string :: frag_join ", "
         (map (fun x => f_expr (frag_rexpr x)) args ++
          map (fun kv => FText (fst kv ++ "=")%string :: f_expr (frag_rexpr (snd kv))) kwargs) ++ [FText ")"])
  end
with frag_df (d : DataFrame) : FCode :=
  match d with
  | DSource n => mkFCode [] [FText ("spark.table('" ++ n ++ "')")%string]
  | DRawSource code => mkFCode [] [FText code]
  | DRuntime name src f args kwargs =>
      let s := match src with Some d => frag_df d | None => mkFCode [] [FText "None"] end in
      let rargs := map frag_rexpr args in
      let rkw := map (fun kv => (fst kv, frag_rexpr (snd kv))) kwargs in
      mkFCode (f_lines s ++ List.concat (map f_lines rargs) ++ List.concat (map (fun kv => f_lines (snd kv)) rkw)
                 ++ [ FAssign name :: FText ("commands." ++ f ++ "(")%string ::
                      frag_join ", " (f_expr s :: map f_expr rargs
                        ++ map (fun kv => FText (fst kv ++ "=")%string :: f_expr (snd kv)) rkw) ++ [FText ")"] ])
              [FUse name]
  | DNamed src n =>
      let s := frag_df src in
      mkFCode (f_lines s ++ [ FAssign n :: f_expr s ]) [FUse n]
  | DSelect src cols =>
      mkFCode [] (f_all (frag_df src) ++ [FText (".select(" ++ join ", " (map render_col cols) ++ ",)")%string])
  | DWhere src e =>
      mkFCode [] (f_all (frag_df src) ++ [FText (".where(" ++ render_pexpr e ++ ",)")%string])
  | DGroupBy src cols =>
      mkFCode [] (f_all (frag_df src)
        ++ [FText (".groupBy([" ++ sconcat (map (fun c => render_con c ++ ", ") cols) ++ "])")%string])
  | DAggregation src cols =>
      mkFCode [] (f_all (frag_df src) ++ [FText (".agg(" ++ join ", " (map render_col cols) ++ ",)")%string])
  | DWithColumn src n c =>
      mkFCode [] (f_all (frag_df src) ++ [FText (".withColumn('" ++ n ++ "', " ++ render_col c ++ ",)")%string])
  | DWithColumnRenamed src o n =>
      mkFCode [] (f_all (frag_df src) ++ [FText (".withColumnRenamed('" ++ o ++ "', '" ++ n ++ "',)")%string])
  | DOrderBy src cols =>
      mkFCode [] (f_all (frag_df src) ++ [FText (".orderBy(" ++ join ", " (map render_col cols) ++ ",)")%string])
  | DUnionByName src other =>
      mkFCode [] (f_all (frag_df src) ++ FText ".unionByName(" :: f_all (frag_df other)
                    ++ [FText ", allowMissingColumns=True,)"])
  | DLimit src n => mkFCode [] (f_all (frag_df src) ++ [FText (".limit(" ++ dec n ++ ",)")%string])
  | DTail src n => mkFCode [] (f_all (frag_df src) ++ [FText (".tail(" ++ dec n ++ ")")%string])
  | DJoin src other cond ty =>
      mkFCode [] (f_all (frag_df src) ++ FText ".join(" :: f_all (frag_df other)
                    ++ [FText (", " ++ render_pexpr cond ++ ", '" ++ ty ++ "',)")%string])
  | DAlias src n => mkFCode [] (f_all (frag_df src) ++ [FText (".alias('" ++ n ++ "',)")%string])
  | DArbitraryMethod src m params =>
      mkFCode [] (f_all (frag_df src)
        ++ [FText ("." ++ m ++ "(" ++ join "," (map render_pexpr params) ++ ",)")%string])
  end.
Definition frags (d : DataFrame) : list Frag := f_all (frag_df d).

(** The names assigned, in the order of the text *)
Fixpoint assigned (l : list Frag) : list string :=
  match l with
  | nil => nil
  | FAssign n :: l' => n :: assigned l'
  | _ :: l' => assigned l'
  end.
(** A name may be used once the line assigning it has ended.  [open] are the assignments
    whose line has not ended yet, the innermost first; [defined] those that have. *)
Fixpoint scoped (open defined : list string) (l : list Frag) : Prop :=
  match l with
  | nil => open = nil
  | FText _ :: l' => scoped open defined l'
  | FAssign n :: l' => scoped (n :: open) defined l'
  | FEndLine :: l' => match open with n :: o => scoped o (n :: defined) l' | nil => False end
  | FUse n :: l' => In n defined /\ scoped open defined l'
  end.
(** Assignments, one a line, and then one expression *)
Definition inert (f : Frag) : Prop :=
  match f with FText _ | FUse _ => True | FAssign _ | FEndLine => False end.
Definition statements (l : list Frag) : Prop :=
  exists lines expr,
    l = List.concat (map (fun a => FAssign (fst a) :: snd a ++ [FEndLine]) lines) ++ expr
    /\ Forall (fun a => Forall inert (snd a)) lines /\ Forall inert expr.

(** The commands the runtime library has a version of *)
Definition has_runtime (c : Command) : Prop :=
  match c with
  | CDataModel _ | CEval _ | CFillNull _ _ | CSearch _ | CStats _ _ _ | CTStats _ _ _ _ _ _ _ => True
  | _ => False
  end.

(** The terms index=v of a search condition, looked for through AND, OR and the other
    operators: the right hand sides v *)
Definition index_field (e : Expr) : bool :=
  match e with ELeaf (LConstant (KField n)) => String.eqb n "index" | _ => false end.
Fixpoint index_terms (e : Expr) : list Expr :=
  match e with
  | EBinary l op r =>
      if index_field l then (if String.eqb op "=" then [r] else [])
      else if index_field r then (if String.eqb op "=" then [l] else [])
      else index_terms l ++ index_terms r
  | _ => []
  end.
(** The commands that do not read the events piped into them *)
Definition starts_over (c : Command) : Prop :=
  match c with
  | CMakeResults _ => True
  | CMultiSearch qs => qs <> []
  | CSearch e => index_terms e <> []
  | _ => False
  end.
