(** Rendering of the PySpark abstract syntax as Python text:
    /repo/src/pyspark/ast.rs (TemplateNode implementations) and
    /repo/src/pyspark/base.rs (PythonCode). *)
From Verif Require Import Str PyAst.

(** src/pyspark/base.rs 41-76: PythonCode; an empty list of lines is no preface *)
Record PythonCode := mkCode { preface : list string; primary : string }.

(** Display for PythonCode, src/pyspark/base.rs 69-76: every preface line
    followed by a newline, then the primary expression. *)
Definition code_to_string (c : PythonCode) : string :=
  (sconcat (map (fun l => l ++ nl) (preface c)) ++ primary c)%string.

(** src/pyspark/ast.rs 219-261 (ColumnLike) and 263-300 (Expr): a binary
    operation gets parentheses exactly when it is rendered as an Expr. *)
Fixpoint render_col (c : ColumnLike) : string :=
  match c with
  | CNamed n => "F.col('" ++ n ++ "')"
  | CLiteral code => "F.lit(" ++ code ++ ")"
  | CMethodCall col f args =>
      render_pexpr col ++ "." ++ f ++ "(" ++ join ", " (map render_pexpr args) ++ ")"
  | CFunctionCall f args =>
      (if contains "." f then f else "F." ++ f)
        ++ "(" ++ join ", " (map render_pexpr args) ++ ")"
  | CAliased col n => render_pexpr col ++ ".alias('" ++ n ++ "')"
  | CBinaryOp op l r => render_pexpr l ++ " " ++ op ++ " " ++ render_pexpr r
  | CUnaryNot r => "~" ++ render_pexpr r
  end%string
with render_pexpr (e : PExpr) : string :=
  match e with
  | PCol (CBinaryOp op l r) =>
      "(" ++ (render_pexpr l ++ " " ++ op ++ " " ++ render_pexpr r) ++ ")"
  | PCol c => render_col c
  | PyLit code => code
  end%string.

(** src/pyspark/ast.rs 302-327 *)
Definition render_con (c : ColumnOrName) : string :=
  match c with
  | CNColumn c => render_col c
  | CNName s => (dq ++ s ++ dq)%string
  end.

(** src/pyspark/ast.rs 777-816, the argument list of a runtime command *)
Definition kwarg (k v : string) : string := (k ++ "=" ++ v)%string.

(** src/pyspark/ast.rs 772-949: a Runtime node contributes an assignment line
    to the preface and is referred to by name; Named likewise; every other node
    renders its source inline, through Display, and has an empty preface.
    346-476: dictionaries, lists and runtime function calls render their parts
    and drop the parts' prefaces. *)
Fixpoint render_rexpr (r : RuntimeExpr) : PythonCode :=
  match r with
  | RDataFrame d => render_df d
  | RExpr e => mkCode [] (render_pexpr e)
  | RDict kvs =>
      mkCode [] ("{ " ++ join ", " (map (fun kv => dq ++ fst kv ++ dq ++ ": "
                     ++ primary (render_rexpr (snd kv))) kvs) ++ " }")%string
  | RList l =>
      mkCode [] ("[ " ++ join ", " (map (fun x => primary (render_rexpr x)) l) ++ " ]")%string
  | RFunc f args kwargs =>
      mkCode [] ("functions." ++ f ++ "(" ++ join ", "
         (map (fun x => primary (render_rexpr x)) args ++
          map (fun kv => kwarg (fst kv) (primary (render_rexpr (snd kv)))) kwargs) ++ ")")%string
  end
with render_df (d : DataFrame) : PythonCode :=
  match d with
  | DSource n => mkCode [] ("spark.table('" ++ n ++ "')")%string
  | DRawSource code => mkCode [] code
  | DRuntime name src f args kwargs =>
      let s := match src with Some d => Some (render_df d) | None => None end in
      let src_preface := match s with Some c => preface c | None => [] end in
      let src_arg := match s with Some c => primary c | None => "None"%string end in
      let rargs := map render_rexpr args in
      let rkw := map (fun kv => (fst kv, render_rexpr (snd kv))) kwargs in
      mkCode (src_preface
                ++ concat (map preface rargs)
                ++ concat (map (fun kv => preface (snd kv)) rkw)
                ++ [ (name ++ " = commands." ++ f ++ "(" ++
                      join ", " (src_arg :: map primary rargs
                                   ++ map (fun kv => kwarg (fst kv) (primary (snd kv))) rkw)
                      ++ ")")%string ])
             name
  | DNamed src n =>
      let s := render_df src in
      mkCode (preface s ++ [ (n ++ " = " ++ primary s)%string ]) n
  | DSelect src cols =>
      mkCode [] (code_to_string (render_df src)
        ++ ".select(" ++ join ", " (map render_col cols) ++ ",)")%string
  | DWhere src e =>
      mkCode [] (code_to_string (render_df src) ++ ".where(" ++ render_pexpr e ++ ",)")%string
  | DGroupBy src cols =>
      mkCode [] (code_to_string (render_df src)
        ++ ".groupBy([" ++ sconcat (map (fun c => render_con c ++ ", ") cols) ++ "])")%string
  | DAggregation src cols =>
      mkCode [] (code_to_string (render_df src)
        ++ ".agg(" ++ join ", " (map render_col cols) ++ ",)")%string
  | DWithColumn src n c =>
      mkCode [] (code_to_string (render_df src)
        ++ ".withColumn('" ++ n ++ "', " ++ render_col c ++ ",)")%string
  | DWithColumnRenamed src o n =>
      mkCode [] (code_to_string (render_df src)
        ++ ".withColumnRenamed('" ++ o ++ "', '" ++ n ++ "',)")%string
  | DOrderBy src cols =>
      mkCode [] (code_to_string (render_df src)
        ++ ".orderBy(" ++ join ", " (map render_col cols) ++ ",)")%string
  | DUnionByName src other =>
      mkCode [] (code_to_string (render_df src) ++ ".unionByName("
        ++ code_to_string (render_df other) ++ ", allowMissingColumns=True,)")%string
  | DLimit src n =>
      mkCode [] (code_to_string (render_df src) ++ ".limit(" ++ dec n ++ ",)")%string
  | DTail src n =>
      mkCode [] (code_to_string (render_df src) ++ ".tail(" ++ dec n ++ ")")%string
  | DJoin src other cond ty =>
      mkCode [] (code_to_string (render_df src) ++ ".join(" ++ code_to_string (render_df other)
        ++ ", " ++ render_pexpr cond ++ ", '" ++ ty ++ "',)")%string
  | DAlias src n =>
      mkCode [] (code_to_string (render_df src) ++ ".alias('" ++ n ++ "',)")%string
  | DArbitraryMethod src m params =>
      mkCode [] (code_to_string (render_df src) ++ "." ++ m ++ "("
        ++ join "," (map render_pexpr params) ++ ",)")%string
  end.

(** src/pyspark/ast.rs 951-976: the dataframes of a pipeline, two newlines apart. *)
Definition render_dfs (l : list DataFrame) : string :=
  join (nl ++ nl)%string (map (fun d => code_to_string (render_df d)) l).
