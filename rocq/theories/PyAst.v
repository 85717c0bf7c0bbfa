(** The PySpark abstract syntax the transpiler builds, and its constructors:
    /repo/src/pyspark/ast.rs and /repo/src/pyspark/alias.rs. *)
From Verif Require Import Str.

(** src/pyspark/ast.rs 60-88 (ColumnLike) and 263-280 (Expr).
    [PyLit] is PyLiteral, which holds verbatim Python code. *)
Inductive ColumnLike :=
| CNamed (name : string)
| CLiteral (code : string)
| CMethodCall (col : PExpr) (func : string) (args : list PExpr)
| CFunctionCall (func : string) (args : list PExpr)
| CAliased (col : PExpr) (name : string)
| CBinaryOp (op : string) (left right : PExpr)
| CUnaryNot (right : PExpr)
with PExpr :=
| PCol (c : ColumnLike)
| PyLit (code : string).

(** ** PyLiteral::from, src/pyspark/ast.rs 16-50 *)
Definition pylit_str (s : string) : PExpr := PyLit (dq ++ s ++ dq)%string.
Definition pylit_int (z : Z) : PExpr := PyLit (dec z).
Definition pylit_bool (b : bool) : PExpr := PyLit (if b then "True" else "False").
Definition pylit_none : PExpr := PyLit "None".
Definition pylit_opt_str (o : option string) : PExpr :=
  match o with Some s => pylit_str s | None => pylit_none end.

(** ** Aliasing, src/pyspark/alias.rs 27-49 *)
Fixpoint cl_unaliased_with_name (c : ColumnLike) : ColumnLike * option string :=
  match c with
  | CAliased (PCol c') name => (fst (cl_unaliased_with_name c'), Some name)
  | CAliased (PyLit _) name => (c, Some name)
  | _ => (c, None)
  end.
Definition cl_unaliased (c : ColumnLike) : ColumnLike := fst (cl_unaliased_with_name c).

Definition pe_unaliased_with_name (e : PExpr) : PExpr * option string :=
  match e with
  | PCol c => let (c', n) := cl_unaliased_with_name c in (PCol c', n)
  | PyLit _ => (e, None)
  end.
Definition pe_unaliased (e : PExpr) : PExpr := fst (pe_unaliased_with_name e).

(** ** ColumnLike constructors, src/pyspark/ast.rs 90-172 *)
Definition c_method (col : PExpr) (func : string) (args : list PExpr) : ColumnLike :=
  CMethodCall (pe_unaliased col) func args.
Definition c_func (func : string) (args : list PExpr) : ColumnLike := CFunctionCall func args.
Definition c_aliased (col : PExpr) (name : string) : ColumnLike := CAliased (pe_unaliased col) name.
Definition c_binary (left : PExpr) (op : string) (right : PExpr) : ColumnLike :=
  CBinaryOp op (pe_unaliased left) (pe_unaliased right).
Definition c_not (right : PExpr) : ColumnLike := CUnaryNot (pe_unaliased right).

(** src/pyspark/alias.rs 51-75 *)
Definition cl_with_alias (c : ColumnLike) (name : string) : ColumnLike :=
  c_aliased (PCol (cl_unaliased c)) name.
Definition cl_maybe_with_alias (c : ColumnLike) (name : option string) : ColumnLike :=
  match name with Some n => cl_with_alias c n | None => c end.
Definition pe_with_alias (e : PExpr) (name : string) : PExpr := PCol (c_aliased e name).
Definition pe_maybe_with_alias (e : PExpr) (name : option string) : PExpr :=
  match name with Some n => pe_with_alias e n | None => e end.

(** ** Abbreviations of the column_like! macro, src/pyspark/ast.rs 174-214 *)
Definition pcol (name : string) : PExpr := PCol (CNamed name).
Definition plit (code : string) : PExpr := PCol (CLiteral code).
Definition pfun (f : string) (args : list PExpr) : PExpr := PCol (c_func f args).
Definition pmeth (e : PExpr) (f : string) (args : list PExpr) : PExpr := PCol (c_method e f args).
Definition pbin (l : PExpr) (op : string) (r : PExpr) : PExpr := PCol (c_binary l op r).
Definition pnot (e : PExpr) : PExpr := PCol (c_not e).
(** expr(fmt, args): F.expr of a double-quoted text *)
Definition pexpr_sql (sql : string) : PExpr := pfun "expr" [pylit_str sql].

(** src/pyspark/ast.rs 302-327 *)
Inductive ColumnOrName :=
| CNColumn (c : ColumnLike)
| CNName (s : string).

(** src/pyspark/ast.rs 479-553 (RuntimeExpr) and 557-632 (DataFrame).
    PyDict and PyRuntimeFunc keyword arguments are ordered association lists.
    Limits are u64 values carried as Z. *)
Inductive RuntimeExpr :=
| RDataFrame (d : DataFrame)
| RExpr (e : PExpr)
| RDict (kvs : list (string * RuntimeExpr))
| RList (l : list RuntimeExpr)
| RFunc (name : string) (args : list RuntimeExpr) (kwargs : list (string * RuntimeExpr))
with DataFrame :=
| DSource (name : string)
| DRuntime (name : string) (source : option DataFrame) (func : string)
           (args : list RuntimeExpr) (kwargs : list (string * RuntimeExpr))
| DRawSource (code : string)
| DNamed (source : DataFrame) (name : string)
| DSelect (source : DataFrame) (columns : list ColumnLike)
| DWhere (source : DataFrame) (condition : PExpr)
| DGroupBy (source : DataFrame) (columns : list ColumnOrName)
| DAggregation (source : DataFrame) (columns : list ColumnLike)
| DWithColumn (source : DataFrame) (name : string) (column : ColumnLike)
| DWithColumnRenamed (source : DataFrame) (old new : string)
| DOrderBy (source : DataFrame) (columns : list ColumnLike)
| DUnionByName (source other : DataFrame)
| DLimit (source : DataFrame) (limit : Z)
| DTail (source : DataFrame) (limit : Z)
| DJoin (source other : DataFrame) (condition : PExpr) (join_type : string)
| DAlias (source : DataFrame) (name : string)
| DArbitraryMethod (source : DataFrame) (method : string) (params : list PExpr).

(** From<ColumnOrName> for RuntimeExpr, src/pyspark/ast.rs 479-553 *)
Definition runtime_of_con (c : ColumnOrName) : RuntimeExpr :=
  match c with
  | CNColumn c => RExpr (PCol c)
  | CNName n => RExpr (PCol (CNamed n))
  end.

(** ** DataFrame constructors, src/pyspark/ast.rs 634-764 *)
Definition d_where (d : DataFrame) (e : PExpr) : DataFrame := DWhere d (pe_unaliased e).
Definition d_with_column (d : DataFrame) (name : string) (c : ColumnLike) : DataFrame :=
  DWithColumn d name (cl_unaliased c).
Definition d_join (d other : DataFrame) (cond : PExpr) (ty : string) : DataFrame :=
  DJoin d other (pe_unaliased cond) ty.
(** Default for DataFrame, src/pyspark/ast.rs 766-770 *)
Definition d_default : DataFrame := DSource "main".
Definition d_or_default (d : option DataFrame) : DataFrame :=
  match d with Some d => d | None => d_default end.
