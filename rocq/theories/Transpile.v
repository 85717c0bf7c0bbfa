(** Conversion of SPL expressions to PySpark columns:
    /repo/src/pyspark/transpiler/expr.rs. *)
From Verif Require Import Str SplAst PyAst Functions.

(** expr.rs 11-16, with the fall-through of lines 28-31 *)
Definition simple_op (symbol : string) : string :=
  if String.eqb symbol "=" then "=="
  else if String.eqb symbol "AND" then "&"
  else if String.eqb symbol "OR" then "|"
  else if String.eqb symbol "NOT" then "~"
  else symbol.

(** expr.rs 35-41: field = cidr.  The comparison uses the mapped operator. *)
Definition cidr_case (l : Expr) (op : string) (r : Expr) : option PExpr :=
  match l, r with
  | ELeaf (LConstant (KField col)), ELeaf (LConstant (KIPv4CIDR cidr)) =>
      if String.eqb op "==" then
        Some (pexpr_sql ("cidr_match('" ++ cidr ++ "', " ++ col ++ ")")%string)
      else None
  | _, _ => None
  end.

(** expr.rs 43-59: * becomes % *)
Definition wildcard_to_like (pattern : string) : string := replace_all "*" "%" pattern.
Definition wildcard_cmp (lhs : PExpr) (op pattern : string) : res PExpr :=
  let m := pmeth lhs "like" [pylit_str (wildcard_to_like pattern)] in
  if String.eqb op "=" || String.eqb op "==" then Ok m
  else if String.eqb op "!=" then Ok (pnot m)
  else Err.

(** expr.rs 74-108 and the fall-through 181 for leaves *)
Definition leaf_to_spark (l : LeafExpr) : res PExpr :=
  match l with
  | LConstant (KField n) => Ok (pcol n)
  | LConstant (KInt z) => Ok (plit (dec z))
  | LConstant (KDouble t) => Ok (plit t)
  | LConstant (KStr s) => Ok (plit (sq ++ s ++ sq)%string)
  | LConstant (KBool b) => Ok (plit (if b then "true" else "false"))
  | LConstant (KIPv4CIDR s) => Ok (plit (sq ++ s ++ sq)%string)
  | _ => Err
  end.

(** expr.rs 118-159: one element of a FieldIn list *)
Definition field_in_check (field : string) (e : Expr) : res ColumnLike :=
  match e with
  | ELeaf (LConstant k) =>
      match k with
      | KWildcard v => Ok (c_method (pcol field) "like" [pylit_str (wildcard_to_like v)])
      | KBool b => Ok (c_binary (pcol field) "==" (pylit_bool b))
      | KInt z => Ok (c_binary (pcol field) "==" (pylit_int z))
      | KDouble t => Ok (c_binary (pcol field) "==" (PyLit t))
      | KStr s | KField s | KIPv4CIDR s => Ok (c_binary (pcol field) "==" (pylit_str s))
      | KNull | KSnapTime _ | KTimeSpan _ | KVariable _ => Err
      end
  | _ => Err
  end.

(** expr.rs 114-177 *)
Definition field_in_to_spark (field : string) (exprs : list Expr) : res PExpr :=
  let? checks := rtraverse (field_in_check field) exprs in
  Ok (PCol (match join_as_binaries "|" checks with
            | Some c => c
            | None => CLiteral "True"
            end)).

(** expr.rs 18-184 *)
Fixpoint to_spark_expr (rt : Rt) (e : Expr) : res PExpr :=
  match e with
  | EBinary l symbol r =>
      let op := simple_op symbol in
      match cidr_case l op r with
      | Some c => Ok c
      | None =>
          match r with
          | ELeaf (LConstant (KWildcard pattern)) =>
              let? lhs := to_spark_expr rt l in wildcard_cmp lhs op pattern
          | _ =>
              let? lhs := to_spark_expr rt l in
              let? rhs := to_spark_expr rt r in
              Ok (pbin lhs op rhs)
          end
      end
  | EUnary symbol r =>
      if String.eqb symbol "NOT" then let? x := to_spark_expr rt r in Ok (pnot x) else Err
  | ELeaf l => leaf_to_spark l
  | EFieldIn f exprs => field_in_to_spark f exprs
  | ECall name args =>
      rmap PCol (eval_fn rt name (map (fun a => (a, to_spark_expr rt a)) args))
  | _ => Err
  end.

(** ** Search expressions, expr.rs 186-237 *)
(** The last character and what precedes it. *)
Fixpoint split_last (s : string) : option (string * ascii) :=
  match s with
  | EmptyString => None
  | String c EmptyString => Some (EmptyString, c)
  | String c s' => match split_last s' with
                   | Some (i, l) => Some (String c i, l)
                   | None => None
                   end
  end.

(** expr.rs 222-230: quotes are removed when something without a newline stands
    between two equal quotes at both ends. *)
Definition strip_quotes (s : string) : string :=
  match s with
  | String q s' =>
      if Ascii.eqb q dquote || Ascii.eqb q squote then
        match split_last s' with
        | Some (inner, l) =>
            if Ascii.eqb l q && negb (String.eqb inner "")
               && negb (has_char (ascii_of_nat 10) inner)
            then inner else s
        | None => s
        end
      else s
  | EmptyString => s
  end.

Definition raw_ilike (text : string) : ColumnLike :=
  c_method (pcol "_raw") "ilike" [pylit_str ("%" ++ text ++ "%")%string].

(** expr.rs 201-237.  [search_core c] is the private _into_search_expr applied to
    c without its aliases; [search_pexpr] is Expr::_into_search_expr, which goes
    through ColumnLike::into_search_expr and so puts an alias back. *)
Fixpoint search_core (c : ColumnLike) : ColumnLike :=
  match c with
  | CAliased (PCol c') _ => search_core c'
  | CNamed n => raw_ilike n
  | CLiteral code => raw_ilike (strip_quotes code)
  | CUnaryNot r => CUnaryNot (search_pexpr r)
  | CBinaryOp op l r =>
      if String.eqb op "&" || String.eqb op "|"
      then c_binary (search_pexpr l) op (search_pexpr r) else c
  | _ => c
  end
with search_pexpr (e : PExpr) : PExpr :=
  match e with
  | PCol c => PCol (cl_maybe_with_alias (search_core c) (snd (cl_unaliased_with_name c)))
  | PyLit _ => e
  end.

(** expr.rs 194-198 *)
Definition into_search_expr (e : PExpr) : PExpr :=
  let (e', name) := pe_unaliased_with_name e in
  pe_maybe_with_alias (search_pexpr e') name.
