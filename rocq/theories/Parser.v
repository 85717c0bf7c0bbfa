(** The recursive part of the grammar: /repo/src/spl/parser.rs 878-1360.

    The Rust functions call each other recursively.  Here every recursive call
    that happens after at least one character has been consumed goes to a record
    of parsers [R] of the previous level; [level n] (in CmdParser.v) iterates this
    n times, and the text of length n needs at most S n levels (proved). *)
From Verif Require Import Str SplAst Nom Lexer.

(** The recursive parsers of the previous level *)
Record Recs := mkRecs {
  r_expr3 : Parser Expr; r_expr4 : Parser Expr; r_expr5 : Parser Expr; r_expr6 : Parser Expr;
  r_expr7 : Parser Expr; r_expr8 : Parser Expr;
  r_expr : Parser Expr;      (* expr = expr9_no_whitespace *)
  r_expr_ws : Parser Expr;   (* expr9_with_whitespace *)
  r_lexpr : Parser Expr;     (* logical_expression *)
  r_lterm : Parser Expr;     (* logical_expression_term *)
  r_command : Parser Command;
  r_pipeline : Parser Pipeline }.

(** Level 0: no fuel left *)
Definition out_of_fuel {A} : Parser A := fun _ => PFuel.
Definition recs0 : Recs :=
  mkRecs out_of_fuel out_of_fuel out_of_fuel out_of_fuel out_of_fuel out_of_fuel out_of_fuel
         out_of_fuel out_of_fuel out_of_fuel out_of_fuel out_of_fuel.

(** The shape shared by expr3 .. expr9: an operand, optionally followed by an
    operator and the same rule again; the operator is kept as written *)
Definition binary_chain (operand : Parser Expr) (op : Parser string) (again : Parser Expr)
  : Parser Expr :=
  P: lhs <- operand;
  P: o <- opt (pair_ op again);
  p_ret (match o with None => lhs | Some (sym, rhs) => EBinary lhs sym rhs end).

Section Level.
Variable R : Recs.

(** 895-904 *)
Definition call : Parser Expr :=
  P: name <- token;
  P: args <- parenthesized (comma_separated_list0 (r_expr R));
  p_ret (ECall name args).
(** 1253-1262 *)
Definition sub_search : Parser Pipeline :=
  delimited (ws (tag "["))
    (preceded (opt (ws (tag "|"))) (separated_list0 (ws (tag "|")) (r_command R)))
    (ws (tag "]")).

(** 972-984 *)
Definition expr_base : Parser Expr :=
      parenthesized (r_expr_ws R)
  <|> term_call
  <|> call
  <|> p_map econst constant
  <|> p_map ESubSearch sub_search.
Definition expr2 : Parser Expr := expr_base.
(** 986-1004 *)
Definition expr3 : Parser Expr :=
  binary_chain expr2 (ws (tag_no_case "*" <|> tag_no_case "/")) (r_expr3 R).
(** 1006-1021 *)
Definition expr4 : Parser Expr :=
  binary_chain expr3 (ws (tag_no_case "+" <|> tag_no_case "-")) (r_expr4 R).
(** 1023-1035 *)
Definition expr5 : Parser Expr := binary_chain expr4 (ws op_concat) (r_expr5 R).
(** 1037-1064 *)
Definition comparison_op_text : Parser string :=
      tag_no_case "==" <|> op_equals <|> tag_no_case "!=" <|> tag_no_case "<="
  <|> tag_no_case "<" <|> tag_no_case ">=" <|> tag_no_case ">".
Definition expr6 : Parser Expr :=
  field_in <|> binary_chain expr5 (ws comparison_op_text) (r_expr6 R).
(** 1066-1080 *)
Definition expr7 : Parser Expr :=
      p_map (fun or => EUnary (fst or) (snd or))
        (    separated_pair op_not multispace1 (r_expr7 R)
         <|> pair_ (ws op_not) (parenthesized (r_expr_ws R)))
  <|> expr6.
(** 1082-1090 *)
Definition expr8 : Parser Expr := binary_chain expr7 (ws op_or) (r_expr8 R).
(** 1092-1117 *)
Definition expr : Parser Expr := binary_chain expr8 (ws op_and) (r_expr R).
Definition expr_ws : Parser Expr :=
  binary_chain expr8 (ws op_and <|> p_map (fun _ => "AND"%string) multispace1) (r_expr_ws R).

(** 1135-1144 *)
Definition aliased_call : Parser Expr :=
  P: cn <- separated_pair call (ws (tag_no_case "as")) token;
  p_ret (EAlias (fst cn) (snd cn)).
(** 1147-1180 *)
Definition stats_call : Parser (list Expr) :=
  comma_or_space_separated_list1
    (    aliased_call
     <|> call
     <|> p_map (fun fa => EAlias (ECall (fst fa) []) (snd fa)) aliased_field
     <|> p_map (fun v => ECall v []) (verify token (fun v => negb (String.eqb (lower v) "by")))).

(** 1335-1349 *)
Definition comparison_expression : Parser Expr :=
      (P: lhs <- field;
       P: sym <- ws comparison_operator;
       P: rhs <- (call <|> p_map econst literal);
       p_ret (EBinary (efield lhs) sym rhs))
  <|> field_in.
(** 1316-1332 *)
Definition logical_expression_term : Parser Expr :=
      parenthesized (r_lexpr R)
  <|> p_map (EUnary "NOT") (preceded (ws (tag_no_case "NOT")) (r_lterm R))
  <|> (P: l <- time_opts; p_unwrap (combine_all_expressions l "OR"))
  <|> call
  <|> comparison_expression
  <|> search_modifier.
(** 1306-1314 *)
Definition logical_expression_group : Parser Expr :=
  P: l <- separated_list1 (ws (tag_no_case "AND") <|> multispace1) logical_expression_term;
  p_unwrap (combine_all_expressions l "AND").
(** 1299-1304 *)
Definition logical_expression : Parser Expr :=
  P: l <- separated_list1 (ws (tag_no_case "OR")) logical_expression_group;
  p_unwrap (combine_all_expressions l "OR").

(** 690-709.  The panic arm is reachable only for a result of all_consuming that
    leaves text over, or for an error other than nom::Err::Error. *)
Definition unescape_search (s : string) : string :=
  replace_all (bs ++ bs)%string bs (replace_all (bs ++ dq)%string dq s).
Definition quoted_search : Parser Pipeline :=
  preceded (pair_ (ws (tag_no_case "search")) (ws (tag "=")))
    (map_parser double_quoted_alt
       (fun s => match all_consuming (ws (r_pipeline R)) (unescape_search s) with
                 | POk EmptyString p => POk EmptyString p
                 | POk _ _ => PPanic
                 | PErr => PErr
                 | PPanic => PPanic
                 | PFuel => PFuel
                 end)).
End Level.
