(** The Python expression a generated column stands for, and the columns whose parts can
    be written down without further quoting.  Specification of C23 and C24. *)
From Verif Require Import Str PyAst SpecPy.
Open Scope list_scope.

(** A method call on an object *)
Definition py_method (e : Py) (f : string) (args : list Py) : Py := PCall (PAttr e f) args [].
(** A dotted name *)
Definition py_path (dotted : string) : Py :=
  match split_on "." dotted with
  | x :: l => fold_left PAttr l (PName x)
  | [] => PName ""
  end.
(** A call of a function of pyspark.sql.functions *)
Definition py_F (f : string) (args : list Py) : Py := PCall (PAttr (PName "F") f) args [].

(** The verbatim pieces of Python code the transpiler writes: string literals, numbers
    and names *)
Fixpoint without_last (s : string) : string :=
  match s with
  | EmptyString | String _ EmptyString => EmptyString
  | String c s' => String c (without_last s')
  end.
(** The value of a text between quotes q, if Python reads it up to the closing quote *)
Fixpoint unquoted (q : ascii) (after_backslash : bool) (s : string) : option string :=
  match s with
  | EmptyString => if after_backslash then None else Some EmptyString
  | String c s' =>
      if after_backslash then
        match escape_value c, unquoted q false s' with Some v, Some w => Some (v ++ w)%string | _, _ => None end
      else if py_backslash c then unquoted q true s'
      else if Ascii.eqb c q || py_break c then None
      else option_map (String c) (unquoted q false s')
  end.
Definition literal_value (q : ascii) (s : string) : string := match unquoted q false s with Some v => v | None => s end.
(** Raw string literals start with r and a quote *)
Definition raw_start (code : string) : bool :=
  match code with String r (String q _) => Ascii.eqb r "r" && py_quote q | _ => false end.
Definition raw_text (code : string) : string :=
  match code with String _ (String _ s) => without_last s | _ => EmptyString end.
Definition code_tree (code : string) : Py :=
  match code with
  | EmptyString => PName ""
  | String c s =>
      if py_quote c then PStr (literal_value c (without_last s))
      else if py_digit c then PNum code
      else if Ascii.eqb c "-" then PUn "-" (PNum s)
      else if raw_start code then PStr (raw_text code)
      else PName code
  end.

(** The intended tree of a column *)
Fixpoint col_tree (c : ColumnLike) : Py :=
  match c with
  | CNamed n => py_F "col" [PStr n]
  | CLiteral code => py_F "lit" [code_tree code]
  | CMethodCall col f args => py_method (pexpr_tree col) f (map pexpr_tree args)
  | CFunctionCall f args =>
      PCall (if contains "." f then py_path f else PAttr (PName "F") f) (map pexpr_tree args) []
  | CAliased col n => py_method (pexpr_tree col) "alias" [PStr n]
  | CBinaryOp op l r => PBin op (pexpr_tree l) (pexpr_tree r)
  | CUnaryNot r => PUn "~" (pexpr_tree r)
  end
with pexpr_tree (e : PExpr) : Py :=
  match e with PCol c => col_tree c | PyLit code => code_tree code end.

(** ** Columns that need no quoting *)
(** Text that stands for itself between quotes q *)
Definition plain_between (q : ascii) (s : string) : bool :=
  sforall (fun c => negb (Ascii.eqb c q || py_backslash c || py_break c)) s.
Definition plain_name_text (s : string) : bool := plain_between squote s.
Definition py_ident (s : string) : bool :=
  match s with
  | String c s' => py_letter c && sforall py_word s' && py_identifier s
  | EmptyString => false
  end.
(** Digits, possibly with a fraction; no superfluous leading zero *)
Fixpoint is_decimals (dot : bool) (s : string) : bool :=
  match s with
  | EmptyString => true
  | String c s' => if py_digit c then is_decimals dot s'
                   else if Ascii.eqb c "." then negb dot && is_decimals true s' else false
  end.
Definition is_number (s : string) : bool :=
  match s with
  | String c s' => py_digit c && is_decimals false s' && num_ok s
  | EmptyString => false
  end.
(** The same, with backslashes before characters that have no meaning after one: Python
    keeps both *)
Fixpoint stands (q : ascii) (after_backslash : bool) (s : string) : bool :=
  match s with
  | EmptyString => negb after_backslash
  | String c s' =>
      if after_backslash then
        match escape_value c with Some v => String.eqb v (String (py_char 92) (one_char c)) | None => false end && stands q false s'
      else if py_backslash c then stands q true s'
      else negb (Ascii.eqb c q || py_break c) && stands q false s'
  end.
(** Text that stands for itself in a raw string: quotes only after a backslash, and every
    backslash with a character after it *)
Fixpoint plain_raw (q : ascii) (after_backslash : bool) (s : string) : bool :=
  match s with
  | EmptyString => negb after_backslash
  | String c s' =>
      negb (py_break c) &&
      (if after_backslash then plain_raw q false s'
       else if py_backslash c then plain_raw q true s'
       else negb (Ascii.eqb c q) && plain_raw q false s')
  end.
Definition plain_raw_code (code : string) : bool :=
  match code with
  | String r (String q s) => String.eqb s (without_last s ++ one_char q) && plain_raw q false (without_last s)
  | _ => false
  end.
Definition plain_code (code : string) : bool :=
  match code with
  | EmptyString => false
  | String c s =>
      if py_quote c then String.eqb s (without_last s ++ one_char c) && match unquoted c false (without_last s) with Some _ => true | None => false end
      else if py_digit c then is_number code
      else if Ascii.eqb c "-" then is_number s
      else if raw_start code then plain_raw_code code
      else str_in code python_constants
  end.
Definition binary_ops : list string :=
  List.concat (map level_ops [0; 1; 2; 3; 4]).
(** What a method may be called on: anything whose text is not cut by the dot *)
Definition receiver (e : PExpr) : bool :=
  match e with PCol (CUnaryNot _) => false | PCol _ => true | PyLit _ => false end.
Definition is_column (e : PExpr) : bool := match e with PCol _ => true | PyLit _ => false end.

Fixpoint plain_col (c : ColumnLike) : bool :=
  match c with
  | CNamed n => plain_name_text n
  | CLiteral code => plain_code code
  | CMethodCall col f args =>
      receiver col && plain_pexpr col && py_ident f && forallb plain_pexpr args
  | CFunctionCall f args =>
      (if contains "." f
       then match split_on "." f with
            | x :: l => py_ident x && forallb py_ident l
            | [] => false
            end
       else py_ident f)
      && forallb plain_pexpr args
  | CAliased col n => receiver col && plain_pexpr col && plain_name_text n
  | CBinaryOp op l r => str_in op binary_ops && plain_pexpr l && plain_pexpr r
  | CUnaryNot r => is_column r && plain_pexpr r
  end
with plain_pexpr (e : PExpr) : bool :=
  match e with PCol c => plain_col c | PyLit code => plain_code code end.
