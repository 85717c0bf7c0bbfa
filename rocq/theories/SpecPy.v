(** How Python reads a text: a lexer and an expression reader for the part of the
    Python grammar the generated code can use.  This is specification, written from the
    Python language reference (sections 2, 6.3 - 6.10, 6.17); nothing here models /repo.
    Texts outside this part (string prefixes other than r, triple quotes, numeric escapes, operators
    such as ** and //, chained comparisons, tuples, lambda, and / or / not, white space
    before the first token of a line is not checked) are not read at all: the result is
    then None. *)
From Verif Require Import Str.
Open Scope list_scope.

(** ** Tokens *)
Inductive Tok :=
| TkName (s : string)      (* identifier or keyword *)
| TkNum (s : string)       (* unsigned number, as written *)
| TkStr (value : string)   (* string literal: its value *)
| TkOp (s : string)        (* operator or delimiter *)
| TkNewline.

Definition py_char (n : nat) : ascii := ascii_of_nat n.
Definition py_letter (c : ascii) : bool :=
  let n := nat_of_ascii c in
  (Nat.leb 65 n && Nat.leb n 90) || (Nat.leb 97 n && Nat.leb n 122) || Nat.eqb n 95.
Definition py_digit (c : ascii) : bool :=
  let n := nat_of_ascii c in Nat.leb 48 n && Nat.leb n 57.
Definition py_word (c : ascii) : bool := py_letter c || py_digit c.
Definition one_char (c : ascii) : string := String c EmptyString.
Fixpoint char_in (c : ascii) (s : string) : bool :=
  match s with EmptyString => false | String d s' => Ascii.eqb c d || char_in c s' end.

(** What has been read of the current token *)
Inductive LexState :=
| LxStart
| LxName (read : string)
| LxNum (read : string)
| LxOp (c : ascii)                       (* an operator that could be continued *)
| LxStr (quote : ascii) (read : string)
| LxEsc (quote : ascii) (read : string)  (* after a backslash *)
| LxRaw (quote : ascii) (read : string)  (* a raw string *)
| LxRawEsc (quote : ascii) (read : string)
| LxEmpty (quote : ascii).               (* after two quotes: a third starts a triple quote *)

Definition py_quote (c : ascii) : bool := Nat.eqb (nat_of_ascii c) 34 || Nat.eqb (nat_of_ascii c) 39.
Definition py_backslash (c : ascii) : bool := Nat.eqb (nat_of_ascii c) 92.
(** Characters that may not stand in a literal: newline, carriage return, NUL *)
Definition py_break (c : ascii) : bool :=
  Nat.eqb (nat_of_ascii c) 10 || Nat.eqb (nat_of_ascii c) 13 || Nat.eqb (nat_of_ascii c) 0.

Definition lex_start (c : ascii) : option (LexState * list Tok) :=
  if py_letter c then Some (LxName (one_char c), [])
  else if py_digit c then Some (LxNum (one_char c), [])
  else if py_quote c then Some (LxStr c "", [])
  else if char_in c " " then Some (LxStart, [])
  else if Nat.eqb (nat_of_ascii c) 10 then Some (LxStart, [TkNewline])
  else if char_in c "()[]{},~" then Some (LxStart, [TkOp (one_char c)])
  else if char_in c "=<>!+-*/%&|.:" then Some (LxOp c, [])
  else None.

Definition pre {A} (ts : list Tok) (r : option (A * list Tok)) : option (A * list Tok) :=
  match r with Some (a, us) => Some (a, ts ++ us) | None => None end.

(** Decimal integers have no superfluous leading zeros *)
Definition num_ok (s : string) : bool :=
  match s with
  | String d (String e _) => negb (Ascii.eqb d "0") || char_in "." s
  | _ => true
  end.
(** Value of a one-character escape; None: not covered *)
Definition escape_value (c : ascii) : option string :=
  if py_backslash c || py_quote c then Some (one_char c)
  else if Ascii.eqb c "n" then Some (one_char (py_char 10))
  else if Ascii.eqb c "t" then Some (one_char (py_char 9))
  else if Ascii.eqb c "r" then Some (one_char (py_char 13))
  else if Ascii.eqb c "a" then Some (one_char (py_char 7))
  else if Ascii.eqb c "b" then Some (one_char (py_char 8))
  else if Ascii.eqb c "f" then Some (one_char (py_char 12))
  else if Ascii.eqb c "v" then Some (one_char (py_char 11))
  else if Nat.eqb (nat_of_ascii c) 10 then Some EmptyString
  else if py_break c || py_digit c || char_in c "xuUN" then None
  else Some (String (py_char 92) (one_char c)).

Definition lex_step (st : LexState) (c : ascii) : option (LexState * list Tok) :=
  match st with
  | LxStart => lex_start c
  | LxName w =>
      if py_word c then Some (LxName (w ++ one_char c)%string, [])
      else if py_quote c then if String.eqb w "r" then Some (LxRaw c "", []) else None
      else pre [TkName w] (lex_start c)
  | LxNum w =>
      if py_digit c || (Ascii.eqb c "." && negb (char_in "." w))
      then Some (LxNum (w ++ one_char c)%string, [])
      else if py_letter c || Ascii.eqb c "." then None
      else if num_ok w then pre [TkNum w] (lex_start c) else None
  | LxOp o =>
      if Ascii.eqb c "="
      then if char_in o "=!<>" then Some (LxStart, [TkOp (String o "=")]) else None
      else if Ascii.eqb o "!" then None
      else if Ascii.eqb o "." && (py_digit c || Ascii.eqb c ".") then None
      else if (Ascii.eqb o c && char_in o "*/<>")
              || (Ascii.eqb c ">" && char_in o "-<") then None
      else pre [TkOp (one_char o)] (lex_start c)
  | LxStr q w =>
      if Ascii.eqb c q
      then Some (match w with EmptyString => LxEmpty q | _ => LxStart end, [TkStr w])
      else if py_backslash c then Some (LxEsc q w, [])
      else if py_break c then None
      else Some (LxStr q (w ++ one_char c)%string, [])
  | LxEsc q w =>
      match escape_value c with
      | Some v => Some (LxStr q (w ++ v)%string, [])
      | None => None
      end
  (* a backslash stands for itself, and so does the quote after it *)
  | LxRaw q w =>
      if Ascii.eqb c q
      then Some (match w with EmptyString => LxEmpty q | _ => LxStart end, [TkStr w])
      else if py_backslash c then Some (LxRawEsc q w, [])
      else if py_break c then None
      else Some (LxRaw q (w ++ one_char c)%string, [])
  | LxRawEsc q w =>
      if py_break c then None else Some (LxRaw q (w ++ String (py_char 92) (one_char c))%string, [])
  | LxEmpty q => if Ascii.eqb c q then None else lex_start c
  end.
Fixpoint lex_run (st : LexState) (s : string) : option (LexState * list Tok) :=
  match s with
  | EmptyString => Some (st, [])
  | String c s' =>
      match lex_step st c with
      | Some (st', ts) => pre ts (lex_run st' s')
      | None => None
      end
  end.
Definition lex_end (st : LexState) : option (list Tok) :=
  match st with
  | LxStart | LxEmpty _ => Some []
  | LxName w => Some [TkName w]
  | LxNum w => if num_ok w then Some [TkNum w] else None
  | LxOp o => if Ascii.eqb o "!" then None else Some [TkOp (one_char o)]
  | LxStr _ _ | LxEsc _ _ | LxRaw _ _ | LxRawEsc _ _ => None
  end.
Definition lex (s : string) : option (list Tok) :=
  match lex_run LxStart s with
  | Some (st, ts) => match lex_end st with Some us => Some (ts ++ us) | None => None end
  | None => None
  end.

(** ** Expressions *)
Inductive Py :=
| PName (s : string)
| PNum (s : string)
| PStr (value : string)
| PAttr (e : Py) (name : string)
| PCall (f : Py) (args : list Py) (kwargs : list (string * Py))
| PUn (op : string) (e : Py)
| PBin (op : string) (l r : Py)
| PList (l : list Py)
| PDict (kvs : list (Py * Py)).

Definition python_keywords : list string :=
  [ "and"; "as"; "assert"; "async"; "await"; "break"; "class"; "continue"; "def"; "del"; "elif";
    "else"; "except"; "finally"; "for"; "from"; "global"; "if"; "import"; "in"; "is"; "lambda";
    "nonlocal"; "not"; "or"; "pass"; "raise"; "return"; "try"; "while"; "with"; "yield" ]%string.
Definition python_constants : list string := ["True"; "False"; "None"]%string.
Definition str_in (s : string) (l : list string) : bool := existsb (String.eqb s) l.
(** Names that may follow a dot, or stand before = in a call *)
Definition py_identifier (s : string) : bool :=
  negb (str_in s python_keywords) && negb (str_in s python_constants).

(** Binary operators by level, loosest first: comparisons, |, &, + -, * / % *)
Definition level_ops (lvl : nat) : list string :=
  match lvl with
  | 0 => ["=="; "!="; "<"; "<="; ">"; ">="]
  | 1 => ["|"]
  | 2 => ["&"]
  | 3 => ["+"; "-"]
  | 4 => ["*"; "/"; "%"]
  | _ => []
  end%string.
Definition unary_ops : list string := ["~"; "-"; "+"]%string.
Definition next_op (ops : list string) (ts : list Tok) : bool :=
  match ts with TkOp o :: _ => str_in o ops | _ => false end.

Fixpoint adjacent_strings (s : string) (ts : list Tok) : string * list Tok :=
  match ts with
  | TkStr t :: ts' => adjacent_strings (s ++ t)%string ts'
  | _ => (s, ts)
  end.

(** Level 0 - 4: binary operators; 5: prefix operators; 6: a primary with trailers.
    The first argument bounds the recursion depth. *)
Fixpoint rd (n lvl : nat) (ts : list Tok) {struct n} : option (Py * list Tok) :=
  match n with
  | O => None
  | S n =>
      match lvl with
      | 5 =>
          match ts with
          | TkOp o :: ts' =>
              if str_in o unary_ops then
                match rd n 5 ts' with Some (e, r) => Some (PUn o e, r) | None => None end
              else rd n 6 ts
          | _ => rd n 6 ts
          end
      | 6 =>
          match rd_atom n ts with Some (a, r) => rd_trailers n a r | None => None end
      | _ => match rd n (S lvl) ts with Some (l, r) => rd_ops n lvl l r | None => None end
      end
  end
with rd_ops (n lvl : nat) (l : Py) (ts : list Tok) {struct n} : option (Py * list Tok) :=
  match n with
  | O => None
  | S n =>
      match ts with
      | TkOp o :: ts' =>
          if str_in o (level_ops lvl) then
            match rd n (S lvl) ts' with
            | Some (r, ts'') =>
                match lvl with
                | 0 => if next_op (level_ops 0) ts'' then None else Some (PBin o l r, ts'')
                | _ => rd_ops n lvl (PBin o l r) ts''
                end
            | None => None
            end
          else Some (l, ts)
      | _ => Some (l, ts)
      end
  end
with rd_atom (n : nat) (ts : list Tok) {struct n} : option (Py * list Tok) :=
  match n with
  | O => None
  | S n =>
      match ts with
      | TkName s :: r => if str_in s python_keywords then None else Some (PName s, r)
      | TkNum s :: r => Some (PNum s, r)
      | TkStr s :: r => let (v, r') := adjacent_strings s r in Some (PStr v, r')
      | TkOp o :: r =>
          if String.eqb o "(" then
            match rd n 0 r with
            | Some (e, TkOp c :: r') => if String.eqb c ")" then Some (e, r') else None
            | _ => None
            end
          else if String.eqb o "[" then
            match rd_items n r with Some (l, r') => Some (PList l, r') | None => None end
          else if String.eqb o "{" then
            match rd_pairs n r with Some (l, r') => Some (PDict l, r') | None => None end
          else None
      | _ => None
      end
  end
with rd_trailers (n : nat) (a : Py) (ts : list Tok) {struct n} : option (Py * list Tok) :=
  match n with
  | O => None
  | S n =>
      match ts with
      | TkOp o :: r =>
          if String.eqb o "." then
            match r with
            | TkName f :: r' => if py_identifier f then rd_trailers n (PAttr a f) r' else None
            | _ => None
            end
          else if String.eqb o "(" then
            match rd_args n r with
            | Some ((args, kwargs), r') => rd_trailers n (PCall a args kwargs) r'
            | None => None
            end
          else Some (a, ts)
      | _ => Some (a, ts)
      end
  end
(** Arguments up to the closing parenthesis; a trailing comma is allowed, keyword
    arguments follow the positional ones and are not repeated. *)
with rd_args (n : nat) (ts : list Tok) {struct n}
  : option ((list Py * list (string * Py)) * list Tok) :=
  match n with
  | O => None
  | S n =>
      let positional :=
        match rd n 0 ts with
        | Some (e, TkOp c :: r) =>
            if String.eqb c ")" then Some (([e], []), r)
            else if String.eqb c "," then
              match rd_args n r with
              | Some ((args, kwargs), r') => Some ((e :: args, kwargs), r')
              | None => None
              end
            else None
        | _ => None
        end in
      match ts with
      | TkOp o :: r => if String.eqb o ")" then Some (([], []), r) else positional
      | TkName k :: TkOp o :: r =>
          if String.eqb o "=" then
            if py_identifier k then
              match rd n 0 r with
              | Some (e, TkOp c :: r') =>
                  if String.eqb c ")" then Some (([], [(k, e)]), r')
                  else if String.eqb c "," then
                    match rd_args n r' with
                    | Some (([], kwargs), r'') =>
                        if str_in k (map fst kwargs) then None
                        else Some (([], (k, e) :: kwargs), r'')
                    | _ => None
                    end
                  else None
              | _ => None
              end
            else None
          else positional
      | _ => positional
      end
  end
(** Items of a list display up to the closing bracket *)
with rd_items (n : nat) (ts : list Tok) {struct n} : option (list Py * list Tok) :=
  match n with
  | O => None
  | S n =>
      let item :=
        match rd n 0 ts with
        | Some (e, TkOp c :: r) =>
            if String.eqb c "]" then Some ([e], r)
            else if String.eqb c "," then
              match rd_items n r with Some (l, r') => Some (e :: l, r') | None => None end
            else None
        | _ => None
        end in
      match ts with
      | TkOp o :: r => if String.eqb o "]" then Some ([], r) else item
      | _ => item
      end
  end
(** Items of a dictionary display up to the closing brace *)
with rd_pairs (n : nat) (ts : list Tok) {struct n} : option (list (Py * Py) * list Tok) :=
  match n with
  | O => None
  | S n =>
      let item :=
        match rd n 0 ts with
        | Some (k, TkOp d :: r) =>
            if String.eqb d ":" then
              match rd n 0 r with
              | Some (v, TkOp c :: r') =>
                  if String.eqb c "}" then Some ([(k, v)], r')
                  else if String.eqb c "," then
                    match rd_pairs n r' with Some (l, r'') => Some ((k, v) :: l, r'') | None => None end
                  else None
              | _ => None
              end
            else None
        | _ => None
        end in
      match ts with
      | TkOp o :: r => if String.eqb o "}" then Some ([], r) else item
      | _ => item
      end
  end.

(** Python reads [text] as the expression [t]: some recursion depth suffices (and any
    larger one gives the same result, see PyFacts.python_reads_unique). *)
Definition python_reads (text : string) (t : Py) : Prop :=
  exists ts, lex text = Some ts /\ exists depth, rd depth 0 ts = Some (t, []).

(** ** Programs: assignments, one on a line, and a last line with an expression *)
Fixpoint split_lines (ts : list Tok) : list (list Tok) :=
  match ts with
  | [] => [[]]
  | TkNewline :: ts' => [] :: split_lines ts'
  | t :: ts' => match split_lines ts' with l :: ls => (t :: l) :: ls | [] => [[t]] end
  end.
Fixpoint rd_program (n : nat) (ls : list (list Tok)) : option (list (string * Py) * Py) :=
  match ls with
  | [] => None
  | l :: ls' =>
      match ls' with
      | [] => match rd n 0 l with Some (e, []) => Some ([], e) | _ => None end
      | _ =>
          match l with
          | TkName x :: TkOp o :: l' =>
              if String.eqb o "=" && py_identifier x then
                match rd n 0 l' with
                | Some (e, []) =>
                    match rd_program n ls' with
                    | Some (p, r) => Some ((x, e) :: p, r)
                    | None => None
                    end
                | _ => None
                end
              else None
          | _ => None
          end
      end
  end.
Definition python_program (text : string) (assignments : list (string * Py)) (result : Py) : Prop :=
  exists ts, lex text = Some ts /\
    exists depth, rd_program depth (split_lines ts) = Some (assignments, result).
