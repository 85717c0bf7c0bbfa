(** Specification of written eval expressions: a small syntax of expressions, the ways
    one can be written down, and which syntax tree it stands for. *)
From Coq Require Import String Ascii List ZArith.
Import ListNotations.
From Verif Require Import SplAst SpecText.
Open Scope string_scope.

(** Binary operators as they are written *)
Inductive Op := OMul | ODiv | OAdd | OSub | OConcat
              | OEqEq | OEq | ONe | OLe | OLt | OGe | OGt | OOr | OAnd.
Definition op_text (o : Op) : string :=
  match o with
  | OMul => "*" | ODiv => "/" | OAdd => "+" | OSub => "-" | OConcat => "."
  | OEqEq => "==" | OEq => "=" | ONe => "!=" | OLe => "<=" | OLt => "<" | OGe => ">=" | OGt => ">"
  | OOr => "OR" | OAnd => "AND"
  end.

Inductive Tree :=
| TField (name : string)
| TInt (z : Z)
| TStr (s : string)
| TNum (t : string)
| TTime (t : SnapTime) (s : string)
| TCall (name : string) (args : list Tree)
| TNot (t : Tree)
| TBin (o : Op) (l r : Tree).

(** The syntax tree meant *)
Fixpoint meaning (t : Tree) : Expr :=
  match t with
  | TField f => ELeaf (LConstant (KField f))
  | TInt z => ELeaf (LConstant (KInt z))
  | TStr s => ELeaf (LConstant (KStr s))
  | TNum t => ELeaf (LConstant (KDouble t))
  | TTime t _ => ELeaf (LConstant (KSnapTime t))
  | TCall n args => ECall n (map meaning args)
  | TNot t => EUnary "NOT" (meaning t)
  | TBin o l r => EBinary (meaning l) (op_text o) (meaning r)
  end.

Fixpoint commas (l : list string) : string :=
  match l with
  | [] => ""
  | [x] => x
  | x :: l' => x ++ ", " ++ commas l'
  end.

(** How tightly an operator binds in the eval language: 3 is the tightest.  (An
    operand alone has level 2, NOT has level 7.) *)
Definition binds (o : Op) : nat :=
  match o with
  | OMul | ODiv => 3 | OAdd | OSub => 4 | OConcat => 5
  | OEqEq | OEq | ONe | OLe | OLt | OGe | OGt => 6
  | OOr => 8 | OAnd => 9
  end.
Definition blanks (b : string) : Prop := b <> "" /\ all_chars white b.
(** White space around the operators other than the dot may be left out after a closing
    parenthesis or quote, and around comparisons and +; -, * and / need it before them
    elsewhere, because they may stand in names, and so do AND and OR. *)
Definition closes (s : string) : Prop := exists s', s = s' ++ ")" \/ s = s' ++ String (ascii_of_nat 34) "".
Definition tight (left : string) (o : Op) (b1 b2 : string) : Prop :=
  all_chars white b1 /\ all_chars white b2 /\ o <> OConcat /\ (b1 <> "" \/ binds o = 6 \/ o = OAdd \/ closes left).

(** [writes k t s]: the text s is a way to write t where only operators up to level k
    may stand outside parentheses.  Parentheses may be added around anything; the left
    operand of an operator stays below its level, the right operand may be at the
    same level. *)
Inductive writes : nat -> Tree -> string -> Prop :=
| W_field : forall f, writes 2 (TField f) f
| W_int : forall z, writes 2 (TInt z) (decimal z)
| W_str : forall s, writes 2 (TStr s) (in_quotes s)
| W_num : forall t, writes 2 (TNum t) t
| W_time : forall t s, writes 2 (TTime t s) (in_quotes s)
| W_call : forall n ts ss, writes_args ts ss -> writes 2 (TCall n ts) (n ++ "(" ++ commas ss ++ ")")
| W_paren : forall t s, writes 9 t s -> writes 2 t ("(" ++ s ++ ")")
| W_not : forall t s b, blanks b -> writes 7 t s -> writes 7 (TNot t) ("NOT" ++ b ++ s)
| W_bin : forall o l r sl sr b1 b2, blanks b1 -> blanks b2 ->
    writes (pred (binds o)) l sl -> writes (binds o) r sr ->
    writes (binds o) (TBin o l r) (sl ++ b1 ++ op_text o ++ b2 ++ sr)
(* with less white space *)
| W_tight : forall o l r sl sr b1 b2, tight sl o b1 b2 ->
    writes (pred (binds o)) l sl -> writes (binds o) r sr -> writes (binds o) (TBin o l r) (sl ++ b1 ++ op_text o ++ b2 ++ sr)
| W_up : forall k t s, k < 9 -> writes k t s -> writes (S k) t s
with writes_args : list Tree -> list string -> Prop :=
| W_nil : writes_args [] []
| W_cons : forall t s ts ss, writes 9 t s -> writes_args ts ss -> writes_args (t :: ts) (s :: ss).

(** One way to write any expression: parentheses around every compound operand *)
Definition compound (t : Tree) : bool :=
  match t with TNot _ | TBin _ _ _ => true | _ => false end.
Fixpoint show (t : Tree) : string :=
  let operand u := if compound u then "(" ++ show u ++ ")" else show u in
  match t with
  | TField f => f
  | TInt z => decimal z
  | TStr s => in_quotes s
  | TNum t => t
  | TTime _ s => in_quotes s
  | TCall n args => n ++ "(" ++ commas (map show args) ++ ")"
  | TNot t => "NOT " ++ operand t
  | TBin o l r => operand l ++ " " ++ op_text o ++ " " ++ operand r
  end.

Definition show_operand (t : Tree) : string := if compound t then ("(" ++ show t ++ ")") else show t.

(** Unparenthesised chains  t op1 u1 op2 u2 ...  of operators, as text, and grouped
    from the right: t op1 (u1 op2 (u2 ...)), and from the left. *)
Fixpoint chain_text (t : string) (l : list (Op * string)) : string :=
  match l with
  | [] => t
  | (o, u) :: l' => t ++ " " ++ op_text o ++ " " ++ chain_text u l'
  end.
Definition show_chain (t : Tree) (l : list (Op * Tree)) : string :=
  chain_text (show_operand t) (map (fun ou => (fst ou, show_operand (snd ou))) l).
Fixpoint from_right (t : Tree) (l : list (Op * Tree)) : Tree :=
  match l with
  | [] => t
  | (o, u) :: l' => TBin o t (from_right u l')
  end.
Fixpoint from_left (t : Tree) (l : list (Op * Tree)) : Tree :=
  match l with
  | [] => t
  | (o, u) :: l' => from_left (TBin o t u) l'
  end.

(** Integer arithmetic on syntax trees *)
Fixpoint arith (e : Expr) : option Z :=
  match e with
  | ELeaf (LConstant (KInt z)) => Some z
  | EBinary a op b =>
      match arith a, arith b with
      | Some x, Some y =>
          if (op =? "+")%string then Some (x + y)%Z
          else if (op =? "-")%string then Some (x - y)%Z
          else if (op =? "*")%string then Some (x * y)%Z else None
      | _, _ => None
      end
  | _ => None
  end.

(** Names: a letter or underscore, then letters, digits and underscores; not a
    reserved word and not one of the boolean words t and f. *)
Definition name_char (c : ascii) : Prop := letter c \/ digit c \/ c = "_"%char.
Definition plain_ident (n : string) : Prop :=
  match n with
  | EmptyString => False
  | String c r => (letter c \/ c = "_"%char) /\ all_chars name_char r
  end /\ ~ is_reserved n /\ n <> "t" /\ n <> "f".
(** Names of fields: words with dots between them, as in Processes.user or alert{}.cvss-score.
    After its first character a word may also have the characters - / % { and }. *)
Definition word_char (c : ascii) : Prop := name_char c \/ In c ["-"; "/"; "%"; "{"; "}"]%char.
Definition field_word (w : string) : Prop :=
  match w with
  | EmptyString => False
  | String c r => (letter c \/ c = "_"%char) /\ all_chars word_char r
  end /\ ~ is_reserved w /\ w <> "t" /\ w <> "f".
Inductive field_name : string -> Prop :=
| F_word : forall w, field_word w -> field_name w
| F_dot : forall w n, field_word w -> field_name n -> field_name (w ++ "." ++ n).
(** Every double quote stands after a backslash, and every backslash before another character.
    A backslash takes the next character with it. *)
Fixpoint well_quoted (after_backslash : bool) (s : string) : Prop :=
  match s with
  | EmptyString => after_backslash = false
  | String c s' =>
      (after_backslash = false -> nat_of_ascii c <> 34) /\
      well_quoted (negb after_backslash && Nat.eqb (nat_of_ascii c) 92) s'
  end.
(** Strings that are taken as they are written: not empty, not starting with white space,
    without the wildcard character and the snap-time character, and well quoted.  Backslashes
    are kept; see C24 for what becomes of them. *)
Definition plain_string (s : string) : Prop :=
  match s with EmptyString => False | String c _ => ~ white c end /\
  all_chars (fun c => c <> "*"%char /\ c <> "@"%char) s /\ well_quoted false s.

(** Decimal fractions in shortest form: no zero in front, none behind, at most 15 digits *)
Definition fraction (t : string) : Prop := exists sign whole part, t = sign ++ whole ++ "." ++ part /\ (sign = "" \/ sign = "-") /\
  whole <> "" /\ all_chars digit whole /\ (whole = "0" \/ forall r, whole <> String "0" r) /\
  part <> "" /\ all_chars digit part /\ (forall r, part <> r ++ "0") /\ String.length whole + String.length part <= 15.
(** The units of time and their names *)
Definition time_words : list (string * string) :=
  [("months", "months"); ("month", "months"); ("mon", "months"); ("days", "days"); ("day", "days"); ("d", "days");
   ("hours", "hours"); ("hour", "hours"); ("hrs", "hours"); ("hr", "hours"); ("h", "hours");
   ("minutes", "minutes"); ("minute", "minutes"); ("mins", "minutes"); ("min", "minutes"); ("m", "minutes");
   ("weeks", "weeks"); ("week", "weeks"); ("w", "weeks");
   ("seconds", "seconds"); ("second", "seconds"); ("secs", "seconds"); ("sec", "seconds"); ("s", "seconds")].
(** Snap times such as -1d@d+5h: a time span, the unit to cut down to, and another time span
    with a sign; a span without a number is one unit. *)
Definition signed_span (o : TimeSpan) (s : string) : Prop :=
  exists w, In (w, ts_scale o) time_words /\ int64_nonmin (ts_value o) /\
    s = (if (ts_value o <? 0)%Z then "" else "+") ++ decimal (ts_value o) ++ w.
Definition first_span (o : TimeSpan) (s : string) : Prop :=
  signed_span o s \/
  exists w, In (w, ts_scale o) time_words /\
    ((0 <= ts_value o < 2 ^ 63)%Z /\ s = decimal (ts_value o) ++ w \/
     ts_value o = 1%Z /\ s = w \/ ts_value o = (-1)%Z /\ s = "-" ++ w).
Definition specifier (t : SnapTime) (s : string) : Prop :=
  exists a w b, s = a ++ "@" ++ w ++ b /\ In (w, sn_snap t) time_words /\
    match sn_span t with Some o => first_span o a | None => a = "" end /\
    match sn_offset t with Some o => signed_span o b | None => b = "" end.

Fixpoint wf (t : Tree) : Prop :=
  match t with
  | TField f => field_name f
  | TInt z => int64_nonmin z
  | TStr s => plain_string s
  | TNum t => fraction t
  | TTime t s => specifier t s
  | TCall n args => plain_ident n /\ ~ same_word n "TERM" /\
      (fix all l := match l with [] => True | u :: l' => wf u /\ all l' end) args
  | TNot t => wf t
  | TBin _ l r => wf l /\ wf r
  end.

(** ** Conditions of where: comparisons and calls of functions combined with NOT, AND, OR and parentheses *)
Inductive CmpOp := CEqEq | CEq | CNe | CLe | CLt | CGe | CGt.
Definition cmp_text (o : CmpOp) : string :=
  match o with
  | CEqEq => "==" | CEq => "=" | CNe => "!=" | CLe => "<=" | CLt => "<" | CGe => ">=" | CGt => ">"
  end.
Inductive Value := VInt (z : Z) | VStr (s : string) | VWord (w : string).
Inductive Term :=
| TmCmp (field : string) (o : CmpOp) (v : Value)
| TmIn (field : string) (values : list Value)
| TmNot (t : Term)
| TmParen (groups : list (list Term))
(* calls of functions, alone and on the right of a comparison *)
| TmCall (name : string) (args : list Tree)
| TmCmpCall (field : string) (o : CmpOp) (name : string) (args : list Tree).
(** A condition is an alternative of groups, a group a conjunction of terms *)
Definition Cond := list (list Term).
Definition value_text (v : Value) : string := match v with VInt z => decimal z | VStr s => in_quotes s | VWord w => w end.
Definition value_meaning (v : Value) : Expr :=
  ELeaf (LConstant (match v with VInt z => KInt z | VStr s | VWord s => KStr s end)).
(** x1 op x2 op x3 means (x1 op x2) op x3; the second argument is for the empty list *)
Definition joined {A} (d : A) (f : A -> A -> A) (l : list A) : A :=
  match l with [] => d | x :: l' => fold_left f l' x end.
Definition joined_text (sep : string) : list string -> string := joined "" (fun a b => a ++ sep ++ b).
Definition no_expr : Expr := ELeaf (LConstant (KBool false)).
Definition joined_meaning (op : string) : list Expr -> Expr := joined no_expr (fun a b => EBinary a op b).
Fixpoint term_text (t : Term) : string :=
  match t with
  | TmCmp f o v => f ++ " " ++ cmp_text o ++ " " ++ value_text v
  | TmIn f vs => f ++ " IN (" ++ joined_text ", " (map value_text vs) ++ ")"
  | TmNot t => "NOT " ++ term_text t
  | TmParen c => "(" ++ joined_text " OR " (map (fun g => joined_text " AND " (map term_text g)) c) ++ ")"
  | TmCall n args => show (TCall n args)
  | TmCmpCall f o n args => f ++ " " ++ cmp_text o ++ " " ++ show (TCall n args)
  end.
Fixpoint term_meaning (t : Term) : Expr :=
  match t with
  | TmCmp f o v => EBinary (ELeaf (LConstant (KField f))) (cmp_text o) (value_meaning v)
  | TmIn f vs => EFieldIn f (map value_meaning vs)
  | TmNot t => EUnary "NOT" (term_meaning t)
  | TmParen c => joined_meaning "OR" (map (fun g => joined_meaning "AND" (map term_meaning g)) c)
  | TmCall n args => meaning (TCall n args)
  | TmCmpCall f o n args => EBinary (ELeaf (LConstant (KField f))) (cmp_text o) (meaning (TCall n args))
  end.
Definition cond_text (c : Cond) : string := joined_text " OR " (map (fun g => joined_text " AND " (map term_text g)) c).
Definition cond_meaning (c : Cond) : Expr :=
  joined_meaning "OR" (map (fun g => joined_meaning "AND" (map term_meaning g)) c).
Definition starts_with_not (w : string) : Prop := exists a b, w = a ++ b /\ same_word a "NOT".
(** The words for true and false, in any letter case *)
Definition truth_value (w : string) : Prop := exists k, In k ["true"; "t"; "false"; "f"] /\ same_word w k.
Definition value_wf (v : Value) : Prop :=
  match v with VInt z => int64_nonmin z | VStr s => plain_string s | VWord w => field_name w /\ ~ truth_value w end.
Definition is_word (v : Value) : Prop := match v with VWord _ => True | _ => False end.
Fixpoint term_wf (t : Term) : Prop :=
  match t with
  | TmCmp f o v => field_name f /\ ~ starts_with_not f /\ value_wf v
  | TmIn f vs => field_name f /\ ~ starts_with_not f /\ vs <> [] /\ Forall (fun v => value_wf v /\ ~ is_word v) vs
  | TmNot t => term_wf t
  | TmParen c => c <> [] /\
      (fix groups c := match c with
                       | [] => True
                       | g :: c' => (g <> [] /\ (fix terms g := match g with [] => True | t :: g' => term_wf t /\ terms g' end) g)
                                    /\ groups c'
                       end) c
  | TmCall n args => wf (TCall n args) /\ ~ starts_with_not n
  | TmCmpCall f o n args => field_name f /\ ~ starts_with_not f /\ wf (TCall n args)
  end.
Definition cond_wf (c : Cond) : Prop := term_wf (TmParen c).
