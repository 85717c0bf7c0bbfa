(** Specification of written where conditions: which texts are ways to write which
    conditions of SpecExpr. *)
From Coq Require Import String Ascii List ZArith.
Import ListNotations.
From Verif Require Import SpecText SpecExpr.
Open Scope string_scope.

(** White space that may be missing *)
Definition spaces (b : string) : Prop := all_chars white b.
(** A comma, a vertical bar, or the like, possibly with white space around *)
Definition around (mark b : string) : Prop := exists b1 b2, spaces b1 /\ spaces b2 /\ b = b1 ++ mark ++ b2.
(** What separates the names or values of a list: white space or a comma *)
Definition gap (b : string) : Prop := blanks b \/ around "," b.
(** One or more things, each written in its way, with separators between them *)
Inductive listed {A} (sep : string -> Prop) (item : A -> string -> Prop) : list A -> string -> Prop :=
| L_one : forall a s, item a s -> listed sep item [a] s
| L_more : forall a s b l t, item a s -> sep b -> listed sep item l t -> listed sep item (a :: l) (s ++ b ++ t).

Definition starts_word (k s : string) : Prop := exists a b, s = a ++ b /\ same_word a k.
Definition opens (s : string) : Prop := match s with String c _ => c = "("%char | EmptyString => False end.
Definition closes (s : string) : Prop := exists x, s = x ++ ")".
(** [keyword_between k s b u]: b is the word k, in any letter case, between s and u.  White
    space separates it from them; it may be missing after a closing and before an opening
    parenthesis. *)
Definition keyword_between (k s b u : string) : Prop :=
  exists b1 w b2, (blanks b1 \/ spaces b1 /\ closes s) /\ same_word w k /\ (blanks b2 \/ spaces b2 /\ opens u) /\ b = b1 ++ w ++ b2.
(** The words that, with = right after them, are modifiers of the time of a search *)
Definition time_modifiers : list string := ["timeformat"; "starttime"; "endtime"; "earliest"; "latest"].
Definition is_time_modifier (w : string) : Prop := exists k, In k time_modifiers /\ same_word w k.

(** [term_spells t s], [group_spells g s], [cond_spells c s]: the text s is a way to write
    the term t, the conjunction g, the condition c. *)
Inductive term_spells : Term -> string -> Prop :=
| T_cmp : forall f o v b1 b2, spaces b1 -> spaces b2 -> blanks b1 \/ ~ is_time_modifier f ->
    term_spells (TmCmp f o v) (f ++ b1 ++ cmp_text o ++ b2 ++ value_text v)
| T_in : forall f vs b w b0 b1 s b2, blanks b -> same_word w "IN" -> spaces b0 -> spaces b1 -> spaces b2 ->
    listed gap (fun v u => u = value_text v) vs s -> term_spells (TmIn f vs) (f ++ b ++ w ++ b0 ++ "(" ++ b1 ++ s ++ b2 ++ ")")
| T_not : forall t w b s, same_word w "NOT" -> blanks b \/ spaces b /\ opens s -> term_spells t s -> term_spells (TmNot t) (w ++ b ++ s)
| T_call : forall n args ss, writes_args args ss -> term_spells (TmCall n args) (n ++ "(" ++ commas ss ++ ")")
| T_cmp_call : forall f o n args b1 b2 ss, spaces b1 -> spaces b2 -> blanks b1 \/ ~ is_time_modifier f -> writes_args args ss ->
    term_spells (TmCmpCall f o n args) (f ++ b1 ++ cmp_text o ++ b2 ++ n ++ "(" ++ commas ss ++ ")")
| T_paren : forall c b1 s b2, spaces b1 -> spaces b2 -> cond_spells c s -> term_spells (TmParen c) ("(" ++ b1 ++ s ++ b2 ++ ")")
with group_spells : list Term -> string -> Prop :=
| G_one : forall t s, term_spells t s -> group_spells [t] s
| G_and : forall t s b g u, term_spells t s -> keyword_between "AND" s b u -> group_spells g u -> group_spells (t :: g) (s ++ b ++ u)
(* AND may be left out *)
| G_beside : forall t s b g u, term_spells t s -> blanks b -> ~ starts_word "AND" u -> group_spells g u -> group_spells (t :: g) (s ++ b ++ u)
with cond_spells : Cond -> string -> Prop :=
| C_one : forall g s, group_spells g s -> cond_spells [g] s
| C_or : forall g s b c u, group_spells g s -> keyword_between "OR" s b u -> cond_spells c u -> cond_spells (g :: c) (s ++ b ++ u).
