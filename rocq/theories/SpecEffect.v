(** Definitions the statements about single commands use.  Specification only. *)
From Verif Require Import Str SplAst PyAst Functions Commands SpecPy SpecCol SpecSpark SpecRows SpecCommands.
Open Scope list_scope.

(** ** Searches and indexes *)
(** The event a row of the table n stands for: its field index is the table's name *)
Definition event (n : string) (r : Row) : Row := set_cell "index" (SStr n) r.
Definition index_field (e : Expr) : bool := match e with ELeaf (LConstant (KField f)) => String.eqb f "index" | _ => false end.
(** index=... with the field index on exactly one side *)
Definition names_index (l : Expr) (op : string) (r : Expr) : bool := String.eqb op "=" && xorb (index_field l) (index_field r).
(** Some comparison joined by AND, OR, ... is one of index *)
Fixpoint mentions_index (e : Expr) : bool :=
  match e with EBinary l op r => names_index l op r || mentions_index l || mentions_index r | _ => false end.
(** One is below an operator other than AND *)
Fixpoint index_below_or (e : Expr) : bool :=
  match e with
  | EBinary l op r =>
      if names_index l op r then false
      else if String.eqb op "AND" then index_below_or l || index_below_or r
      else mentions_index l || mentions_index r
  | _ => false
  end.

(** ** Sorting: a comes before (or with) b *)
Inductive Before (le : Val -> Val -> bool) : list (string * bool) -> Row -> Row -> Prop :=
| BNone : forall a b, Before le [] a b
| BTie : forall n desc ks a b, le (cell n a) (cell n b) = true -> le (cell n b) (cell n a) = true ->
    Before le ks a b -> Before le ((n, desc) :: ks) a b
| BUp : forall n ks a b, le (cell n a) (cell n b) = true -> le (cell n b) (cell n a) = false -> Before le ((n, false) :: ks) a b
| BDown : forall n ks a b, le (cell n b) (cell n a) = true -> le (cell n a) (cell n b) = false -> Before le ((n, true) :: ks) a b.
(** A key as written: sign and field; descending if marked -, and desc turns it around *)
Definition written_key (k : option string * string) : option string * Expr := (fst k, ELeaf (LConstant (KField (snd k)))).
Definition wanted_key (desc : bool) (k : option string * string) : string * bool :=
  (snd k, match fst k with Some "-"%string => negb desc | _ => desc end).

(** ** eval: the assignments one after the other, each seeing the ones before *)
Inductive Assigns (sp : Spark) : list (string * Expr) -> Row -> Row -> Prop :=
| ANone : forall r, Assigns sp [] r r
| AOne : forall n e v l r r', ev sp r e = Some v -> Assigns sp l (set_cell n v r) r' -> Assigns sp ((n, e) :: l) r r'.
(** rename: the renamings one after the other *)
Definition rename_all (l : list (string * string)) (r : Row) : Row := fold_left (fun r on => rename_cell (fst on) (snd on) r) l r.
Definition written_renaming (on : string * string) : Expr * string := (ELeaf (LConstant (KField (fst on))), snd on).
(** case(c1, v1, c2, v2, ...) *)
Fixpoint alternating {A} (l : list (A * A)) : list A := match l with [] => [] | (a, b) :: l' => a :: b :: alternating l' end.
(** The value v belongs to the first condition that is [b]; conditions before may be the
    opposite or unknown.  All conditions and values can be evaluated. *)
Inductive Branch (sp : Spark) (b : bool) (r : Row) : list (Expr * Expr) -> Val -> Prop :=
| CNone : Branch sp b r [] SNull
| CHere : forall c e v l w, ev sp r c = Some (SBool b) -> ev sp r e = Some v -> Branch sp b r l w -> Branch sp b r ((c, e) :: l) v
| CNext : forall c e v l w, ev sp r c = Some (SBool (negb b)) \/ ev sp r c = Some SNull -> ev sp r e = Some v ->
    Branch sp b r l w -> Branch sp b r ((c, e) :: l) w.

(** ** The runtime allowed: commands that have no runtime version, with conditions that
    call no function *)
Fixpoint call_free (e : Expr) : bool :=
  match e with
  | ECall _ _ => false
  | EBinary l _ r => call_free l && call_free r
  | EUnary _ r => call_free r
  | _ => true
  end.
Fixpoint runtime_free (c : Command) : bool :=
  match c with
  | CAddTotals _ | CBin _ _ | CConvert _ _ | CFields _ _ | CHead _ _ _ | CLookup _ _ _ | CMakeResults _ | CRare _ | CRegex _ _
  | CRename _ | CRex _ | CSPath _ | CSort _ _ _ | CTable _ | CTail _ | CTop _ => true
  | CWhere e => call_free e
  | CJoin _ p => forallb runtime_free p
  | CMultiSearch ps => forallb (forallb runtime_free) ps
  | _ => false
  end.
Definition without_runtime (env : Env) : Env := mkEnv Disallow (env_hash_order env) (env_groups env).
