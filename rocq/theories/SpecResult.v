(** What it means that a pipeline's generated program has a result.  Specification only. *)
From Coq Require Import Permutation.
From Verif Require Import Str SplAst PyAst Functions Commands Api SpecPy SpecCol SpecSpark SpecRows SpecCommands SpecExpr.
Open Scope list_scope.

(** The order in which a hash set is walked is any order of its elements *)
Definition walks_sets (env : Env) : Prop := forall i l, Permutation l (env_hash_order env i l).
(** A covered pipeline (possibly empty) that yields [rows] according to SpecCommands *)
Definition covered (sp : Spark) (db : string -> option Table) (p : list Command) (rows : Table) : Prop :=
  (p = [] /\ db "main"%string = Some rows) \/ (plain_pipeline p = true /\ run sp db p = Some rows).
(** The generated program computes exactly the object o, whatever runtime commands do *)
Definition gives (env : Env) (sp : Spark) (db : string -> option Table) (p : list Command) (o : Obj) : Prop :=
  exists code, render_pyspark env p = Ok code /\ forall cmds x, computes sp db cmds code x <-> x = o.
(** The same for a query text *)
Definition text_gives (env : Env) (sp : Spark) (db : string -> option Table) (text : string) (o : Obj) : Prop :=
  exists code, transpile env text = Some (Ok code) /\ forall cmds x, computes sp db cmds code x <-> x = o.
(** The generated program cannot be run *)
Definition fails (env : Env) (sp : Spark) (db : string -> option Table) (text : string) : Prop :=
  exists code, transpile env text = Some (Ok code) /\ forall cmds x, ~ computes sp db cmds code x.

(** ** Written where conditions, directly on rows: unknown if a compared field is null *)
Section Written.
  Variable sp : Spark.
  Variable row : Row.
  Definition written_value (v : Value) : Val := match v with VInt z => SInt z | VStr s | VWord s => SStr s end.
  Definition written_op (o : CmpOp) : string := match o with CEq => "==" | _ => cmp_text o end.
  (** true if all are true, false if one is false, else unknown; and dually *)
  Definition all_true (l : list (option bool)) : option bool :=
    if forallb (fun x => match x with Some true => true | _ => false end) l then Some true
    else if existsb (fun x => match x with Some false => true | _ => false end) l then Some false else None.
  Definition some_true (l : list (option bool)) : option bool :=
    if existsb (fun x => match x with Some true => true | _ => false end) l then Some true
    else if forallb (fun x => match x with Some false => true | _ => false end) l then Some false else None.
  Fixpoint term_truth (t : Term) : option bool :=
    match t with
    | TmCmp f o v => match cell f row with SNull => None | x => Some (sp_cmp sp (written_op o) x (written_value v)) end
    | TmIn f vs => match cell f row with SNull => None | x => Some (existsb (fun v => sp_cmp sp "==" x (written_value v)) vs) end
    | TmNot t => option_map negb (term_truth t)
    (* a call has the value it has in eval *)
    | TmCall n args => match ev sp row (meaning (TCall n args)) with Some (SBool b) => Some b | _ => None end
    | TmCmpCall f o n args =>
        match cell f row, ev sp row (meaning (TCall n args)) with
        | SNull, _ | _, None | _, Some SNull => None
        | x, Some y => Some (sp_cmp sp (written_op o) x y)
        end
    | TmParen c => some_true (map (fun g => all_true (map term_truth g)) c)
    end.
  Definition cond_truth (c : Cond) : option bool := some_true (map (fun g => all_true (map term_truth g)) c).
  Definition cond_true (c : Cond) : bool := match cond_truth c with Some true => true | _ => false end.
  (** The calls have values, and those that stand alone are true, false or null *)
  Fixpoint term_known (t : Term) : Prop :=
    match t with
    | TmCmp _ _ _ | TmIn _ _ => True
    | TmNot t => term_known t
    | TmCall n args => exists b, ev sp row (meaning (TCall n args)) = Some (of_truth b)
    | TmCmpCall _ _ n args => exists v, ev sp row (meaning (TCall n args)) = Some v
    | TmParen c =>
        (fix groups c := match c with
                         | [] => True
                         | g :: c' => (fix terms g := match g with [] => True | t :: g' => term_known t /\ terms g' end) g /\ groups c'
                         end) c
    end.
  Definition cond_known (c : Cond) : Prop := term_known (TmParen c).
End Written.
(** The texts compared with contain no single quote (no double quote in a list), backslash or
    line break (see C24), and the calls are of the functions covered in eval *)
Fixpoint term_quotable (t : Term) : Prop :=
  match t with
  | TmCmp _ _ (VInt _) | TmCmp _ _ (VWord _) => True
  | TmCmp _ _ (VStr s) => stands squote false s = true
  | TmIn _ vs => Forall (fun v => match v with VInt _ | VWord _ => True | VStr s => stands dquote false s = true end) vs
  | TmNot t => term_quotable t
  | TmCall n args | TmCmpCall _ _ n args => plain_expr true (meaning (TCall n args)) = true
  | TmParen c =>
      (fix groups c := match c with
                       | [] => True
                       | g :: c' => (fix terms g := match g with [] => True | t :: g' => term_quotable t /\ terms g' end) g /\ groups c'
                       end) c
  end.
Definition cond_quotable (c : Cond) : Prop := term_quotable (TmParen c).

(** ** A small Spark for examples: values are compared if they have the same type;
    integers are added and ordered; sorting is by insertion *)
Definition cmp_int (op : string) (a b : Z) : bool :=
  if String.eqb op "==" then (a =? b)%Z else if String.eqb op "!=" then negb (a =? b)%Z
  else if String.eqb op "<" then (a <? b)%Z else if String.eqb op "<=" then (a <=? b)%Z
  else if String.eqb op ">" then (a >? b)%Z else (a >=? b)%Z.
Definition small_cmp (op : string) (a b : Val) : bool :=
  match a, b with
  | SInt x, SInt y => cmp_int op x y
  | _, _ => if String.eqb op "==" then val_eqb a b else if String.eqb op "!=" then negb (val_eqb a b) else false
  end.
Definition small_arith (op : string) (a b : Val) : Val :=
  match a, b with
  | SInt x, SInt y => if String.eqb op "+" then SInt (x + y) else if String.eqb op "-" then SInt (x - y)
                      else if String.eqb op "*" then SInt (x * y) else SNull
  | SInt x, _ => SInt x
  | _, SInt y => SInt y
  | _, _ => SNum "0.0"
  end.
Definition small_agg (f : string) (l : list (list FArg)) : Val :=
  let ints := List.concat (map (fun a => match a with AVal (SInt z) :: _ => [z] | _ => [] end) l) in
  if String.eqb f "count" then SInt (Z.of_nat (length ints))
  else if String.eqb f "sum" then SInt (fold_left Z.add ints 0%Z)
  else match ints with
       | [] => SNull
       | z :: l => if String.eqb f "min" then SInt (fold_left Z.min l z) else if String.eqb f "max" then SInt (fold_left Z.max l z)
                   else if String.eqb f "first" then SInt z else if String.eqb f "last" then SInt (last ints z) else SNull
       end.
Fixpoint insert_row (le : Row -> Row -> bool) (r : Row) (l : Table) : Table :=
  match l with
  | [] => [r]
  | x :: l' => if le r x then r :: l else x :: insert_row le r l'
  end.
Definition small_spark : Spark := {|
  sp_cmp := small_cmp;
  sp_arith := small_arith;
  sp_fn := fun _ _ => SNull;
  sp_method := fun m v _ => match v with SInt _ => v | _ => SNull end;
  sp_sql := fun _ _ => SNull;
  sp_agg := small_agg;
  sp_sort := fun le t => fold_right (insert_row le) [] t;
  sp_le := fun a b => match a, b with SInt x, SInt y => (x <=? y)%Z | SNull, _ => true | _, _ => false end |}.
(** One table *)
Definition only_main (rows : Table) : string -> option Table := fun n => if String.eqb n "main" then Some rows else None.
