(** Strings, results and small numeric helpers shared by the whole model.

    A Rust [char] is modelled by one Coq [ascii]; a Rust [String] / [&str] by a
    Coq [string].  Errors carry no message ([Err]); a Rust panic is the explicit
    value [Panic]. *)
From Coq Require Export String Ascii List ZArith Bool Lia.
From Coq Require Import DecimalString.
Export ListNotations.
Open Scope string_scope.
Open Scope list_scope.

(** Outcome of a fallible Rust function: [Ok]/[Err] are [anyhow::Result],
    [Panic] is an unwinding panic (unwrap on [None], ...). *)
Inductive res (A : Type) : Type :=
| Ok (a : A)
| Err
| Panic.
Arguments Ok {A} _.
Arguments Err {A}.
Arguments Panic {A}.

(** The [?] operator. *)
Definition rbind {A B} (x : res A) (f : A -> res B) : res B :=
  match x with Ok a => f a | Err => Err | Panic => Panic end.

Definition rmap {A B} (f : A -> B) (x : res A) : res B :=
  rbind x (fun a => Ok (f a)).

(** [Result::or_else]: only an [Err] is caught, never a panic. *)
Definition ror_else {A} (x : res A) (y : res A) : res A :=
  match x with Err => y | _ => x end.

(** [iter().map(f).collect::<Result<Vec<_>>>()] : stops at the first failure. *)
Fixpoint rsequence {A} (l : list (res A)) : res (list A) :=
  match l with
  | nil => Ok nil
  | x :: l' => rbind x (fun a => rbind (rsequence l') (fun r => Ok (a :: r)))
  end.

Definition rtraverse {A B} (f : A -> res B) (l : list A) : res (list B) :=
  rsequence (map f l).

Definition of_option {A} (o : option A) : res A :=
  match o with Some a => Ok a | None => Err end.

Definition is_ok {A} (x : res A) : bool := match x with Ok _ => true | _ => false end.

Declare Scope res_scope.
Delimit Scope res_scope with res.
Notation "'let?' x ':=' e 'in' f" := (rbind e (fun x => f))
  (at level 200, x pattern, e at level 200, f at level 200) : res_scope.
Open Scope res_scope.

(** ** Characters *)
Definition ch (s : string) : ascii :=
  match s with String c _ => c | EmptyString => Ascii.zero end.

Definition dquote : ascii := Ascii.ascii_of_nat 34.
Definition squote : ascii := Ascii.ascii_of_nat 39.
Definition backslash : ascii := Ascii.ascii_of_nat 92.
Definition nl : string := String (Ascii.ascii_of_nat 10) EmptyString.
Definition dq : string := String dquote EmptyString.
Definition sq : string := String squote EmptyString.

Definition code (c : ascii) : N := N_of_ascii c.
Definition between (lo hi : N) (c : ascii) : bool := (lo <=? code c)%N && (code c <=? hi)%N.

Definition is_digit (c : ascii) : bool := between 48 57 c.
Definition is_lower (c : ascii) : bool := between 97 122 c.
Definition is_upper (c : ascii) : bool := between 65 90 c.
Definition is_alpha (c : ascii) : bool := is_lower c || is_upper c.
Definition is_alnum (c : ascii) : bool := is_alpha c || is_digit c.
(** The characters skipped by nom's multispace0/1: space, tab, CR, LF. *)
Definition is_space (c : ascii) : bool :=
  (code c =? 32)%N || (code c =? 9)%N || (code c =? 13)%N || (code c =? 10)%N.

(** ASCII case mapping ([to_ascii_lowercase], [to_uppercase] on ASCII text). *)
Definition lower_c (c : ascii) : ascii :=
  if is_upper c then ascii_of_N (code c + 32) else c.
Definition upper_c (c : ascii) : ascii :=
  if is_lower c then ascii_of_N (code c - 32) else c.

Fixpoint smap (f : ascii -> ascii) (s : string) : string :=
  match s with EmptyString => EmptyString | String c s' => String (f c) (smap f s') end.
Definition lower (s : string) : string := smap lower_c s.
Definition upper (s : string) : string := smap upper_c s.

Fixpoint sforall (f : ascii -> bool) (s : string) : bool :=
  match s with EmptyString => true | String c s' => f c && sforall f s' end.
Definition sexists (f : ascii -> bool) (s : string) : bool := negb (sforall (fun c => negb (f c)) s).
Definition has_char (c : ascii) (s : string) : bool := sexists (Ascii.eqb c) s.

(** ** str::strip_prefix, starts_with, contains, replace, join, concat *)
Fixpoint strip_prefix (p s : string) : option string :=
  match p, s with
  | EmptyString, _ => Some s
  | String a p', String b s' => if Ascii.eqb a b then strip_prefix p' s' else None
  | String _ _, EmptyString => None
  end.

Definition starts_with (p s : string) : bool :=
  match strip_prefix p s with Some _ => true | None => false end.

Fixpoint contains (pat s : string) : bool :=
  starts_with pat s ||
  match s with EmptyString => false | String _ s' => contains pat s' end.

(** [str::replace] for a non-empty pattern: leftmost, non-overlapping matches. *)
Fixpoint replace_go (pat rep : string) (skip : nat) (s : string) : string :=
  match s with
  | EmptyString => EmptyString
  | String c s' =>
      match skip with
      | S k => replace_go pat rep k s'
      | O => if starts_with pat s
             then (rep ++ replace_go pat rep (pred (String.length pat)) s')%string
             else String c (replace_go pat rep 0 s')
      end
  end.
Definition replace_all (pat rep s : string) : string := replace_go pat rep 0 s.

(** [slice.join(sep)] *)
Fixpoint join (sep : string) (l : list string) : string :=
  match l with
  | nil => EmptyString
  | x :: nil => x
  | x :: l' => (x ++ sep ++ join sep l')%string
  end.

(** [iter.collect::<String>()] over strings. *)
Fixpoint sconcat (l : list string) : string :=
  match l with nil => EmptyString | x :: l' => (x ++ sconcat l')%string end.

(** [s.split(c)] for a single character separator. *)
Fixpoint split_on (c : ascii) (s : string) : list string :=
  match s with
  | EmptyString => EmptyString :: nil
  | String d s' =>
      if Ascii.eqb c d then EmptyString :: split_on c s'
      else match split_on c s' with
           | nil => String d EmptyString :: nil
           | h :: t => String d h :: t
           end
  end.

(** ** Numbers *)
(** Rust [Display] for integers. *)
Definition dec (z : Z) : string := NilZero.string_of_int (Z.to_int z).
Definition dec_nat (n : nat) : string := dec (Z.of_nat n).

Definition i64_min : Z := (- 2 ^ 63)%Z.
Definition i64_max : Z := (2 ^ 63 - 1)%Z.
Definition in_i64 (z : Z) : bool := (i64_min <=? z)%Z && (z <=? i64_max)%Z.
(** i64 arithmetic of a release build (no overflow checks): wraps. *)
Definition wrap64 (z : Z) : Z := ((z + 2 ^ 63) mod 2 ^ 64 - 2 ^ 63)%Z.
(** [x as u64] *)
Definition as_u64 (z : Z) : Z := (z mod 2 ^ 64)%Z.
