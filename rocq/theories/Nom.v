(** The nom 7 parser combinators the grammar is written with.

    Cargo.toml asks for nom without a version; the calls (alt((..))(input),
    Parser::parse) only compile with nom 7, whose documented behaviour is
    modelled here.  The grammar never uses cut, so the only error kind is
    nom::Err::Error ([PErr]).  [PPanic] is a Rust panic.  [PFuel] is not a Rust
    outcome: it marks exhausted recursion fuel of the model, and is proved
    unreachable. *)
From Verif Require Import Str.

Inductive PR (A : Type) : Type :=
| POk (rest : string) (a : A)
| PErr
| PPanic
| PFuel.
Arguments POk {A} _ _.
Arguments PErr {A}.
Arguments PPanic {A}.
Arguments PFuel {A}.

(** IResult<&str, A> as a function of the input *)
Definition Parser (A : Type) := string -> PR A.

Definition p_ret {A} (a : A) : Parser A := fun s => POk s a.
Definition p_fail {A} : Parser A := fun _ => PErr.
(** Sequencing: what nom's tuple, pair, preceded, ... do with the remaining input *)
Definition p_bind {A B} (p : Parser A) (f : A -> Parser B) : Parser B :=
  fun s => match p s with
           | POk r a => f a r
           | PErr => PErr
           | PPanic => PPanic
           | PFuel => PFuel
           end.
Notation "'P:' x '<-' p ';' f" := (p_bind p (fun x => f))
  (at level 200, x pattern, p at level 100, f at level 200).

(** nom::combinator::map and into *)
Definition p_map {A B} (f : A -> B) (p : Parser A) : Parser B := p_bind p (fun a => p_ret (f a)).
(** nom::branch::alt for two branches; longer ones are nested *)
Definition p_or {A} (p q : Parser A) : Parser A :=
  fun s => match p s with PErr => q s | r => r end.
Notation "p <|> q" := (p_or p q) (at level 60, right associativity).
Definition pair_ {A B} (p : Parser A) (q : Parser B) : Parser (A * B) :=
  P: a <- p; P: b <- q; p_ret (a, b).
Definition preceded {A B} (p : Parser A) (q : Parser B) : Parser B := P: _ <- p; q.
Definition terminated {A B} (p : Parser A) (q : Parser B) : Parser A :=
  P: a <- p; P: _ <- q; p_ret a.
Definition delimited {A B C} (p : Parser A) (q : Parser B) (r : Parser C) : Parser B :=
  P: _ <- p; P: b <- q; P: _ <- r; p_ret b.
Definition separated_pair {A B C} (p : Parser A) (q : Parser B) (r : Parser C) : Parser (A * C) :=
  P: a <- p; P: _ <- q; P: c <- r; p_ret (a, c).
(** nom::combinator::opt *)
Definition opt {A} (p : Parser A) : Parser (option A) :=
  fun s => match p s with
           | POk r a => POk r (Some a)
           | PErr => POk s None
           | PPanic => PPanic
           | PFuel => PFuel
           end.
(** nom::combinator::peek *)
Definition peek {A} (p : Parser A) : Parser A :=
  fun s => match p s with POk _ a => POk s a | r => r end.
(** nom::combinator::verify *)
Definition verify {A} (p : Parser A) (f : A -> bool) : Parser A :=
  P: a <- p; if f a then p_ret a else p_fail.
(** unwrapped, src/spl/parser.rs 90-99 *)
Definition unwrapped {A} (p : Parser (res A)) : Parser A :=
  P: r <- p; match r with Ok a => p_ret a | _ => p_fail end.
(** nom::combinator::eof, all_consuming *)
Definition eof : Parser string :=
  fun s => match s with EmptyString => POk s EmptyString | _ => PErr end.
Definition all_consuming {A} (p : Parser A) : Parser A := P: a <- p; P: _ <- eof; p_ret a.
(** nom::combinator::recognize: the text the parser consumed *)
Definition consumed (s rest : string) : string :=
  substring 0 (String.length s - String.length rest) s.
Definition recognize {A} (p : Parser A) : Parser string :=
  fun s => match p s with
           | POk r _ => POk r (consumed s r)
           | PErr => PErr
           | PPanic => PPanic
           | PFuel => PFuel
           end.
(** nom::combinator::map_parser: the second parser sees only the first one's output *)
Definition map_parser {B} (p : Parser string) (q : Parser B) : Parser B :=
  P: t <- p; fun s => match q t with
                      | POk _ b => POk s b
                      | PErr => PErr
                      | PPanic => PPanic
                      | PFuel => PFuel
                      end.

(** ** Characters and tags *)
Definition satisfy (f : ascii -> bool) : Parser ascii :=
  fun s => match s with
           | String c r => if f c then POk r c else PErr
           | EmptyString => PErr
           end.
Definition one_of (l : string) : Parser ascii := satisfy (fun c => has_char c l).
Definition none_of (l : string) : Parser ascii := satisfy (fun c => negb (has_char c l)).
Definition anychar : Parser ascii := satisfy (fun _ => true).
(** bytes::complete::tag *)
Definition tag (t : string) : Parser string :=
  fun s => match strip_prefix t s with Some r => POk r t | None => PErr end.
(** bytes::complete::tag_no_case: yields the text as written *)
Fixpoint strip_prefix_nc (p s : string) : option string :=
  match p, s with
  | EmptyString, _ => Some s
  | String a p', String b s' =>
      if Ascii.eqb (lower_c a) (lower_c b) then strip_prefix_nc p' s' else None
  | String _ _, EmptyString => None
  end.
Definition tag_no_case (t : string) : Parser string :=
  fun s => match strip_prefix_nc t s with Some r => POk r (consumed s r) | None => PErr end.
(** The longest prefix of characters satisfying f, and the rest *)
Fixpoint span (f : ascii -> bool) (s : string) : string * string :=
  match s with
  | EmptyString => (EmptyString, EmptyString)
  | String c s' => if f c then let (a, b) := span f s' in (String c a, b) else (EmptyString, s)
  end.
Definition take_while (f : ascii -> bool) : Parser string :=
  fun s => let (a, b) := span f s in POk b a.
Definition take_while1 (f : ascii -> bool) : Parser string :=
  fun s => let (a, b) := span f s in
           match a with EmptyString => PErr | _ => POk b a end.
Definition multispace0 : Parser string := take_while is_space.
Definition multispace1 : Parser string := take_while1 is_space.
Definition digit1 : Parser string := take_while1 is_digit.
Definition alphanumeric1 : Parser string := take_while1 is_alnum.
(** bytes::complete::take_until for a one-character text: everything before its
    first occurrence, an error when there is none *)
Definition take_until_char (c : ascii) : Parser string :=
  fun s => let (a, b) := span (fun d => negb (Ascii.eqb c d)) s in
           match b with EmptyString => PErr | _ => POk b a end.

(** ** Repetition, nom::multi.  An iteration that consumes nothing is an error. *)
Fixpoint many0_go {A} (p : Parser A) (fuel : nat) (s : string) : PR (list A) :=
  match fuel with
  | O => PFuel
  | S f =>
      match p s with
      | PErr => POk s []
      | POk r a =>
          if Nat.eqb (String.length r) (String.length s) then PErr
          else match many0_go p f r with
               | POk r' l => POk r' (a :: l)
               | e => e
               end
      | PPanic => PPanic
      | PFuel => PFuel
      end
  end.
Definition many0 {A} (p : Parser A) : Parser (list A) :=
  fun s => many0_go p (S (String.length s)) s.
(** many1: the first element is not subject to the check *)
Definition many1 {A} (p : Parser A) : Parser (list A) :=
  P: a <- p; P: l <- many0 p; p_ret (a :: l).
(** many_m_n(2, usize::MAX, p): the check applies to every element *)
Definition many2 {A} (p : Parser A) : Parser (list A) :=
  verify (many0 p) (fun l => Nat.leb 2 (length l)).
(** separated_list: after a separator that is not followed by an element the
    input before the separator is handed back *)
Fixpoint sep_go {A B} (sep : Parser B) (p : Parser A) (fuel : nat) (s : string) : PR (list A) :=
  match fuel with
  | O => PFuel
  | S f =>
      match sep s with
      | PErr => POk s []
      | POk r1 _ =>
          if Nat.eqb (String.length r1) (String.length s) then PErr
          else match p r1 with
               | PErr => POk s []
               | POk r2 a =>
                   match sep_go sep p f r2 with
                   | POk r3 l => POk r3 (a :: l)
                   | e => e
                   end
               | PPanic => PPanic
               | PFuel => PFuel
               end
      | PPanic => PPanic
      | PFuel => PFuel
      end
  end.
Definition separated_list1 {A B} (sep : Parser B) (p : Parser A) : Parser (list A) :=
  P: a <- p; P: l <- (fun s => sep_go sep p (S (String.length s)) s); p_ret (a :: l).
Definition separated_list0 {A B} (sep : Parser B) (p : Parser A) : Parser (list A) :=
  fun s => match p s with
           | PErr => POk s []
           | POk r a =>
               match sep_go sep p (S (String.length r)) r with
               | POk r' l => POk r' (a :: l)
               | e => e
               end
           | PPanic => PPanic
           | PFuel => PFuel
           end.
