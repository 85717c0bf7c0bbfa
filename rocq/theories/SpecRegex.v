(** Regular expressions: what a capture group is, how groups are numbered, and how anchored
    patterns match.  Specification only. *)
From Verif Require Import Str SplAst Regex SpecSpark.
Open Scope list_scope.

(** ** Capture groups *)
(** A node and the nodes directly below it *)
Inductive below : ReAst -> ReAst -> Prop :=
| BRepetition : forall a, below a (ReRepetition a)
| BGroup : forall k a, below a (ReGroup k a)
| BAlternation : forall a l, In a l -> below a (ReAlternation l)
| BConcat : forall a l, In a l -> below a (ReConcat l).
Inductive inside : ReAst -> ReAst -> Prop :=
| InSelf : forall a, inside a a
| InBelow : forall a b c, inside a b -> below b c -> inside a c.
Definition captures_as (k : GroupKind) (g : Z * option string) : Prop :=
  match k with
  | CaptureIndex i => g = (i, None)
  | CaptureName i n => g = (i, Some n)
  | NonCapturing => False
  end.
(** The pattern has a capture group of this number and name *)
Definition has_group (pattern : ReAst) (g : Z * option string) : Prop :=
  exists k a, inside (ReGroup k a) pattern /\ captures_as k g.
(** Groups are numbered by their opening parentheses, from left to right: [numbered a i j]:
    the groups of a have the numbers i+1, ..., j *)
Definition group_number (k : GroupKind) : option Z :=
  match k with CaptureIndex i | CaptureName i _ => Some i | NonCapturing => None end.
Inductive numbered : ReAst -> Z -> Z -> Prop :=
| NOther : forall i, numbered ReOther i i
| NClass : forall k i, numbered (ReClass k) i i
| NRepetition : forall a i j, numbered a i j -> numbered (ReRepetition a) i j
| NCapture : forall k a i j, group_number k = Some (i + 1)%Z -> numbered a (i + 1) j -> numbered (ReGroup k a) i j
| NGroup : forall k a i j, group_number k = None -> numbered a i j -> numbered (ReGroup k a) i j
| NAlternation : forall l i j, all_numbered l i j -> numbered (ReAlternation l) i j
| NConcat : forall l i j, all_numbered l i j -> numbered (ReConcat l) i j
with all_numbered : list ReAst -> Z -> Z -> Prop :=
| NNil : forall i, all_numbered [] i i
| NCons : forall a l i j k, numbered a i j -> all_numbered l j k -> all_numbered (a :: l) i k.

(** ** Matching.  Only patterns that start with ^, and repetition of single characters.
    [(?i)] at the start: letters in either case. *)
Inductive PatternItem :=
| One (p : ascii -> bool)        (* a character *)
| Maybe (p : ascii -> bool)      (* ? *)
| Many (p : ascii -> bool)       (* * *)
| Open | Close                   (* parentheses *)
| End.                           (* $ *)
Definition digit (c : ascii) : bool := let n := nat_of_ascii c in Nat.leb 48 n && Nat.leb n 57.
Definition word_char (c : ascii) : bool :=
  let n := nat_of_ascii c in
  digit c || Nat.leb 65 n && Nat.leb n 90 || Nat.leb 97 n && Nat.leb n 122 || Nat.eqb n 95.
Definition fold_case (c : ascii) : ascii := lower_c c.
Fixpoint one_of (s : string) (c : ascii) : bool :=
  match s with EmptyString => false | String d s' => Ascii.eqb c d || one_of s' c end.
Definition same (ignore_case : bool) (d c : ascii) : bool :=
  if ignore_case then Ascii.eqb (fold_case d) (fold_case c) else Ascii.eqb d c.
(** A class between brackets: single characters only *)
Fixpoint class_end (s : string) : option (string * string) :=
  match s with
  | EmptyString => None
  | String c s' =>
      if Ascii.eqb c "]" then Some (EmptyString, s')
      else if one_of "[\^-" c then None
      else option_map (fun r => (String c (fst r), snd r)) (class_end s')
  end.
Fixpoint in_class (i : bool) (s : string) (c : ascii) : bool :=
  match s with EmptyString => false | String d s' => same i d c || in_class i s' c end.
(** One character of the pattern *)
Definition read_one (i : bool) (s : string) : option ((ascii -> bool) * string) :=
  match s with
  | String "\" (String "d" s') => Some (digit, s')
  | String "\" (String "w" s') => Some (word_char, s')
  | String "\" (String "." s') => Some (Ascii.eqb ".", s')
  | String "[" s' => option_map (fun r => (in_class i (fst r), snd r)) (class_end s')
  | String c s' => if one_of "\]*+?.|{}^$()" c then None else Some (same i c, s')
  | EmptyString => None
  end.
Fixpoint read_items (fuel : nat) (i : bool) (s : string) : option (list PatternItem) :=
  match fuel with
  | O => None
  | S fuel' =>
      match s with
      | EmptyString => Some []
      | String "(" s' => if match s' with String "?" _ => true | _ => false end then None
                         else option_map (cons Open) (read_items fuel' i s')
      | String ")" s' => match s' with
                         | String c _ => if one_of "*+?{" c then None else option_map (cons Close) (read_items fuel' i s')
                         | EmptyString => Some [Close]
                         end
      | String "$" s' => option_map (cons End) (read_items fuel' i s')
      | _ =>
          match read_one i s with
          | Some (p, s') =>
              match s' with
              | String "*" r => option_map (cons (Many p)) (read_items fuel' i r)
              | String "+" r => option_map (fun l => One p :: Many p :: l) (read_items fuel' i r)
              | String "?" r => option_map (cons (Maybe p)) (read_items fuel' i r)
              | _ => option_map (cons (One p)) (read_items fuel' i s')
              end
          | None => None
          end
      end
  end.
Definition read_pattern (s : string) : option (list PatternItem) :=
  match s with
  | String "^" r => read_items (S (String.length s)) false r
  | String "(" (String "?" (String "i" (String ")" (String "^" r)))) => read_items (S (String.length s)) true r
  | _ => None
  end.
(** Backtracking, as much as possible first.  [opened]: the texts from the parentheses not yet
    closed on, with their numbers; [n]: groups opened so far; the result: the texts of the groups.
    The text of a group is what was read between its parentheses. *)
Definition taken (from to : string) : string := substring 0 (String.length from - String.length to) from.
Section Repeat.
  Variable p : ascii -> bool.
  Variable rest : string -> option (list (nat * string)).
  Fixpoint many (s : string) : option (list (nat * string)) :=
    match s with
    | String c s' => if p c then match many s' with Some r => Some r | None => rest s end else rest s
    | EmptyString => rest s
    end.
End Repeat.
(** $ stands for the end of the text, or for the end but for a line break *)
Definition line_end (s : string) : bool :=
  match s with
  | EmptyString => true
  | String c EmptyString => Ascii.eqb c "010" || Ascii.eqb c "013"
  | String c (String d EmptyString) => Ascii.eqb c "013" && Ascii.eqb d "010"
  | _ => false
  end.
Fixpoint matches (l : list PatternItem) (n : nat) (opened : list (nat * string)) (s : string) : option (list (nat * string)) :=
  match l with
  | [] => Some []
  | One p :: l' => match s with String c s' => if p c then matches l' n opened s' else None | EmptyString => None end
  | Maybe p :: l' =>
      match s with
      | String c s' => if p c then match matches l' n opened s' with Some r => Some r | None => matches l' n opened s end
                       else matches l' n opened s
      | EmptyString => matches l' n opened s
      end
  | Many p :: l' => many p (matches l' n opened) s
  | Open :: l' => matches l' (S n) ((S n, s) :: opened) s
  | Close :: l' =>
      match opened with
      | (i, from) :: o => option_map (cons (i, taken from s)) (matches l' n o s)
      | [] => None
      end
  | End :: l' => if line_end s then matches l' n opened s else None
  end.
(** The text of a group; the empty text if the pattern does not match *)
Fixpoint group_of (i : nat) (l : list (nat * string)) : string :=
  match l with [] => EmptyString | (j, s) :: l' => if Nat.eqb i j then s else group_of i l' end.
Definition extract (items : list PatternItem) (s : string) (i : nat) : string :=
  match matches items 0 [] s with Some l => group_of i l | None => EmptyString end.
(** How many groups a pattern has *)
Fixpoint groups_in (l : list PatternItem) : nat :=
  match l with [] => 0 | Open :: l' => S (groups_in l') | _ :: l' => groups_in l' end.
(** A Spark that extracts groups and turns texts to upper case as documented *)
Definition spark_regex (sp : Spark) : Prop :=
  (forall pattern items text i, read_pattern pattern = Some items -> 1 <= i <= groups_in items ->
     sp_fn sp "regexp_extract" [AVal (SStr text); ALit (SStr pattern); ALit (SInt (Z.of_nat i))] = SStr (extract items text i)) /\
  (forall text, sp_fn sp "upper" [AVal (SStr text)] = SStr (upper text)) /\
  (forall a b, sp_cmp sp "==" (SStr a) (SStr b) = String.eqb a b).

(** ** Numbers with units *)
(** 105, .5, 10.5 *)
Inductive number_text : string -> Prop :=
| Digits : forall b, sforall digit b = true -> b <> EmptyString -> number_text b
| Decimal : forall a b, sforall digit a = true -> sforall digit b = true -> b <> EmptyString -> number_text (a ++ String "." b)%string.
(** Kilobytes in a unit *)
Definition kilobytes (u : ascii) : option string :=
  if Ascii.eqb u "k" || Ascii.eqb u "K" then Some "1.0"%string
  else if Ascii.eqb u "m" || Ascii.eqb u "M" then Some "1024.0"%string
  else if Ascii.eqb u "g" || Ascii.eqb u "G" then Some "1048576.0"%string
  else None.
(** A unit: letters, digits and underscores, not starting with a digit *)
Definition unit_text (u : string) : bool :=
  sforall word_char u && match u with String c _ => negb (digit c) | EmptyString => true end.

(** ** rex *)
(** The column of a group: its name, or its number if it has none *)
Definition group_column (g : Z * option string) : string := match snd g with Some n => n | None => dec (fst g) end.
(** The row with the texts of the groups: the column of each group has the part of the field's
    text the group matches; all other columns stay *)
Definition extracted (sp : Spark) (pattern : ReAst) (text : string) (field : string) (r r' : Row) : Prop :=
  (forall g, has_group pattern g -> cell (group_column g) r' = sp_fn sp "regexp_extract" [AVal (cell field r); ALit (SStr text); ALit (SInt (fst g))]) /\
  (forall n, (forall g, has_group pattern g -> group_column g <> n) -> cell n r' = cell n r).

(** ** convert *)
Definition conversion_target (c : FieldConversion) : string := match fc_alias c with Some a => a | None => fc_field c end.
