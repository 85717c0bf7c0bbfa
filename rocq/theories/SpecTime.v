(** Time formats: the items of an SPL format, what they show of a point in time, and what a
    Spark pattern shows.  Specification only.
    SPL: https://docs.splunk.com, date and time format variables, quoted in
    /repo/src/pyspark/transpiler/utils.rs 27-87.  Spark: datetime patterns, ibid. 89-113. *)
From Coq Require Import String Ascii List Arith ZArith Bool.
Import ListNotations.
From Verif Require Import Str.
Open Scope list_scope.
Open Scope string_scope.

(** ** Formats *)
(** A character other than percent, a directive (percent and a name), or a doubled percent *)
Inductive Item := Lit (c : ascii) | Dir (name : string) | Percent.
Definition item_text (i : Item) : string :=
  match i with Lit c => String c "" | Dir d => "%" ++ d | Percent => "%%" end.
Definition format_text (l : list Item) : string := sconcat (map item_text l).
(** The directives with a Spark equivalent, and those known to have none *)
Definition translated : list string :=
  ["f"; "H"; "I"; "k"; "M"; "N"; "p"; "Q"; "3Q"; "6Q"; "9Q"; "S"; "T"; "Z"; "z"; ":z"; "::z"; ":::z"; "F"; "A"; "a"; "d"; "e"; "j"; "w";
   "b"; "B"; "m"; "y"; "Y"].
Definition untranslatable : list string := ["c"; "+"; "Ez"; "s"; "X"; "x"].
Definition directives : list string := (translated ++ untranslatable)%list.
Definition known (i : Item) : Prop :=
  match i with Lit c => c <> "%"%char | Dir d => In d directives | Percent => True end.
(** A character some directive begins with *)
Definition begins_directive (c : ascii) : bool :=
  existsb (fun d => match d with String c' _ => Ascii.eqb c c' | EmptyString => false end) directives.
(** After a doubled percent comes nothing that could be read as a directive of its second half *)
Fixpoint percents_apart (l : list Item) : Prop :=
  match l with
  | [] => True
  | i :: l' => percents_apart l' /\
      match i, l' with
      | Percent, Lit c :: _ => begins_directive c = false
      | Percent, Dir _ :: _ => False
      | _, _ => True
      end
  end.

(** ** What is shown *)
Record Time := mkTime {
  year : Z; month : Z; day : Z; weekday : Z; yearday : Z;
  hour : Z; minute : Z; second : Z; nanos : Z;
  zone_name : string; zone_east : bool; zone_minutes : Z;
  month_name : string; month_short : string; day_name : string; day_short : string }.

Definition digit (n : Z) : ascii := ascii_of_nat (48 + Z.to_nat (n mod 10)).
(** The last w decimal digits of n *)
Fixpoint digits (w : nat) (n : Z) : string :=
  match w with O => "" | S w' => digits w' (n / 10)%Z ++ String (digit n) "" end.
(** n in decimal, at least w digits *)
Definition padded (w : nat) (n : Z) : string :=
  let s := dec n in   sconcat (repeat "0" (w - String.length s)) ++ s.
Definition spaced (w : nat) (n : Z) : string :=
  let s := dec n in sconcat (repeat " " (w - String.length s)) ++ s.
Definition hour12 (t : Time) : Z := if (hour t mod 12 =? 0)%Z then 12%Z else (hour t mod 12)%Z.
Definition half (t : Time) : string := if (hour t <? 12)%Z then "AM" else "PM".
Definition sign (t : Time) : string := if zone_east t then "+" else "-".
Definition zone_hm (sep : string) (t : Time) : string := sign t ++ padded 2 (zone_minutes t / 60)%Z ++ sep ++ padded 2 (zone_minutes t mod 60)%Z.
(** The first w digits of the fraction of the second *)
Definition fraction (w : nat) (t : Time) : string := substring 0 w (digits 9 (nanos t)).

Definition lookup_text (d : string) (l : list (string * string)) : option string :=
  option_map snd (find (fun x => String.eqb d (fst x)) l).
(** What SPL shows for a directive (years from 1000) *)
Definition spl_shows (t : Time) (d : string) : option string :=
  lookup_text d
    [ ("H", padded 2 (hour t)); ("I", padded 2 (hour12 t)); ("k", spaced 2 (hour t)); ("M", padded 2 (minute t));
      ("p", half t); ("S", padded 2 (second t)); ("f", fraction 6 t); ("N", fraction 9 t);
      ("Q", fraction 3 t); ("3Q", fraction 3 t); ("6Q", fraction 6 t); ("9Q", fraction 9 t);
      ("T", padded 2 (hour t) ++ ":" ++ padded 2 (minute t) ++ ":" ++ padded 2 (second t));
      ("Z", zone_name t); ("z", zone_hm "" t); (":z", zone_hm ":" t);
      ("F", padded 4 (year t) ++ "-" ++ padded 2 (month t) ++ "-" ++ padded 2 (day t));
      ("A", day_name t); ("a", day_short t); ("d", padded 2 (day t)); ("e", spaced 2 (day t)); ("j", padded 3 (yearday t));
      ("w", dec (weekday t)); ("b", month_short t); ("B", month_name t); ("m", padded 2 (month t));
      ("y", digits 2 (year t)); ("Y", padded 4 (year t)) ].
Fixpoint spl_format (t : Time) (l : list Item) : option string :=
  match l with
  | [] => Some ""
  | i :: l' =>
      match (match i with Lit c => Some (String c "") | Percent => Some "%" | Dir d => spl_shows t d end), spl_format t l' with
      | Some a, Some b => Some (a ++ b)
      | _, _ => None
      end
  end.

(** What Spark shows for a run of n equal letters; None: an illegal pattern, or a letter not
    described here *)
Definition spark_shows (t : Time) (c : ascii) (n : nat) : option string :=
  let num v := if Nat.ltb n 3 then Some (padded n v) else None in
  match c with
  | "y"%char => if Nat.eqb n 2 then Some (digits 2 (year t)) else if Nat.ltb n 7 then Some (padded n (year t)) else None
  | "M"%char => if Nat.ltb n 3 then Some (padded n (month t)) else if Nat.eqb n 3 then Some (month_short t) else if Nat.eqb n 4 then Some (month_name t) else None
  | "d"%char => num (day t)
  | "D"%char => if Nat.ltb n 4 then Some (padded n (yearday t)) else None
  | "E"%char => if Nat.ltb n 4 then Some (day_short t) else if Nat.eqb n 4 then Some (day_name t) else None
  | "a"%char => if Nat.eqb n 1 then Some (half t) else None
  | "h"%char => num (hour12 t)
  | "H"%char => num (hour t)
  | "m"%char => num (minute t)
  | "s"%char => num (second t)
  | "S"%char => if Nat.ltb n 10 then Some (fraction n t) else None
  | "z"%char => if Nat.ltb n 4 then Some (zone_name t) else None
  | "x"%char =>
      if Nat.eqb n 1 then Some (sign t ++ padded 2 (zone_minutes t / 60)%Z
                           ++ (if (zone_minutes t mod 60 =? 0)%Z then "" else padded 2 (zone_minutes t mod 60)%Z))
      else if (Nat.eqb n 2) || (Nat.eqb n 4) then Some (zone_hm "" t)
      else if (Nat.eqb n 3) || (Nat.eqb n 5) then Some (zone_hm ":" t) else None
  | _ => None
  end.
Definition letter (c : ascii) : bool :=
  let n := nat_of_ascii c in (Nat.ltb 64 n && (Nat.ltb n 91)) || (Nat.ltb 96 n && (Nat.ltb n 123)).
(** Characters with a meaning of their own in a pattern: quotes, brackets, hash, braces *)
Definition special (c : ascii) : bool := existsb (Ascii.eqb c) ["'"; "["; "]"; "#"; "{"; "}"]%char.
(** A pattern is read in runs of equal letters; [run] is the one being read *)
Fixpoint spark_go (t : Time) (run : option (ascii * nat)) (s : string) : option string :=
  let shown := match run with Some (c, n) => spark_shows t c n | None => Some "" end in
  let next a b := match a, b with Some x, Some y => Some (x ++ y) | _, _ => None end in
  match s with
  | EmptyString => shown
  | String c s' =>
      if letter c then
        match run with
        | Some (c', n) => if Ascii.eqb c c' then spark_go t (Some (c, S n)) s' else next shown (spark_go t (Some (c, 1)) s')
        | None => spark_go t (Some (c, 1)) s'
        end
      else if special c then None
      else next shown (option_map (String c) (spark_go t None s'))
  end.
Definition spark_format (t : Time) (pattern : string) : option string := spark_go t None pattern.

(** ** The directives the two agree on: what comes first and last in what they show *)
Inductive Unit := UHour | UHour12 | UMinute | USecond | UFraction | UHalf | UZone | UYear | UMonth | UDay | UWeekday.
Definition agreeing : list (string * (Unit * Unit)) :=
  [ ("H", (UHour, UHour)); ("I", (UHour12, UHour12)); ("M", (UMinute, UMinute)); ("S", (USecond, USecond)); ("p", (UHalf, UHalf));
    ("Q", (UFraction, UFraction)); ("3Q", (UFraction, UFraction)); ("6Q", (UFraction, UFraction)); ("9Q", (UFraction, UFraction));
    ("T", (UHour, USecond)); ("Z", (UZone, UZone)); ("F", (UYear, UDay)); ("A", (UWeekday, UWeekday)); ("a", (UWeekday, UWeekday));
    ("d", (UDay, UDay)); ("b", (UMonth, UMonth)); ("B", (UMonth, UMonth)); ("m", (UMonth, UMonth)); ("y", (UYear, UYear)); ("Y", (UYear, UYear)) ].
Definition units (d : string) : option (Unit * Unit) := option_map snd (find (fun x => String.eqb d (fst x)) agreeing).
Definition shown_alike (i : Item) : Prop :=
  match i with Lit c => letter c = false /\ special c = false /\ c <> "%"%char | Dir d => units d <> None | Percent => True end.
(** No directive is directly followed by one that begins with the unit it ends with *)
Fixpoint units_apart (l : list Item) : Prop :=
  match l with
  | [] => True
  | i :: l' => units_apart l' /\
      match i, l' with
      | Dir a, Dir b :: _ => forall u v, units a = Some u -> units b = Some v -> snd u <> fst v
      | _, _ => True
      end
  end.
