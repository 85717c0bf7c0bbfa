(** Small specifications about texts, independent of the model: they only use
    Coq's own strings, characters and numbers. *)
From Coq Require Import String Ascii List ZArith DecimalString.
Import ListNotations.
Open Scope string_scope.

(** Two characters that are equal up to ASCII letter case: the same character, or
    an upper case letter (codes 65-90) and the lower case letter 32 above it. *)
Definition same_letter (c d : ascii) : Prop :=
  c = d
  \/ (65 <= nat_of_ascii c <= 90 /\ nat_of_ascii d = nat_of_ascii c + 32)
  \/ (65 <= nat_of_ascii d <= 90 /\ nat_of_ascii c = nat_of_ascii d + 32).

(** Two texts that differ at most in letter case. *)
Inductive same_word : string -> string -> Prop :=
| sw_nil : same_word "" ""
| sw_cons : forall c d s t, same_letter c d -> same_word s t ->
            same_word (String c s) (String d t).

(** The characters counted as white space: space, tab, carriage return, line feed. *)
Definition white (c : ascii) : Prop := In (nat_of_ascii c) [32; 9; 13; 10].
Definition digit (c : ascii) : Prop := 48 <= nat_of_ascii c <= 57.
Definition letter (c : ascii) : Prop :=
  65 <= nat_of_ascii c <= 90 \/ 97 <= nat_of_ascii c <= 122.

(** The characters that can continue an unquoted word or number. *)
Definition word_char (c : ascii) : Prop :=
  digit c \/ letter c \/ In c (list_ascii_of_string "_*:/-%{}@$.") \/ nat_of_ascii c = 92.

(** All characters of a text satisfy P. *)
Fixpoint all_chars (P : ascii -> Prop) (s : string) : Prop :=
  match s with EmptyString => True | String c s' => P c /\ all_chars P s' end.
(** The text is empty or its first character satisfies P. *)
Definition next_is (P : ascii -> Prop) (s : string) : Prop :=
  match s with EmptyString => True | String c _ => P c end.

(** The usual decimal notation of an integer, as printed by Coq's standard library. *)
Definition decimal (z : Z) : string := NilZero.string_of_int (Z.to_int z).

(** The range of a signed 64 bit integer without its minimum. *)
Definition int64_nonmin (z : Z) : Prop := (- (2 ^ 63 - 1) <= z <= 2 ^ 63 - 1)%Z.

(** The words of SPL2 that may not be used as bare names. *)
Definition spl_reserved : list string :=
  [ "AFTER"; "AND"; "APPLY"; "AS"; "ASC"; "BEFORE"; "BETWEEN"; "BIN"; "BRANCH"; "BY"; "DEDUP";
    "DISTINCT"; "EVENTSTATS"; "EXISTS"; "EXPORT"; "FIT"; "FROM"; "FUNCTION"; "GROUP"; "GROUPBY";
    "HAVING"; "HEAD"; "HISTPERC"; "IMPORT"; "IN"; "INNER"; "INTO"; "IS"; "JOIN"; "LIKE"; "LIMIT";
    "LOOKUP"; "NOT"; "OFFSET"; "ON"; "ONCHANGE"; "OR"; "ORDER"; "ORDERBY"; "OUTER"; "OUTPUTNEW";
    "RENAME"; "RESET"; "RETURN"; "REX"; "SEARCH"; "SELECT"; "SORT"; "STATS"; "STREAMSTATS";
    "THRU"; "THROUGH"; "TIMECHART"; "TIMEWRAP"; "UNION"; "WHERE"; "WHILE"; "XOR" ].
(** Reserved in whatever letter case. *)
Definition is_reserved (t : string) : Prop := exists w, In w spl_reserved /\ same_word t w.

(** Put a backslash in front of every double quote (34) and backslash (92). *)
Fixpoint escape (s : string) : string :=
  match s with
  | EmptyString => EmptyString
  | String c s' =>
      if (Nat.eqb (nat_of_ascii c) 34 || Nat.eqb (nat_of_ascii c) 92)%bool
      then String (ascii_of_nat 92) (String c (escape s'))
      else String c (escape s')
  end.
Definition in_quotes (s : string) : string :=
  String (ascii_of_nat 34) (s ++ String (ascii_of_nat 34) "").
