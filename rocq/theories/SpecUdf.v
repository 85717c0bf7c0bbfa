(** What the user defined functions of the runtime library should compute.  Specification only. *)
From Coq Require Import String Ascii List ZArith.
Import ListNotations.
From Verif Require Import Str.
Open Scope list_scope.
Open Scope string_scope.
Open Scope Z_scope.

(** ** Addresses: four bytes, written in decimal with dots between them, and their number *)
Definition is_address (s : string) (z : Z) : Prop :=
  exists a b c d, 0 <= a < 256 /\ 0 <= b < 256 /\ 0 <= c < 256 /\ 0 <= d < 256 /\
    s = dec a ++ "." ++ dec b ++ "." ++ dec c ++ "." ++ dec d /\ z = a * 2 ^ 24 + b * 2 ^ 16 + c * 2 ^ 8 + d.
(** The first [n] of 32 bits are the same *)
Definition same_bits (n x y : Z) : Prop := x / 2 ^ (32 - n) = y / 2 ^ (32 - n).
(** The mask of the first [n] of 32 bits *)
Definition first_bits (n : Z) : Z := 2 ^ 32 - 2 ^ (32 - n).

(** ** Numbers in a base: digits are 0-9, then letters in either case *)
Definition digits36 : string := "0123456789abcdefghijklmnopqrstuvwxyz".
Fixpoint position (c : ascii) (s : string) : option Z :=
  match s with
  | EmptyString => None
  | String d s' => if Ascii.eqb c d then Some 0 else option_map (Z.add 1) (position c s')
  end.
Definition digit_value (c : ascii) : option Z := position (lower_c c) digits36.
(** [numeral_from base acc s n]: [s] continues the digits whose value is [acc], to make [n] *)
Inductive numeral_from (base : Z) : Z -> string -> Z -> Prop :=
| N_end : forall acc, numeral_from base acc "" acc
| N_digit : forall acc c v s n, digit_value c = Some v -> v < base ->
    numeral_from base (acc * base + v) s n -> numeral_from base acc (String c s) n.
Definition numeral (base : Z) (s : string) (n : Z) : Prop := s <> "" /\ numeral_from base 0 s n.

(** Python reads at most 4300 digits unless the base is a power of two *)
Definition short (base : Z) (s : string) : Prop := Z.of_nat (String.length s) <= 4300 \/ In base [2; 4; 8; 16; 32].
(** Characters that may stand in a number beside its digits: signs, underscores, the x, o and b of a prefix *)
Definition marks : list ascii := list_ascii_of_string "+-_xXoObB".
(** No leading zero *)
Definition no_zero_first (t : string) : Prop := match t with String c (String _ _) => c <> "0"%char | _ => True end.

Fixpoint without_char (c : ascii) (s : string) : string :=
  match s with
  | EmptyString => EmptyString
  | String d s' => if Ascii.eqb c d then without_char c s' else String d (without_char c s')
  end.
(** ** The texts that are numbers in a base *)
(** White space of Latin-1 *)
Definition white (s : string) : Prop :=
  Forall (fun c => In (nat_of_ascii c) [9; 10; 11; 12; 13; 28; 29; 30; 31; 32; 133; 160]%nat) (list_ascii_of_string s).
(** The prefix of base 16, 8 or 2 may be written, with an underscore after it or not *)
Definition base_prefixes : list (Z * string) := [(16, "0x"); (16, "0X"); (8, "0o"); (8, "0O"); (2, "0b"); (2, "0B")].
Definition prefix_mark (base : Z) (p : string) : Prop :=
  p = "" \/ exists q, In (base, q) base_prefixes /\ (p = q \/ p = q ++ "_").
(** Digits, with single underscores between them *)
Definition spaced_numeral (base : Z) (d : string) (n : Z) : Prop :=
  numeral base (without_char "_" d) n /\ Forall (fun g => g <> "") (split_on "_" d).
(** White space, a sign, a prefix, digits, white space *)
Definition number_text (base : Z) (s : string) (z : Z) : Prop :=
  exists before sign mark d after n, s = before ++ sign ++ mark ++ d ++ after /\ white before /\ white after /\
    prefix_mark base mark /\ spaced_numeral base d n /\ short base (without_char "_" d) /\
    In (sign, z) [("", n); ("+", n); ("-", - n)].

(** ** Commas between groups of three digits *)
Definition in_threes (l : list string) : Prop :=
  match l with
  | g :: gs => (1 <= String.length g <= 3)%nat /\ Forall (fun g => String.length g = 3%nat) gs
  | [] => False
  end.
Definition grouped (z : Z) (t : string) : Prop := without_char "," t = dec z /\ in_threes (split_on "," t).
(** ** Hours, minutes and seconds, at least two digits each *)
Definition clock_part (s : string) (z : Z) : Prop := (z < 10 /\ s = "0" ++ dec z) \/ (10 <= z /\ s = dec z).
Definition clock (s : string) (z : Z) : Prop :=
  exists h m sec ht mt st, z = h * 3600 + m * 60 + sec /\ 0 <= h /\ 0 <= m < 60 /\ 0 <= sec < 60 /\
    clock_part ht h /\ clock_part mt m /\ clock_part st sec /\ s = ht ++ ":" ++ mt ++ ":" ++ st.
