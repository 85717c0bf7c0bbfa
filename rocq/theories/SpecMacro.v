(** Specification of macro calls inside a query text: how a call is written between
    backticks, how a text is put together from literal pieces and calls, and what it
    means to replace the parameters of a definition. *)
From Coq Require Import String Ascii List.
Import ListNotations.
From Verif Require Import SpecText SpecExpr Macros.
Open Scope string_scope.

Definition tick : string := "`".
Definition no_tick (s : string) : Prop := all_chars (fun c => c <> "`"%char) s.
(** Possibly empty white space *)
Definition gap (b : string) : Prop := all_chars white b.

(** An argument is a value, or a name, an equals sign and a value; the value is recorded
    exactly as written. *)
Inductive arg_text : option string * string -> string -> Prop :=
| AT_positional : forall v, arg_text (None, v) v
| AT_named : forall n v, arg_text (Some n, v) (n ++ "=" ++ v).
Inductive args_text : list (option string * string) -> string -> Prop :=
| AT_one : forall a t, arg_text a t -> args_text [a] t
| AT_more : forall a t l u b1 b2, arg_text a t -> gap b1 -> gap b2 -> args_text l u ->
    args_text (a :: l) (t ++ b1 ++ "," ++ b2 ++ u).
(** What stands between the backticks of a call *)
Inductive call_text : MacroCall -> string -> Prop :=
| CT_bare : forall n b1 b2, gap b1 -> gap b2 -> call_text (mkMacroCall n []) (b1 ++ n ++ b2)
| CT_empty : forall n b1 b2 b3 b4, gap b1 -> gap b2 -> gap b3 -> gap b4 ->
    call_text (mkMacroCall n []) (b1 ++ n ++ b2 ++ "(" ++ b3 ++ ")" ++ b4)
| CT_args : forall n l u b1 b2 b3 b4 b5, gap b1 -> gap b2 -> gap b3 -> gap b4 -> gap b5 ->
    args_text l u ->
    call_text (mkMacroCall n l) (b1 ++ n ++ b2 ++ "(" ++ b3 ++ u ++ b4 ++ ")" ++ b5).
(** Literal pieces, each followed by a call between backticks, then the rest *)
Inductive spells : list (string * MacroCall) -> string -> string -> Prop :=
| SP_end : forall suffix, spells [] suffix suffix
| SP_call : forall piece c t l suffix s, call_text c t -> spells l suffix s ->
    spells ((piece, c) :: l) suffix (piece ++ tick ++ t ++ tick ++ s).

(** Calls whose names are plain and whose values are written expressions *)
(** A text that begins with a word or number directly before an equals sign *)
Definition named_like (v : string) : Prop :=
  exists n x, v = n ++ "=" ++ x /\ all_chars word_char n.
Definition plain_arg (a : option string * string) : Prop :=
  match fst a with Some n => plain_ident n | None => ~ named_like (snd a) end /\
  exists t, wf t /\ writes 9 t (snd a).
Definition plain_call (c : MacroCall) : Prop :=
  plain_ident (mc_name c) /\ Forall plain_arg (mc_args c).

(** A definition seen as a first literal text followed by parameter occurrences, each with
    the literal text that comes after it *)
Fixpoint template (t0 : string) (l : list (string * string)) : string :=
  match l with
  | [] => t0
  | (n, t) :: l' => t0 ++ "$" ++ n ++ "$" ++ template t l'
  end.
(** The value of a parameter; a name that is no parameter stays as it is written *)
Fixpoint value_of (n : string) (params values : list string) : string :=
  match params, values with
  | p :: ps, v :: vs => if (p =? n)%string then v else value_of n ps vs
  | _, _ => "$" ++ n ++ "$"
  end.
(** The template with every parameter replaced by its value *)
Fixpoint instantiate (params values : list string) (t0 : string) (l : list (string * string)) : string :=
  match l with
  | [] => t0
  | (n, t) :: l' => t0 ++ value_of n params values ++ instantiate params values t l'
  end.
Definition no_dollar (s : string) : Prop := all_chars (fun c => c <> "$"%char) s.
Definition no_backslash (s : string) : Prop := all_chars (fun c => nat_of_ascii c <> 92) s.
Definition param_name (n : string) : Prop := n <> "" /\ all_chars name_char n.
(** Two parameter occurrences have something between them that cannot be part of a name *)
Fixpoint apart (l : list (string * string)) : Prop :=
  match l with
  | [] => True
  | (_, t) :: l' => (l' <> [] -> ~ all_chars name_char t) /\ apart l'
  end.
Definition plain_template (t0 : string) (l : list (string * string)) : Prop :=
  no_dollar t0 /\ Forall (fun nt => param_name (fst nt) /\ no_dollar (snd nt)) l /\ apart l.

(** Trailing white space and pipes, and leading white space, as Python's str.strip
    understands white space on single-byte text *)
Definition py_white (c : ascii) : Prop :=
  9 <= nat_of_ascii c <= 13 \/ 28 <= nat_of_ascii c <= 32 \/ nat_of_ascii c = 133 \/ nat_of_ascii c = 160.
Definition begins (P : ascii -> Prop) (s : string) : Prop :=
  exists c r, s = String c r /\ P c.
Definition ends_in (P : ascii -> Prop) (s : string) : Prop :=
  exists r c, s = r ++ String c "" /\ P c.
(** r is s without leading white space and without trailing white space and pipes *)
Definition trimmed (s r : string) : Prop :=
  exists a b, s = a ++ r ++ b /\ all_chars py_white a /\
              all_chars (fun c => py_white c \/ c = "|"%char) b /\
              ~ begins py_white r /\ ~ ends_in (fun c => py_white c \/ c = "|"%char) r.

(** What a call stands for in a library: the definition, with the parameters replaced by the
    values of the call, by position or by name *)
Inductive expands (lib : Macros) : MacroCall -> string -> Prop :=
| EX_bare : forall n d, lib n = Some d -> expands lib (mkMacroCall n []) (md_definition d)
| EX_positional : forall n d values t0 l, lib n = Some d -> values <> [] ->
    length values = length (md_arguments d) ->
    NoDup (md_arguments d) -> Forall param_name (md_arguments d) ->
    Forall (fun v => no_dollar v /\ no_backslash v) values ->
    plain_template t0 l -> md_definition d = template t0 l ->
    expands lib (mkMacroCall n (map (pair None) values)) (instantiate (md_arguments d) values t0 l)
| EX_named : forall n d names values t0 l, lib n = Some d -> values <> [] ->
    length values = length names -> length names = length (md_arguments d) ->
    (forall p, In p names <-> In p (md_arguments d)) ->
    NoDup names -> Forall param_name names ->
    Forall (fun v => no_dollar v /\ no_backslash v) values ->
    plain_template t0 l -> md_definition d = template t0 l ->
    expands lib (mkMacroCall n (combine (map Some names) values)) (instantiate names values t0 l).
(** Literal pieces, each followed by what its call stands for, then the rest *)
Inductive expanded (lib : Macros) : list (string * MacroCall) -> string -> string -> Prop :=
| XD_end : forall suffix, expanded lib [] suffix suffix
| XD_call : forall piece c v l suffix s, expands lib c v -> expanded lib l suffix s ->
    expanded lib ((piece, c) :: l) suffix (piece ++ v ++ s).

(** A text with all its calls replaced, and the calls in what they stand for, and so on *)
Inductive unfolds (lib : Macros) : string -> string -> Prop :=
| UF_text : forall s, no_tick s -> unfolds lib s s
| UF_call : forall piece c t v v' s s', no_tick piece -> plain_call c -> call_text c t ->
    expands lib c v -> unfolds lib v v' -> unfolds lib s s' ->
    unfolds lib (piece ++ tick ++ t ++ tick ++ s) (piece ++ v' ++ s').

(** The calls that stand in a text, in order *)
Definition has_calls (s : string) (cs : list MacroCall) : Prop :=
  exists l suffix, spells l suffix s /\ Forall (fun pc => no_tick (fst pc)) l /\ no_tick suffix /\
                   cs = map snd l.
Definition bare_call (c : MacroCall) : Prop := plain_ident (mc_name c) /\ mc_args c = [].
(** A call that names no macro, gives the wrong number of arguments, or mixes positional
    and named ones *)
Definition bad_call (lib : Macros) (c : MacroCall) : Prop :=
  match lib (mc_name c) with
  | None => True
  | Some d => mc_args c <> [] /\
      (length (mc_args c) <> length (md_arguments d) \/
       (exists a, In a (mc_args c) /\ fst a = None) /\ (exists a, In a (mc_args c) /\ fst a <> None))
  end.
(** A call that is written plainly and either stands for something or is wrong *)
Definition decided (lib : Macros) (c : MacroCall) : Prop :=
  plain_call c /\ (bad_call lib c \/ exists v, expands lib c v).
