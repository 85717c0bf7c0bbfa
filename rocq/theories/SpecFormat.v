(** Specification of C47: what a formatter may do, and white space around a text. *)
From Verif Require Import Str SpecText Format.
Open Scope string_scope.

Definition white_space (c : ascii) : Prop := In c [" "; "009"; "010"; "011"; "012"; "013"]%char.
(** [t] is [s] without the white space around it *)
Definition without_margins (s t : string) : Prop :=
  (exists a b, s = a ++ t ++ b /\ all_chars white_space a /\ all_chars white_space b) /\
  (forall c r, t = String c r -> ~ white_space c) /\ (forall c r, t = r ++ String c "" -> ~ white_space c).
(** The formatter can be loaded and turns [code] into [text] *)
Definition formats (fm : Formatter) (code text : string) : Prop :=
  (exists x, fm_import fm = Returns x) /\ (exists x, fm_mode fm = Returns x) /\ fm_format fm code = Returns text.
