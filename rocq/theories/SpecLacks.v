(** Specification: functions of eval that the Python library cannot compute for any argument.
    The first group raises NotImplementedError, the second raises for other reasons.
    See functions/eval.py, lines 181 to 1091, and Runtime.v. *)
From Coq Require Import String List.
Import ListNotations.
From Verif Require Import SplAst.
Open Scope string_scope.

Definition not_implemented : list string :=
  [ "lookup"; "searchmatch"; "isbool"; "isint"; "isnum"; "isstr"; "typeof"; "json_object"; "json_append"; "json_array";
    "json_array_to_mv"; "json_extend"; "json_extract"; "json_extract_exact"; "json_set"; "json_set_exact"; "commands";
    "mvdedup"; "mvfilter"; "mvfind"; "mvjoin"; "mvmap"; "mvrange"; "mvsort"; "mv_to_json_array"; "spath" ].
Definition always_raises : list string :=
  [ "case"; "tonumber"; "tostring"; "validate"; "printf"; "in"; "sum"; "avg"; "mvappend"; "mvzip" ].

(** The name under which the library defines an eval function: those that clash with a name of
    Python end in an underscore. *)
Inductive library_name : string -> string -> Prop :=
| LN_clash : forall f, In f ["if"; "in"; "len"; "sum"; "max"; "min"] -> library_name f (f ++ "_")
| LN_same : forall f, ~ In f ["if"; "in"; "len"; "sum"; "max"; "min"] -> library_name f f.

(** Functions whose result the library wraps in an object of its own, which PySpark refuses as
    a condition or an operand. *)
Definition wrapped : list string :=
  [ "isnull"; "isnotnull"; "like"; "match"; "json_valid"; "true"; "false"; "null"; "now"; "time"; "pi"; "random"; "if"; "coalesce"; "nullif";
    "abs"; "ceiling"; "exp"; "floor"; "ln"; "sqrt"; "pow"; "exact"; "round"; "log"; "md5"; "sha1"; "sha256"; "sha512"; "mvcount"; "mvindex"; "split";
    "max"; "min"; "json_keys"; "acos"; "acosh"; "asin"; "asinh"; "atan"; "atanh"; "cos"; "cosh"; "sin"; "sinh"; "tan"; "tanh"; "atan2"; "hypot";
    "bit_and"; "bit_or"; "bit_xor"; "bit_not"; "bit_shift_left"; "bit_shift_right" ].
(** A condition that is, or combines, a call of the kind [good] *)
Inductive uses_call (good : string -> list Expr -> Prop) : Expr -> Prop :=
| UC_call : forall f args, good f args -> uses_call good (ECall f args)
| UC_left : forall l op r, uses_call good l -> uses_call good (EBinary l op r)
| UC_right : forall l op r, uses_call good r -> uses_call good (EBinary l op r)
| UC_not : forall op r, uses_call good r -> uses_call good (EUnary op r).
