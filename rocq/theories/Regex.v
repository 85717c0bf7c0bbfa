(** The capture groups of a regular expression: src/commands/regex_utils.rs.  The parser of
    the crate regex_syntax is not modelled; its syntax trees are. *)
From Verif Require Import Str.
Open Scope list_scope.

(** regex_syntax::ast: spans, flags and the contents of literals and classes are left out *)
Inductive ClassItem :=
| ItOther                         (* Empty, Literal, Range, Ascii, Unicode, Perl *)
| ItBracketed (kind : ClassSet)
| ItUnion (items : list ClassItem)
with ClassSet :=
| SetItem (item : ClassItem)
| SetBinaryOp (lhs rhs : ClassSet).
(** The number and name of a group, if it captures *)
Inductive GroupKind :=
| CaptureIndex (index : Z)
| CaptureName (index : Z) (name : string)
| NonCapturing.
Inductive ReAst :=
| ReOther                         (* Empty, Flags, Literal, Dot, Assertion, ClassUnicode, ClassPerl *)
| ReClass (kind : ClassSet)
| ReRepetition (ast : ReAst)
| ReGroup (kind : GroupKind) (ast : ReAst)
| ReAlternation (asts : list ReAst)
| ReConcat (asts : list ReAst).
Definition SimplifiedGroup := (Z * option string)%type.

(** regex_utils.rs 6-37; [groups] is the vector pushed to *)
Fixpoint visit_class_set (kind : ClassSet) (groups : list SimplifiedGroup) : list SimplifiedGroup :=
  match kind with
  | SetItem item => visit_class_set_item item groups
  | SetBinaryOp lhs rhs => visit_class_set rhs (visit_class_set lhs groups)
  end
with visit_class_set_item (item : ClassItem) (groups : list SimplifiedGroup) : list SimplifiedGroup :=
  match item with
  | ItOther => groups
  | ItBracketed kind => visit_class_set kind groups
  | ItUnion items => fold_left (fun g i => visit_class_set_item i g) items groups
  end.
(** regex_utils.rs 39-86 *)
Definition push_group (kind : GroupKind) (groups : list SimplifiedGroup) : list SimplifiedGroup :=
  match kind with
  | CaptureIndex index => groups ++ [(index, None)]
  | CaptureName index name => groups ++ [(index, Some name)]
  | NonCapturing => groups
  end.
Fixpoint visit_node (node : ReAst) (groups : list SimplifiedGroup) : list SimplifiedGroup :=
  match node with
  | ReOther => groups
  | ReClass kind => visit_class_set kind groups
  | ReRepetition ast => visit_node ast groups
  | ReGroup kind ast => visit_node ast (push_group kind groups)
  | ReAlternation asts | ReConcat asts => fold_left (fun g a => visit_node a g) asts groups
  end.
(** regex_utils.rs 88-92 *)
Definition get_groups_from_ast (node : ReAst) : list SimplifiedGroup := visit_node node [].
(** regex_utils.rs 94-97; [parse_regex]: the parser of regex_syntax *)
Definition get_groups (parse_regex : string -> res ReAst) (regex : string) : res (list SimplifiedGroup) :=
  rmap get_groups_from_ast (parse_regex regex).
