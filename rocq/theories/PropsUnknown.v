(** C83: options a command does not have.  Statements only; proofs are in UnknownFacts.v. *)
From Coq Require Import String Ascii List ZArith Lia.
Import ListNotations.
From Verif Require Import Str SplAst Nom Lexer Parser CmdParser Api Transpile.
From Verif Require Import SpecText SpecExpr SpecSpell SpecOptions NameFacts EvalFacts UnknownFacts.
Open Scope string_scope.

(** The property, that such an option is reported, is false: whatever the command is and
    whatever follows, an option that the command does not have changes nothing. *)
Theorem C83_unknown_options_are_ignored : forall k known key v u b b' x c p,
  In (k, known) option_names -> ~ In key known ->
  option_item (key, v) u -> blanks b -> blanks b' -> match x with String c _ => ~ white c | EmptyString => True end -> (forall e, c <> CSearch e) ->
  parse (k ++ b ++ x) = Some (Ok (c :: p)) -> parse (k ++ b ++ u ++ b' ++ x) = Some (Ok (c :: p)).
Proof. exact unknown_options_ignored. Qed.
Print Assumptions C83_unknown_options_are_ignored.
Example C83_ex : In ("join", ["type"; "usetime"; "earlier"; "overwrite"; "max"]) option_names /\
  ~ In "tpye" ["type"; "usetime"; "earlier"; "overwrite"; "max"] /\ option_item ("tpye", KField "left") "tpye=left" /\
  parse ("join" ++ " " ++ "id [table id, n] | head 3")
  = Some (Ok [CJoin (mkJoin "inner" false true true 1 ["id"]) [CTable ["id"; "n"]]; CHead (ELeaf (LConstant (KInt 3))) false false]).
Proof.
  split; [ cbn; tauto | ]. split; [ cbn; intuition discriminate | ]. split; [ | vm_compute; reflexivity ].
  exists "", "", "left". split; [ now apply ident_by | ]. split; [ apply V_word; now apply field_by | ].
  split; [ exact I | split; [ exact I | reflexivity ] ].
Qed.
(** So a misspelt type gives the default type of join, without an error. *)
Theorem C83_unknown_options_are_reported_refuted :
  parse "join tpye=left id [table id, n] | head 3" = parse "join id [table id, n] | head 3" /\
  parse "join tpye=left id [table id, n] | head 3"
  = Some (Ok [CJoin (mkJoin "inner" false true true 1 ["id"]) [CTable ["id"; "n"]]; CHead (ELeaf (LConstant (KInt 3))) false false]).
Proof. split; vm_compute; reflexivity. Qed.
Print Assumptions C83_unknown_options_are_reported_refuted.
