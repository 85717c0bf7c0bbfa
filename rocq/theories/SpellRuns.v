(** From the text of a pipeline to the rows (C69). *)
From Coq Require Import String List.
From Verif Require Import Str SplAst PyAst Nom Lexer Parser CmdParser Functions Transpile Commands Api.
From Verif Require Import SpecText SpecExpr SpecSpell SpecSpark SpecRows SpecCommands SpecResult.
From Verif Require Import ParserFacts LexFacts ResultFacts CommandFacts SpellFacts SpellRead.
From Verif Require WhereFacts.
Lemma written_alone : forall p s, spells_text p s -> parse s = Some (Ok p).
Proof. intros p s H. exact (text_parses p s EmptyString H (or_introl I)). Qed.
Lemma one_reading : forall p q s, spells_text p s -> spells_text q s -> p = q.
Proof. intros p q s Hp Hq. apply written_alone in Hp, Hq. congruence. Qed.
Lemma same_code : forall env p s t, spells_text p s -> spells_text p t -> transpile env s = transpile env t.
Proof. intros env p s t Hs Ht. unfold transpile. now rewrite (written_alone p s), (written_alone p t). Qed.
Lemma written_runs : forall env sp db p s rows, env_rt env = Disallow -> walks_sets env ->
  spells_text p s -> covered sp db p rows -> text_gives env sp db s (OFrame None rows).
Proof.
  intros env sp db p s rows He Hw Hs Hc.
  destruct (covered_gives env sp db p rows He Hw Hc) as (code & Hr & Hx); [ destruct Hs as [? ? ? Hs _| |]; [ destruct Hs | | ]; discriminate | ].
  exists code. split; auto. unfold transpile. rewrite (written_alone p s Hs). cbn. now rewrite Hr.
Qed.
(** Ways to write one where condition *)
Lemma where_layouts : forall env c s t, cond_wf c -> cond_spells c s -> cond_spells c t ->
  transpile env ("where " ++ s) = transpile env ("where " ++ t).
Proof. intros env c s t W Hs Ht. unfold transpile. now rewrite (WhereFacts.parse_where c s W Hs), (WhereFacts.parse_where c t W Ht). Qed.
