(** Fuel independence: with enough fuel the result of a parser does not depend on
    how much. *)
From Coq Require Import Lia.
From Verif Require Import Str SplAst Nom Lexer Parser CmdParser ParserFacts ParserTotal.

(** p answers as q does wherever it does not run out of fuel *)
Definition ple {A} (p q : Parser A) : Prop := forall s, p s = PFuel \/ p s = q s.

Lemma ple_refl : forall A (p : Parser A), ple p p.
Proof. intros A p s. now right. Qed.
Lemma ple_trans : forall A (p q r : Parser A), ple p q -> ple q r -> ple p r.
Proof.
  intros A p q r H1 H2 s. destruct (H1 s) as [H|H]; [ now left | ].
  destruct (H2 s) as [H'|H']; [ left | right ]; congruence.
Qed.
Ltac ple_go H s := destruct (H s) as [->| ->]; [ left; reflexivity | ].

Lemma ple_bind : forall A B (p p' : Parser A) (f f' : A -> Parser B),
  ple p p' -> (forall a, ple (f a) (f' a)) -> ple (p_bind p f) (p_bind p' f').
Proof.
  intros A B p p' f f' Hp Hf s. unfold p_bind. ple_go Hp s.
  destruct (p' s) as [r a| | |]; auto. apply Hf.
Qed.
Lemma ple_or : forall A (p p' q q' : Parser A), ple p p' -> ple q q' -> ple (p <|> q) (p' <|> q').
Proof.
  intros A p p' q q' Hp Hq s. unfold p_or. ple_go Hp s. destruct (p' s); try apply Hq; now right.
Qed.
Lemma ple_opt : forall A (p p' : Parser A), ple p p' -> ple (opt p) (opt p').
Proof. intros A p p' Hp s. unfold opt. ple_go Hp s. now right. Qed.
Lemma ple_recognize : forall A (p p' : Parser A), ple p p' -> ple (recognize p) (recognize p').
Proof. intros A p p' Hp s. unfold recognize. ple_go Hp s. now right. Qed.
Lemma ple_map_parser : forall B p (q q' : Parser B), ple q q' -> ple (map_parser p q) (map_parser p q').
Proof.
  intros B p q q' Hq. unfold map_parser. apply ple_bind; [ apply ple_refl | ].
  intros t s. ple_go Hq t. now right.
Qed.
Lemma ple_many0_go : forall A (p p' : Parser A), ple p p' ->
  forall fuel, ple (many0_go p fuel) (many0_go p' fuel).
Proof.
  intros A p p' Hp. induction fuel as [|f IH]; intro s; [ now left | ]. cbn. ple_go Hp s.
  destruct (p' s) as [r a| | |]; auto. destruct (Nat.eqb _ _); auto. ple_go IH r. now right.
Qed.
Lemma ple_many0 : forall A (p p' : Parser A), ple p p' -> ple (many0 p) (many0 p').
Proof. intros A p p' Hp s. unfold many0. apply ple_many0_go. exact Hp. Qed.
Lemma ple_sep_go : forall A B sep (p p' : Parser A), ple p p' ->
  forall fuel, ple (@sep_go A B sep p fuel) (sep_go sep p' fuel).
Proof.
  intros A B sep p p' Hp. induction fuel as [|f IH]; intro s; [ now left | ]. cbn.
  destruct (sep s) as [r b| | |]; auto. destruct (Nat.eqb _ _); auto. ple_go Hp r.
  destruct (p' r) as [r2 a| | |]; auto. ple_go IH r2. now right.
Qed.
Lemma ple_separated_list0 : forall A B sep (p p' : Parser A), ple p p' ->
  ple (@separated_list0 A B sep p) (separated_list0 sep p').
Proof.
  intros A B sep p p' Hp s. unfold separated_list0. ple_go Hp s.
  destruct (p' s) as [r a| | |]; auto.
  ple_go (ple_sep_go A B sep p p' Hp (S (String.length r))) r. now right.
Qed.
Lemma ple_separated_list1 : forall A B sep (p p' : Parser A), ple p p' ->
  ple (@separated_list1 A B sep p) (separated_list1 sep p').
Proof.
  intros A B sep p p' Hp. unfold separated_list1. apply ple_bind; [ exact Hp | intro a ].
  apply ple_bind; [ | intro; apply ple_refl ]. intro s. apply ple_sep_go. exact Hp.
Qed.

Ltac ple_step :=
  match goal with
  | |- forall _, _ => intro
  | |- ple ?p ?p => apply ple_refl
  | H : ple ?p ?q |- ple ?p ?q => exact H
  | |- ple (p_bind _ _) _ => apply ple_bind
  | |- ple (p_or _ _) _ => apply ple_or
  | |- ple (opt _) _ => apply ple_opt
  | |- ple (recognize _) _ => apply ple_recognize
  | |- ple (map_parser _ _) _ => apply ple_map_parser
  | |- ple (many0 _) _ => apply ple_many0
  | |- ple (separated_list0 _ _) _ => apply ple_separated_list0
  | |- ple (separated_list1 _ _) _ => apply ple_separated_list1
  | |- ple (match ?x with _ => _ end) _ => destruct x
  end.
Ltac ple_auto :=
  unfold comma_separated_list0,
    comma_separated_list1, space_separated_list1, comma_or_space_separated_list0,
    comma_or_space_separated_list1, parenthesized, ws_left, ws_right, ws, many2, many1,
    all_consuming, unwrapped, verify, separated_pair, delimited, terminated, preceded, pair_,
    p_map in *;
  repeat ple_step.

Record ple_recs (R R' : Recs) : Prop := {
  l_expr3 : ple (r_expr3 R) (r_expr3 R'); l_expr4 : ple (r_expr4 R) (r_expr4 R');
  l_expr5 : ple (r_expr5 R) (r_expr5 R'); l_expr6 : ple (r_expr6 R) (r_expr6 R');
  l_expr7 : ple (r_expr7 R) (r_expr7 R'); l_expr8 : ple (r_expr8 R) (r_expr8 R');
  l_expr : ple (r_expr R) (r_expr R'); l_expr_ws : ple (r_expr_ws R) (r_expr_ws R');
  l_lexpr : ple (r_lexpr R) (r_lexpr R'); l_lterm : ple (r_lterm R) (r_lterm R');
  l_command : ple (r_command R) (r_command R'); l_pipeline : ple (r_pipeline R) (r_pipeline R') }.

Section Mono.
Variables R R' : Recs.
Hypothesis H : ple_recs R R'.

Lemma ple_call : ple (call R) (call R').
Proof. unfold call. pose proof (l_expr _ _ H). ple_auto. Qed.
Lemma ple_sub_search : ple (sub_search R) (sub_search R').
Proof. unfold sub_search. pose proof (l_command _ _ H). ple_auto. Qed.
Lemma ple_expr_base : ple (expr_base R) (expr_base R').
Proof.
  unfold expr_base. pose proof (l_expr_ws _ _ H). pose proof ple_call. pose proof ple_sub_search.
  ple_auto.
Qed.
Lemma ple_binary_chain : forall p p' op q q', ple p p' -> ple q q' ->
  ple (binary_chain p op q) (binary_chain p' op q').
Proof. intros. unfold binary_chain. ple_auto. Qed.
Lemma ple_expr3 : ple (expr3 R) (expr3 R').
Proof. apply ple_binary_chain; [ apply ple_expr_base | apply (l_expr3 _ _ H) ]. Qed.
Lemma ple_expr4 : ple (expr4 R) (expr4 R').
Proof. apply ple_binary_chain; [ apply ple_expr3 | apply (l_expr4 _ _ H) ]. Qed.
Lemma ple_expr5 : ple (expr5 R) (expr5 R').
Proof. apply ple_binary_chain; [ apply ple_expr4 | apply (l_expr5 _ _ H) ]. Qed.
Lemma ple_expr6 : ple (expr6 R) (expr6 R').
Proof.
  apply ple_or; [ apply ple_refl | ].
  apply ple_binary_chain; [ apply ple_expr5 | apply (l_expr6 _ _ H) ].
Qed.
Lemma ple_expr7 : ple (expr7 R) (expr7 R').
Proof.
  unfold expr7. pose proof (l_expr7 _ _ H). pose proof (l_expr_ws _ _ H). pose proof ple_expr6.
  ple_auto.
Qed.
Lemma ple_expr8 : ple (expr8 R) (expr8 R').
Proof. apply ple_binary_chain; [ apply ple_expr7 | apply (l_expr8 _ _ H) ]. Qed.
Lemma ple_expr : ple (expr R) (expr R').
Proof. apply ple_binary_chain; [ apply ple_expr8 | apply (l_expr _ _ H) ]. Qed.
Lemma ple_expr_ws : ple (expr_ws R) (expr_ws R').
Proof. apply ple_binary_chain; [ apply ple_expr8 | apply (l_expr_ws _ _ H) ]. Qed.
Lemma ple_stats_call : ple (stats_call R) (stats_call R').
Proof. unfold stats_call, aliased_call. pose proof ple_call. ple_auto. Qed.
Lemma ple_comparison_expression : ple (comparison_expression R) (comparison_expression R').
Proof. unfold comparison_expression. pose proof ple_call. ple_auto. Qed.
Lemma ple_lterm : ple (logical_expression_term R) (logical_expression_term R').
Proof.
  unfold logical_expression_term. pose proof (l_lexpr _ _ H). pose proof (l_lterm _ _ H).
  pose proof ple_call. pose proof ple_comparison_expression. ple_auto.
Qed.
Lemma ple_lgroup : ple (logical_expression_group R) (logical_expression_group R').
Proof. unfold logical_expression_group. pose proof ple_lterm. ple_auto. Qed.
Lemma ple_lexpr : ple (logical_expression R) (logical_expression R').
Proof. unfold logical_expression. pose proof ple_lgroup. ple_auto. Qed.
Lemma ple_quoted_search : ple (quoted_search R) (quoted_search R').
Proof.
  unfold quoted_search. pose proof (l_pipeline _ _ H) as Hp.
  assert (Ha : ple (all_consuming (ws (r_pipeline R))) (all_consuming (ws (r_pipeline R')))) by ple_auto.
  clear Hp. unfold preceded. apply ple_bind; [ apply ple_refl | intro ]. apply ple_map_parser.
  intro s. ple_go Ha (unescape_search s). now right.
Qed.

Lemma ple_command : ple (command R) (command R').
Proof.
  pose proof ple_expr. pose proof ple_sub_search. pose proof ple_lexpr. pose proof ple_stats_call.
  pose proof ple_quoted_search.
  unfold command, cmd, p_eval, p_eventstats, p_head, p_inputlookup, p_join, p_map_cmd, p_multisearch,
    p_search, p_sort, p_stats, p_streamstats, p_tstats, tstats_where, p_where.
  ple_auto.
Qed.
Lemma ple_pipeline : ple (pipeline R) (pipeline R').
Proof. unfold pipeline. pose proof ple_command. ple_auto. Qed.
Lemma ple_next : ple_recs (next R) (next R').
Proof.
  constructor; cbn.
  - apply ple_expr3.
  - apply ple_expr4.
  - apply ple_expr5.
  - apply ple_expr6.
  - apply ple_expr7.
  - apply ple_expr8.
  - apply ple_expr.
  - apply ple_expr_ws.
  - apply ple_lexpr.
  - apply ple_lterm.
  - apply ple_command.
  - apply ple_pipeline.
Qed.
End Mono.

Lemma ple_recs_trans : forall R1 R2 R3, ple_recs R1 R2 -> ple_recs R2 R3 -> ple_recs R1 R3.
Proof.
  intros R1 R2 R3 [] []. constructor; eapply ple_trans; eassumption.
Qed.
Lemma ple_level_S : forall n, ple_recs (level n) (level (S n)).
Proof.
  induction n as [|n IH].
  - constructor; intro s; now left.
  - cbn [level]. apply ple_next. exact IH.
Qed.
Lemma ple_level : forall n m, n <= m -> ple_recs (level n) (level m).
Proof.
  intros n m H. induction H as [|m H IH].
  - constructor; apply ple_refl.
  - eapply ple_recs_trans; [ exact IH | apply ple_level_S ].
Qed.

(** From fuel comparison and totality: enough fuel means the same answer. *)
Lemma enough_fuel : forall A (p q : Parser A) k n s,
  ple p q -> good k n p -> String.length s < n -> p s = q s.
Proof.
  intros A p q k n s Hle Hg Hs. specialize (Hg s Hs). destruct (Hle s) as [H|H]; auto.
  rewrite H in Hg. contradiction.
Qed.
Lemma fuel_pipeline : forall n m s, String.length s < n -> String.length s < m ->
  pipeline (level n) s = pipeline (level m) s.
Proof.
  intros n m s Hn Hm. destruct (Nat.le_ge_cases n m) as [H|H].
  - apply (enough_fuel _ _ _ false (S n)); [ | apply good_pipeline, good_level | lia ].
    apply ple_pipeline, ple_level, H.
  - symmetry. apply (enough_fuel _ _ _ false (S m)); [ | apply good_pipeline, good_level | lia ].
    apply ple_pipeline, ple_level, H.
Qed.
Theorem parse_fuel : forall fuel s, String.length s < fuel -> parse_with fuel s = parse s.
Proof.
  intros fuel s H. unfold parse, parse_with.
  now rewrite (fuel_pipeline fuel (S (String.length s)) s H ltac:(lia)).
Qed.

(** What any fuel accepts, enough fuel accepts with the same result; so the suffix
    property needs no assumption on the fuel. *)
Lemma enough_fuel_ok : forall A (p q : Parser A) s r a,
  ple p q -> p s = POk r a -> q s = POk r a.
Proof. intros A p q s r a Hle H. destruct (Hle s) as [E|E]; congruence. Qed.

Lemma level_suffix : forall A (f : Recs -> Parser A),
  (forall n R, good_recs n R -> good false (S n) (f R)) ->
  (forall R R', ple_recs R R' -> ple (f R) (f R')) ->
  forall fuel s r a, f (level fuel) s = POk r a -> is_suffix r s.
Proof.
  intros A f Hg Hm fuel s r a H.
  pose proof (enough_fuel_ok _ _ _ s r a
                (Hm _ _ (ple_level fuel (fuel + String.length s) ltac:(lia))) H) as H'.
  pose proof (Hg _ _ (good_level (fuel + String.length s)) s ltac:(lia)) as G.
  rewrite H' in G. exact (proj1 G).
Qed.

Lemma expr_suffix : forall fuel s r a, expr (level fuel) s = POk r a -> is_suffix r s.
Proof. apply level_suffix; [ exact good_expr | exact ple_expr ]. Qed.
Lemma logical_expression_suffix : forall fuel s r a,
  logical_expression (level fuel) s = POk r a -> is_suffix r s.
Proof. apply level_suffix; [ exact good_lexpr | exact ple_lexpr ]. Qed.
Lemma sub_search_suffix : forall fuel s r a, sub_search (level fuel) s = POk r a -> is_suffix r s.
Proof.
  apply level_suffix; [ | exact ple_sub_search ].
  intros n R HR. apply good_weaken, good_sub_search, HR.
Qed.
Lemma command_suffix : forall fuel s r a, command (level fuel) s = POk r a -> is_suffix r s.
Proof. apply level_suffix; [ exact good_command | exact ple_command ]. Qed.
Lemma constant_suffix : forall s r a, constant s = POk r a -> is_suffix r s.
Proof.
  intros s r a H. pose proof (good_constant (S (String.length s)) s ltac:(lia)) as G.
  rewrite H in G. exact (proj1 G).
Qed.

Lemma pipeline_consumes_all : forall R s r p, pipeline R s = POk r p -> r = EmptyString.
Proof.
  intros R s r p H. unfold pipeline, preceded, p_bind in H.
  destruct (opt (ws (tag "|")) s) as [r1 a1| | |]; try discriminate.
  unfold all_consuming, p_bind in H.
  destruct (ws _ r1) as [r2 a2| | |]; try discriminate.
  destruct r2; cbn in H; [ | discriminate ]. now injection H.
Qed.
Lemma parse_outcome : forall s,
  parse s = Some Err \/ exists p, parse s = Some (Ok p).
Proof.
  intro s. destruct (parse_total s) as [r [H Hp]]. destruct r; eauto. congruence.
Qed.
Lemma parse_never_leftover : forall s c r p,
  pipeline (level (S (String.length s))) s <> POk (String c r) p.
Proof. intros s c r p H. apply pipeline_consumes_all in H. discriminate. Qed.
