(** Totality of the recursive grammar (fuel sufficiency, no panic). *)
From Coq Require Import Lia.
From Verif Require Import Str SplAst Nom Lexer Parser CmdParser ParserFacts.

Record good_recs (n : nat) (R : Recs) : Prop := {
  g_expr3 : good false n (r_expr3 R); g_expr4 : good false n (r_expr4 R);
  g_expr5 : good false n (r_expr5 R); g_expr6 : good false n (r_expr6 R);
  g_expr7 : good false n (r_expr7 R); g_expr8 : good false n (r_expr8 R);
  g_expr : good false n (r_expr R); g_expr_ws : good false n (r_expr_ws R);
  g_lexpr : good false n (r_lexpr R); g_lterm : good false n (r_lterm R);
  g_command : good false n (r_command R); g_pipeline : good false n (r_pipeline R) }.

Lemma good_binary_chain : forall n p op q,
  good false (S n) p -> good true (S n) op -> good false n q ->
  good false (S n) (binary_chain p op q).
Proof.
  intros n p op q Hp Hop Hq. unfold binary_chain. apply good_bind; auto. intro a.
  apply good_bind; [ | gd ]. apply (good_opt _ true). unfold pair_. apply good_bind_dec; auto.
  intro b. gd.
Qed.

(** Replacing a two-character text by a one-character one does not lengthen. *)
Lemma strip_prefix_length : forall t s r,
  strip_prefix t s = Some r -> String.length s = String.length t + String.length r.
Proof. intros t s r H. apply strip_prefix_suffix in H. subst. apply length_append. Qed.

Section Level.
Variables (n : nat) (R : Recs).
Hypothesis HR : good_recs n R.

Lemma good_call : good true (S n) (call R).
Proof.
  unfold call. apply good_bind_dec; [ gd | intro name ].
  apply good_bind; [ | gd ]. apply good_weaken, good_parenthesized.
  unfold comma_separated_list0. pose proof (g_expr _ _ HR). gd.
Qed.
Lemma good_sub_search : good true (S n) (sub_search R).
Proof.
  unfold sub_search, delimited. apply good_bind_dec; [ gd | intro a ].
  pose proof (g_command _ _ HR). gd.
Qed.
Lemma good_expr_base : good false (S n) (expr_base R).
Proof.
  unfold expr_base. pose proof good_call. pose proof good_sub_search. gd.
  apply good_weaken, good_parenthesized_dec. apply (g_expr_ws _ _ HR).
Qed.
Lemma good_expr3 : good false (S n) (expr3 R).
Proof.
  unfold expr3, expr2. apply good_binary_chain; [ apply good_expr_base | gd | apply (g_expr3 _ _ HR) ].
Qed.
Lemma good_expr4 : good false (S n) (expr4 R).
Proof.
  unfold expr4. apply good_binary_chain; [ apply good_expr3 | gd | apply (g_expr4 _ _ HR) ].
Qed.
Lemma good_expr5 : good false (S n) (expr5 R).
Proof.
  unfold expr5. apply good_binary_chain; [ apply good_expr4 | gd | apply (g_expr5 _ _ HR) ].
Qed.
Lemma good_expr6 : good false (S n) (expr6 R).
Proof.
  unfold expr6, comparison_op_text. apply good_or; [ gd | ].
  apply good_binary_chain; [ apply good_expr5 | gd | apply (g_expr6 _ _ HR) ].
Qed.
Lemma good_expr7 : good false (S n) (expr7 R).
Proof.
  unfold expr7. apply good_or; [ | apply good_expr6 ]. apply good_map, good_weaken.
  apply good_or.
  - unfold separated_pair. apply good_bind_dec; [ gd | intro a ].
    pose proof (g_expr7 _ _ HR). gd.
  - unfold pair_. apply good_bind_dec; [ gd | intro a ].
    pose proof (g_expr_ws _ _ HR). gds.
Qed.
Lemma good_expr8 : good false (S n) (expr8 R).
Proof.
  unfold expr8. apply good_binary_chain; [ apply good_expr7 | gd | apply (g_expr8 _ _ HR) ].
Qed.
Lemma good_expr : good false (S n) (expr R).
Proof.
  unfold expr. apply good_binary_chain; [ apply good_expr8 | gd | apply (g_expr _ _ HR) ].
Qed.
Lemma good_expr_ws : good false (S n) (expr_ws R).
Proof.
  unfold expr_ws. apply good_binary_chain; [ apply good_expr8 | gd | apply (g_expr_ws _ _ HR) ].
Qed.
Lemma good_stats_call : good true (S n) (stats_call R).
Proof.
  unfold stats_call, comma_or_space_separated_list1, aliased_call. pose proof good_call. gd.
Qed.
Lemma good_p_unwrap : forall A (o : option A) m, o <> None -> good false m (p_unwrap o).
Proof. intros A [a|] m H; [ apply good_ret | congruence ]. Qed.

(** A list read by separated_list1 is not empty, so the unwrap cannot panic. *)
Lemma good_combine : forall k A (sep : Parser A) (p : Parser Expr) symbol m,
  good false m sep -> good k m p ->
  good k m (P: l <- separated_list1 sep p; p_unwrap (combine_all_expressions l symbol)).
Proof.
  intros k A sep p symbol m Hsep Hp s Hs.
  pose proof (good_separated_list1 Expr A k false m sep p Hsep Hp s Hs) as H.
  unfold p_bind at 1. unfold separated_list1, p_bind, p_ret in H |- *.
  destruct (p s) as [r e| | |]; auto.
  destruct (sep_go sep p (S (String.length r)) r) as [r' l| | |]; auto.
Qed.
Lemma good_comparison_expression : good true (S n) (comparison_expression R).
Proof. unfold comparison_expression. pose proof good_call. gd. Qed.

Lemma good_time_opts_term :
  good false (S n) (P: l <- time_opts; p_unwrap (combine_all_expressions l "OR")).
Proof.
  unfold time_opts. intros s Hs. pose proof (good_time_opts (S n) s Hs) as H.
  unfold time_opts in H. unfold p_bind in H |- *.
  destruct (time_format s) as [r f| | |]; auto.
  unfold space_separated_list1, separated_list1, p_bind in H |- *.
  destruct (time_modifier r) as [r' m| | |]; auto.
  destruct (sep_go _ _ _ r') as [r'' l| | |]; auto.
Qed.
Lemma good_lterm : good false (S n) (logical_expression_term R).
Proof.
  unfold logical_expression_term.
  apply good_or; [ apply good_weaken, good_parenthesized_dec, (g_lexpr _ _ HR) | ].
  apply good_or.
  { apply good_map, good_weaken. unfold preceded. apply good_bind_dec; [ gd | intro a ].
    apply (g_lterm _ _ HR). }
  apply good_or; [ apply good_time_opts_term | ].
  pose proof good_call. pose proof good_comparison_expression. gd.
Qed.
Lemma good_lgroup : good false (S n) (logical_expression_group R).
Proof. unfold logical_expression_group. apply good_combine; [ gd | apply good_lterm ]. Qed.
Lemma good_lexpr : good false (S n) (logical_expression R).
Proof. unfold logical_expression. apply good_combine; [ gd | apply good_lgroup ]. Qed.
End Level.

(** ** Quoted searches: the unescaped text is shorter than the quoted one *)
Lemma replace_go_length : forall p t s k, String.length t <= String.length p ->
  k <= String.length s -> String.length (replace_go p t k s) + k <= String.length s.
Proof.
  intros p t s. induction s as [|c s IH]; intros k Ht Hk; cbn [replace_go].
  - cbn in *. lia.
  - destruct k as [|k].
    + unfold starts_with. destruct (strip_prefix p (String c s)) as [r|] eqn:E.
      * apply strip_prefix_length in E. cbn [String.length] in *. rewrite length_append.
        specialize (IH (pred (String.length p)) Ht ltac:(lia)). lia.
      * cbn [String.length] in *. specialize (IH 0 Ht ltac:(lia)). lia.
    + cbn [String.length] in *. specialize (IH k Ht ltac:(lia)). lia.
Qed.
Lemma unescape_search_length : forall s, String.length (unescape_search s) <= String.length s.
Proof.
  intro s. unfold unescape_search, replace_all.
  pose proof (replace_go_length (bs ++ dq) dq s 0 ltac:(cbn; lia) ltac:(lia)).
  pose proof (replace_go_length (bs ++ bs) bs (replace_go (bs ++ dq) dq 0 s) 0 ltac:(cbn; lia) ltac:(lia)).
  lia.
Qed.
Lemma substring_length : forall s n, String.length (substring 0 n s) <= String.length s.
Proof.
  induction s as [|c s IH]; intros [|n]; cbn; try lia. specialize (IH n). lia.
Qed.
Lemma double_quoted_alt_length : forall s r t,
  double_quoted_alt s = POk r t -> String.length t < String.length s.
Proof.
  intros s r t H. unfold double_quoted_alt, delimited, p_bind in H.
  destruct (tag dq s) as [r1 a1| | |] eqn:E1; try discriminate.
  unfold tag in E1. destruct (strip_prefix dq s) as [r1'|] eqn:E; [ | discriminate ].
  injection E1 as -> _. apply strip_prefix_length in E. cbn in E.
  unfold ws, delimited, p_bind in H.
  destruct (multispace0 r1) as [r2 a2| | |] eqn:E2; try discriminate.
  pose proof (good_multispace0 (S (String.length r1)) r1 ltac:(lia)) as G2. rewrite E2 in G2.
  destruct G2 as [G2 _]. apply suffix_length in G2.
  unfold recognize in H. destruct (many0 _ r2) as [r3 a3| | |]; try discriminate.
  destruct (multispace0 r3) as [r4 a4| | |]; try discriminate.
  cbn [p_ret] in H. unfold p_ret in H.
  destruct (tag dq r4) as [r5 a5| | |]; try discriminate. injection H as _ <-.
  pose proof (substring_length r2 (String.length r2 - String.length r3)). unfold consumed. lia.
Qed.

Section Level2.
Variables (n : nat) (R : Recs).
Hypothesis HR : good_recs n R.

Lemma good_quoted_search : good true (S n) (quoted_search R).
Proof.
  unfold quoted_search, preceded. apply good_bind_dec; [ gd | intro a ].
  apply good_map_parser; [ gd | ]. intros s r t Hs E.
  pose proof (double_quoted_alt_length s r t E) as Hl.
  pose proof (unescape_search_length t) as Hu.
  assert (G : good false n (all_consuming (ws (r_pipeline R)))).
  { pose proof (g_pipeline _ _ HR). gd. }
  specialize (G (unescape_search t) ltac:(lia)).
  unfold all_consuming, p_bind in G |- *.
  destruct (ws (r_pipeline R) (unescape_search t)) as [r1 a1| | |]; try (split; discriminate); try tauto.
  destruct (eof r1) as [r2 a2| | |] eqn:E2; try (split; discriminate); try tauto.
  destruct r1; [ | discriminate ]. injection E2 as <- _.
  cbn. split; discriminate.
Qed.

#[local] Ltac lvl := first
  [ apply good_weaken; apply (good_call n R HR) | apply good_weaken; apply (good_sub_search n R HR)
  | apply (good_expr n R HR) | apply good_weaken; apply (good_stats_call n R HR)
  | apply (good_lexpr n R HR) | apply good_weaken; apply good_quoted_search ].
#[local] Hint Extern 1 (good false _ _) => lvl : gd.

Lemma good_match_options : forall A (f : Options -> res A) m, good false m (match_options f).
Proof. intros. unfold match_options. gd. Qed.
#[local] Hint Resolve good_match_options : gd.

Lemma good_match_word : forall raw m, good false m raw -> good false m (match_word raw).
Proof. intros raw m H. unfold match_word. gd. Qed.
Lemma good_cmd : forall name body m, good false m body -> good false m (cmd name body).
Proof.
  intros name body m H. unfold cmd, match_name. apply good_preceded; auto.
  apply good_match_word. gd.
Qed.

Lemma good_command : good false (S n) (command R).
Proof.
  unfold command.
  repeat (apply good_or; [ first [ apply good_cmd | apply good_preceded; [ apply good_match_word; gd | ] ]
                         | ]).
  all: try match goal with |- good _ _ (p_search _) => fail 1 | |- good _ _ ?p =>
    match p with ?f _ => unfold f | ?f => unfold f end end.
  all: unfold field_conversion, field_not_keyword, dedup_field_rep, plus_minus, format_delimiters,
    lookup_output, field_rep, tstats_function, tstats_call, tstats_count, tstats_from, tstats_where,
    tstats_by, dotted_name, comma_separated_list0, comma_separated_list1,
    comma_or_space_separated_list1, space_separated_list1.
  all: gd.
  unfold p_search. apply good_preceded.
  - apply good_or; [ apply good_match_word; gd | gd ].
  - intros s Hs.
    pose proof (good_combine false _ comma_or_space_sep (expr R) "AND" (S n)
                  ltac:(gd) (good_expr n R HR) s Hs) as H.
    unfold comma_or_space_separated_list1, p_bind in H |- *.
    destruct (separated_list1 comma_or_space_sep (expr R) s) as [r l| | |]; auto.
    destruct (p_unwrap (combine_all_expressions l "AND") r); auto.
Qed.

Lemma good_pipeline : good false (S n) (pipeline R).
Proof. unfold pipeline. pose proof good_command. gd. Qed.

Lemma good_next : good_recs (S n) (next R).
Proof.
  constructor; cbn.
  - apply good_expr3; auto.
  - apply good_expr4; auto.
  - apply good_expr5; auto.
  - apply good_expr6; auto.
  - apply good_expr7; auto.
  - apply good_expr8; auto.
  - apply good_expr; auto.
  - apply good_expr_ws; auto.
  - apply good_lexpr; auto.
  - apply good_lterm; auto.
  - apply good_command.
  - apply good_pipeline.
Qed.
End Level2.

Lemma good_level : forall n, good_recs n (level n).
Proof.
  induction n as [|n IH]; [ | now apply good_next ].
  constructor; intros s Hs; lia.
Qed.

Theorem parse_total : forall s, exists r, parse s = Some r /\ r <> Panic.
Proof.
  intro s. unfold parse, parse_with.
  pose proof (good_pipeline (S (String.length s)) (level (S (String.length s)))
                (good_level _) s ltac:(lia)) as H.
  destruct (pipeline (level (S (String.length s))) s) as [[|c r] p| | |]; try tauto;
    eexists; (split; [ reflexivity | discriminate ]).
Qed.
