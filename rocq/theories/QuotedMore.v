(** Facts: white space after an opening quote is dropped, whatever it is. *)
From Coq Require Import Lia.
From Verif Require Import Str SplAst Nom Lexer Parser CmdParser SpecText SpecExpr SpecWhere ParserFacts LexFacts TokenFacts NameFacts ExprFacts EvalFacts.
Open Scope string_scope.

Lemma spaces_app_chars : forall b s (P : ascii -> Prop), spaces b -> (forall c, white c -> P c) -> all_chars P s -> all_chars P (b ++ s).
Proof. intros b s P Hb Hw Hs. apply all_chars_app. split; [ | exact Hs ]. eapply all_chars_impl; [ exact Hw | exact Hb ]. Qed.
Lemma white_quoted : forall b s, spaces b -> well_quoted false s -> well_quoted false (b ++ s).
Proof.
  induction b as [|c b IH]; intros s Hb Hs; [ exact Hs | ]. destruct Hb as [Hc Hb]. cbn [append well_quoted]. unfold white in Hc.
  split; [ intros _ E; rewrite E in Hc; cbn in Hc; lia | ].
  destruct (Nat.eqb_spec (nat_of_ascii c) 92) as [E|_]; [ rewrite E in Hc; cbn in Hc; lia | ]. cbn [negb andb]. now apply IH.
Qed.
Lemma double_quoted_white : forall b s rest, spaces b -> s <> "" -> well_quoted false s -> stops is_space s ->
  double_quoted (in_quotes (b ++ s) ++ rest) = POk rest s.
Proof.
  intros b s rest Hb Hn Hp Hs. rewrite in_quotes_eq. unfold double_quoted. rewrite or_err.
  - unfold delimited, p_bind.
    change (tag dq (String dquote ((b ++ s) ++ String dquote rest))) with (POk ((b ++ s) ++ String dquote rest)%string dq).
    cbn iota beta.
    assert (E : quoted_content dquote ((b ++ s) ++ String dquote rest) = POk (String dquote rest) s); [ | rewrite E; reflexivity ].
    change (quoted_content dquote ((b ++ s) ++ String dquote rest)) with (ws (recognize (many0 dq_item)) ((b ++ s) ++ String dquote rest)).
    assert (Ek : skip ((b ++ s) ++ String dquote rest) = (s ++ String dquote rest)%string).
    { rewrite append_assoc_s. apply skip_blanks; [ now apply tight_space | ]. destruct s; [ congruence | exact Hs ]. }
    pose proof (quoted_content_plain s rest Hp Hs) as Q.
    change (quoted_content dquote (s ++ String dquote rest)) with (ws (recognize (many0 dq_item)) (s ++ String dquote rest)) in Q.
    unfold ws, delimited, p_bind in *. rewrite !ms0_eq in *. fold (skip ((b ++ s) ++ String dquote rest)). fold (skip (s ++ String dquote rest)) in Q.
    rewrite Ek. rewrite skip_stops in Q; [ exact Q | ]. destruct s; [ congruence | exact Hs ].
  - unfold delimited, p_bind.
    change (tag dq (String dquote ((b ++ s) ++ String dquote rest))) with (POk ((b ++ s) ++ String dquote rest)%string dq).
    cbn iota beta. unfold recognize, p_bind. pose proof (white_quoted b s Hb Hp) as W. destruct (b ++ s) as [|c t] eqn:E; [ destruct b, s; cbn in E; congruence | ].
    destruct W as [Hc _]. pose proof (dquote_eqb c (Hc eq_refl)) as Eq. cbn [append].
    unfold dq. now rewrite tag1_err.
Qed.
Lemma constant_white : forall b s rest, spaces b -> plain_string s -> constant (in_quotes (b ++ s) ++ rest) = POk rest (KStr s).
Proof.
  intros b s rest Hb H. destruct (plain_string_facts s H) as (Hn & Hp & Hs & Hstar & Hat).
  unfold constant, map_parser, p_bind.
  assert (literal_text (in_quotes (b ++ s) ++ rest) = POk rest (in_quotes (b ++ s))) as ->.
  { unfold literal_text, recognize. rewrite (or_ok _ _ _ _ _ _ (double_quoted_white b s rest Hb Hn Hp Hs)).
    now rewrite consumed_app. }
  assert (constant_value (in_quotes (b ++ s)) = POk EmptyString (KStr s)) as ->; [ | reflexivity ].
  assert (word_start dquote) as W by (repeat split; reflexivity).
  pose proof (double_quoted_white b s EmptyString Hb Hn Hp Hs) as Ed. rewrite append_nil_r in Ed.
  unfold constant_value.
  rewrite (or_err _ (p_map KIPv4CIDR _)) by (apply ac_err; now apply ws_ipv4).
  rewrite (or_err _ (p_map KStr (all_consuming ipv4_addr))) by (apply ac_err; now apply ws_ipv4).
  rewrite (or_err _ (p_map KStr (all_consuming ipv6_addr))) by (apply ac_err; now apply ws_ipv6).
  rewrite (or_err _ (p_map KSnapTime _)).
  2:{ apply ac_err. unfold relative_time.
      assert (has_char "@"%char ((b ++ s) ++ String dquote "") = false) as Hat'.
      { apply no_char. apply all_chars_app. split; [ | cbn; repeat split; discriminate ]. apply spaces_app_chars; [ exact Hb | | ].
        - intros c Hc ->. unfold white in Hc. cbn in Hc. lia.
        - destruct H as (_ & H2 & _). destruct s; [ exact I | ]. eapply all_chars_impl; [ | exact H2 ]. cbn. tauto. }
      rewrite or_err.
      - unfold delimited, p_bind.
        change (tag dq (in_quotes (b ++ s))) with (POk ((b ++ s) ++ String dquote "")%string dq). cbn iota beta.
        now rewrite no_at_relative_fmt.
      - apply no_at_relative_fmt. change (has_char "@"%char (String dquote ((b ++ s) ++ String dquote "")) = false).
        unfold has_char, sexists in *. rewrite negb_false_iff in *. cbn [sforall]. now rewrite Hat'. }
  rewrite (or_err _ (p_map KTimeSpan _)) by (apply ac_err; now apply ws_time_span).
  rewrite (or_err _ (p_map KWildcard _)).
  2:{ apply ac_err. unfold wildcard, verify, p_bind. rewrite (or_ok _ _ _ _ _ _ Ed). now rewrite Hstar. }
  apply or_ok, ac_ok. exact Ed.
Qed.
Lemma operand_white : forall b s, spaces b -> plain_string s -> operand_before loose (in_quotes (b ++ s)) (econst (KStr s)).
Proof.
  intros b s Hb H. destruct (plain_string_facts s H) as (Hn & Hp & Hw & _). split.
  - intro x. reflexivity.
  - intros rest [E H3]. split.
    + apply not_alts_err; [ reflexivity | left; reflexivity ].
    + apply field_in_err. right. exists rest, (in_quotes (b ++ s)). split; auto. unfold field. apply or_ok.
      unfold field_fmt, recognize, separated_list1, p_bind.
      assert ((token_not_t_f <|> double_quoted) (in_quotes (b ++ s) ++ rest)%string = POk rest s) as ->.
      { rewrite or_err by reflexivity. now apply double_quoted_white. }
      cbn [sep_go]. rewrite E. cbn -[consumed in_quotes]. now rewrite consumed_app.
  - intros rest [E H3]. exists 0. intros n _. unfold expr2, expr_base.
    rewrite or_err by reflexivity. rewrite or_err by reflexivity. rewrite or_err by reflexivity.
    apply or_ok. unfold p_map, p_bind. now rewrite constant_white.
Qed.
Lemma eval_white : forall x b s, field_name x -> spaces b -> plain_string s ->
  parse ("eval " ++ x ++ "=" ++ in_quotes (b ++ s)) = Some (Ok [CEval [(x, ELeaf (LConstant (KStr s)))]]).
Proof.
  intros x b s Hx Hb Hs. apply (parse_items (x, (in_quotes (b ++ s), econst (KStr s))) []). constructor; [ | constructor ].
  split; [ exact Hx | ]. cbn [fst snd]. apply (text_le 2); [ lia | lia | ]. apply text_operand. apply operand_loose. now apply operand_white.
Qed.
