(** Written where conditions are read back (C09). *)
From Coq Require Import Lia.
From Verif Require Import Str SplAst Nom Lexer Parser CmdParser ParserFacts ParserTotal ParserFuel.
From Verif Require Import SpecText SpecExpr LexFacts TokenFacts NameFacts ExprFacts.

(** ** Literal values *)
Lemma literal_numeral : forall m d rest v, digits d -> parse_i64 d = Ok v -> tok_end lit_specials rest ->
  literal (numeral m d ++ rest) = POk rest (KInt (if m then - v else v)%Z).
Proof.
  intros m d rest v Hd Hv Hr. unfold literal, map_parser, p_bind. rewrite literal_text_numeral by auto.
  assert (literal_value (numeral m d) = POk EmptyString (KInt (if m then - v else v)%Z)) as ->; [ | reflexivity ].
  unfold literal_value.
  rewrite (or_err _ (p_map KIPv4CIDR _)) by (apply ac_err; now apply ipv4_cidr_err).
  rewrite (or_err _ (p_map KStr (all_consuming ipv4_addr))) by (apply ac_err; now apply ipv4_err).
  rewrite (or_err _ (p_map KStr (all_consuming ipv6_addr))) by (apply ac_err; now apply ipv6_err).
  rewrite (or_err _ (p_map KWildcard _)) by (apply ac_err; now apply wildcard_err).
  rewrite (or_err _ (p_map KStr (all_consuming double_quoted))) by (apply ac_err; now apply quoted_err').
  rewrite (or_err _ (p_map KVariable _)) by (apply ac_err; now apply variable_err).
  rewrite (or_err _ (p_map KSnapTime _)) by (apply ac_err; now apply relative_time_err).
  rewrite (or_err _ (p_map KTimeSpan _)) by (apply ac_err; now apply time_span_err).
  rewrite (or_err _ (p_map KDouble _)) by (apply ac_err; now apply p_double_err).
  apply or_ok, ac_ok. rewrite p_int_numeral by auto. now rewrite Hv.
Qed.
Lemma literal_decimal : forall z rest, int64_nonmin z -> tok_end lit_specials rest ->
  literal (decimal z ++ rest) = POk rest (KInt z).
Proof.
  intros z rest Hz Hr. destruct (decimal_numeral z) as (m & d & E & Hd & Hc). rewrite E.
  unfold numeral_const, int64_nonmin in *.
  destruct (Z.leb_spec (Z.abs z) (2 ^ 63 - 1)); [ | lia ].
  destruct (parse_i64 d) eqn:Ep; try discriminate. rewrite (literal_numeral m d rest a) by auto. congruence.
Qed.
Lemma literal_string : forall s rest, plain_string s -> literal (in_quotes s ++ rest) = POk rest (KStr s).
Proof.
  intros s rest H. destruct (plain_string_facts s H) as (Hn & Hp & Hs & Hstar & Hat).
  unfold literal, map_parser, p_bind.
  assert (literal_text (in_quotes s ++ rest) = POk rest (in_quotes s)) as ->.
  { unfold literal_text, recognize. rewrite (or_ok _ _ _ _ _ _ (double_quoted_plain s rest Hn Hp Hs)).
    now rewrite consumed_app. }
  assert (literal_value (in_quotes s) = POk EmptyString (KStr s)) as ->; [ | reflexivity ].
  assert (word_start dquote) as W by (repeat split; reflexivity).
  pose proof (double_quoted_plain s EmptyString Hn Hp Hs) as Ed. rewrite append_nil_r in Ed.
  unfold literal_value.
  rewrite (or_err _ (p_map KIPv4CIDR _)) by (apply ac_err; now apply ws_ipv4).
  rewrite (or_err _ (p_map KStr (all_consuming ipv4_addr))) by (apply ac_err; now apply ws_ipv4).
  rewrite (or_err _ (p_map KStr (all_consuming ipv6_addr))) by (apply ac_err; now apply ws_ipv6).
  rewrite (or_err _ (p_map KWildcard _)).
  2:{ apply ac_err. unfold wildcard, verify, p_bind. rewrite (or_ok _ _ _ _ _ _ Ed). now rewrite Hstar. }
  apply or_ok, ac_ok. exact Ed.
Qed.

Lemma strip_all_nc : forall k w, strip_prefix_nc k w = Some EmptyString -> same_word w k.
Proof.
  induction k as [|a k IH]; intros [|b w] H; cbn [strip_prefix_nc] in H; try discriminate; [ constructor | ].
  destruct (Ascii.eqb_spec (lower_c a) (lower_c b)) as [E|]; [ | discriminate ]. constructor; [ apply lower_c_same; now symmetry | now apply IH ].
Qed.
Lemma truth_err : forall w, ~ truth_value w -> p_map KBool (all_consuming p_bool) w = PErr.
Proof.
  intros w N.
  assert (K : forall k, In k ["true"; "t"; "false"; "f"]%string -> strip_prefix_nc k w <> Some EmptyString) by (intros k I E; apply N; exists k; split; [ exact I | now apply strip_all_nc ]).
  assert (P : forall c r, peek (eof <|> multispace1 <|> recognize (one_of "().:")) (String c r) = PErr \/
    exists a, peek (eof <|> multispace1 <|> recognize (one_of "().:")) (String c r) = POk (String c r) a).
  { intros c r. unfold peek.
    pose proof (good_out _ (eof <|> multispace1 <|> recognize (one_of "().:")) ltac:(intro n; unfold one_of; gd)) as G. specialize (G (String c r)).
    destruct ((eof <|> multispace1 <|> recognize (one_of "().:")) (String c r)); eauto; destruct G; congruence. }
  unfold p_map at 1, all_consuming, p_bind at 1. unfold p_bool, terminated.
  pose proof (K "true"%string ltac:(cbn; auto)) as K1. pose proof (K "t"%string ltac:(cbn; auto)) as K2.
  pose proof (K "false"%string ltac:(cbn; auto)) as K3. pose proof (K "f"%string ltac:(cbn; auto 6)) as K4. clear K N.
  set (pk := peek _) in *. clearbody pk.
  unfold p_bind, p_or, p_map, p_bind, tag_no_case, p_ret.
  repeat match goal with
  | |- context [strip_prefix_nc ?k w] => let r := fresh "r" in destruct (strip_prefix_nc k w) as [[|? r]|]; [ congruence | | ]
  end; cbn iota beta; try reflexivity;
  match goal with |- context [pk (String ?c ?r)] => destruct (P c r) as [-> | (x & ->)]; reflexivity end.
Qed.
Lemma string_items : forall n rest fuel, field_name n -> tok_end tok_specials rest -> (token <|> tag "." <|> tag ":") rest = PErr ->
  String.length n < fuel -> exists l, many0_go (token <|> tag "." <|> tag ":") fuel (n ++ rest) = POk rest l.
Proof.
  intros n rest fuel H Hr Hend. revert fuel. induction H as [w H|w n H Hn IH]; intros fuel Hf;
    (assert (L : 0 < String.length w) by (destruct (fword_head _ H) as (? & ? & -> & _); cbn; lia)).
  - destruct fuel as [|[|fuel]]; try lia.
    cbn [many0_go]. rewrite (or_ok _ _ _ _ rest w) by now apply token_word.
    rewrite length_append. destruct (Nat.eqb_spec (String.length rest) (String.length w + String.length rest)); [ lia | ].
    rewrite Hend. eexists. reflexivity.
  - rewrite !length_append in Hf. cbn in Hf. destruct fuel as [|[|fuel]]; try lia. cbn [many0_go]. rewrite !append_assoc_s.
    rewrite (or_ok _ _ _ _ ("." ++ n ++ rest)%string w) by (apply token_word; [ exact H | split; reflexivity ]).
    rewrite !length_append. destruct (Nat.eqb_spec (String.length "." + (String.length n + String.length rest)) (String.length w + (String.length "." + (String.length n + String.length rest)))); [ lia | ].
    change ("." ++ n ++ rest)%string with (String "." (n ++ rest)).
    assert (E : (token <|> tag "." <|> tag ":") (String "." (n ++ rest)) = POk (n ++ rest)%string "."%string) by (rewrite or_err by reflexivity; apply or_ok, tag1_read).
    rewrite E, length_append. destruct (Nat.eqb_spec (String.length n + String.length rest) (String.length "." + (String.length n + String.length rest))) as [X|_]; [ cbn in X; lia | ].
    destruct (IH fuel) as [l ->]; [ lia | eexists; reflexivity ].
Qed.
Lemma string_name : forall w rest, field_name w -> tok_end tok_specials rest -> (token <|> tag "." <|> tag ":") rest = PErr ->
  p_string (w ++ rest) = POk rest w.
Proof.
  intros w rest Hw Hr Hend. unfold p_string. rewrite or_err by now apply ident_quoted_err.
  unfold recognize, many1, p_bind. destruct Hw as [w H|w n H Hn].
  - rewrite (or_ok _ _ _ _ rest w) by now apply token_word.
    unfold many0. cbn [many0_go]. rewrite Hend. unfold p_ret. now rewrite consumed_app.
  - rewrite (append_assoc_s w), (append_assoc_s "."), (or_ok _ _ _ _ ("." ++ n ++ rest)%string w) by (apply token_word; [ exact H | split; reflexivity ]).
    change ("." ++ n ++ rest)%string with (String "." (n ++ rest)). unfold many0. remember (String.length (String "." (n ++ rest))) as f eqn:Ef. cbn [many0_go].
    assert (E : (token <|> tag "." <|> tag ":") (String "." (n ++ rest)) = POk (n ++ rest)%string "."%string) by (rewrite or_err by reflexivity; apply or_ok, tag1_read).
    rewrite E. destruct (Nat.eqb_spec (String.length (n ++ rest)) (String.length (String "." (n ++ rest)))) as [X|_]; [ cbn in X; lia | ].
    destruct (string_items n rest f Hn Hr Hend) as [l ->]; [ subst f; cbn; rewrite length_append; lia | ]. unfold p_ret.
    replace (w ++ String "." (n ++ rest))%string with ((w ++ "." ++ n) ++ rest)%string by now rewrite !append_assoc_s.
    now rewrite consumed_app.
Qed.
Lemma string_word : forall w, field_name w -> p_string w = POk EmptyString w.
Proof. intros w Hw. rewrite <- (append_nil_r w) at 1. now apply string_name. Qed.
Lemma literal_word : forall w rest, field_name w -> ~ truth_value w -> tok_end lit_specials rest -> literal (w ++ rest) = POk rest (KStr w).
Proof.
  intros w rest Hw Ht Hr. unfold literal, map_parser, p_bind.
  assert (literal_text (w ++ rest) = POk rest w) as ->.
  { unfold literal_text, recognize, p_or. destruct (ident_quoted_err w rest Hw) as [-> ->].
    rewrite literal_ident by auto. now rewrite consumed_app. }
  assert (literal_value w = POk EmptyString (KStr w)) as ->; [ | reflexivity ].
  destruct (ident_head w Hw) as (c & r & E & Hc). pose proof (ident_word_start c Hc) as Hs.
  destruct (fname_chars w Hw) as [_ Hch].
  assert (double_quoted w = PErr) as Eq.
  { rewrite <- (append_nil_r w). now apply ident_quoted_err. }
  assert (relative_time w = PErr) as Er.
  { unfold relative_time. rewrite or_err.
    - unfold delimited, p_bind, dq. rewrite E. rewrite tag1_err; auto.
      apply head_not; auto; [ nl | discriminate ].
    - apply no_at_relative_fmt, no_char. eapply all_chars_impl; [ | exact Hch ].
      intros d Hd. fneq. }
  assert (wildcard w = PErr) as Ew.
  { unfold wildcard, verify, p_bind. rewrite or_err by exact Eq.
    rewrite <- (append_nil_r w) at 1. rewrite literal_ident; [ | auto | exact I ].
    rewrite no_char; [ reflexivity | ]. eapply all_chars_impl; [ | exact Hch ].
    intros d Hd. fneq. }
  unfold literal_value.
  rewrite (or_err _ (p_map KIPv4CIDR _)) by (apply ac_err; rewrite E; now apply ws_ipv4).
  rewrite (or_err _ (p_map KStr (all_consuming ipv4_addr))) by (apply ac_err; rewrite E; now apply ws_ipv4).
  rewrite (or_err _ (p_map KStr (all_consuming ipv6_addr))) by (apply ac_err; rewrite E; now apply ws_ipv6).
  rewrite (or_err _ (p_map KWildcard _)) by (apply ac_err; exact Ew).
  rewrite (or_err _ (p_map KStr (all_consuming double_quoted))) by (apply ac_err; exact Eq).
  rewrite (or_err _ (p_map KVariable _)) by (apply ac_err; rewrite E; now apply ws_variable).
  rewrite (or_err _ (p_map KSnapTime _)) by (apply ac_err; exact Er).
  rewrite (or_err _ (p_map KTimeSpan _)) by (apply ac_err; rewrite E; now apply ws_time_span).
  rewrite (or_err _ (p_map KDouble _)) by (apply ac_err; rewrite E; now apply ws_p_double).
  rewrite (or_err _ (p_map KInt _)) by (apply ac_err; rewrite E; now apply ws_p_int).
  rewrite (or_err _ (p_map KBool _)) by now apply truth_err.
  apply ac_ok. now apply string_word.
Qed.
(** ** Terms *)
(** What may follow a term *)
Definition after_term (rest : string) : Prop :=
  tok_end lit_specials rest /\ match rest with String c _ => c <> "("%char | _ => True end.

Lemma value_reads : forall v rest R, value_wf v ->
  after_term rest -> (call R <|> p_map econst literal) (value_text v ++ rest)%string = POk rest (value_meaning v).
Proof.
  intros [z|s|w] rest R Hv [H1 H2]; cbn [value_text value_meaning].
  - rewrite or_err.
    + unfold p_map, p_bind. now rewrite literal_decimal.
    + destruct (decimal_numeral z) as (m & d & -> & Hd & _). unfold call, p_bind.
      rewrite token_numeral by auto. now rewrite paren_err.
  - rewrite or_err by reflexivity. unfold p_map, p_bind. now rewrite literal_string.
  - destruct Hv as [Hw Ht]. rewrite or_err.
    + unfold p_map, p_bind. now rewrite literal_word.
    + apply token_then_err; auto; intros; unfold p_bind; rewrite paren_err; auto; discriminate.
Qed.
(** ** Lists of terms and of groups *)
Definition and_sep : Parser string := ws (tag_no_case "AND") <|> multispace1.
(** What may follow a command: white space, then the end, a bar or a closing bracket *)
Definition cmd_tail (tail : string) : Prop :=
  match tail with EmptyString => True | String c _ => c = "|"%char \/ c = "]"%char end.
Definition after_cmd (rest : string) : Prop :=
  exists b tail, rest = (b ++ tail)%string /\ sforall is_space b = true /\ cmd_tail tail.
Lemma tail_stops : forall tail, cmd_tail tail -> stops is_space tail.
Proof. intros [|c tail]; cbn; auto. now intros [-> | ->]. Qed.
Lemma after_skip : forall b tail, sforall is_space b = true -> cmd_tail tail -> skip (b ++ tail) = tail.
Proof. intros b tail Hb Ht. apply skip_blanks; auto. now apply tail_stops. Qed.
Lemma space_char : forall c, is_space c = true -> c = " "%char \/ c = ascii_of_nat 9 \/ c = ascii_of_nat 13 \/ c = ascii_of_nat 10.
Proof.
  intros c H. destruct (proj1 (is_space_spec c) H) as [E|[E|[E|[E|[]]]]]; apply (f_equal ascii_of_nat) in E;
    rewrite ascii_nat_embedding in E; subst c; auto.
Qed.
Lemma after_cmd_term : forall rest, after_cmd rest -> after_term rest.
Proof.
  intros rest (b & tail & -> & Hb & Ht). destruct b as [|c b]; cbn [append].
  - destruct tail as [|c tail]; [ repeat split | ]. destruct Ht as [-> | ->]; repeat split; discriminate.
  - apply andb_true_iff in Hb. destruct (space_char c (proj1 Hb)) as [-> |[-> |[-> | ->]]]; repeat split; discriminate.
Qed.
Lemma tail_not_term : forall R tail, cmd_tail tail -> logical_expression_term R tail = PErr.
Proof. intros R [|c tail] H; [ reflexivity | ]. destruct H as [-> | ->]; reflexivity. Qed.
Lemma ws_tail_err : forall A (p : Parser A) rest, (forall tail, cmd_tail tail -> p tail = PErr) -> after_cmd rest -> ws p rest = PErr.
Proof.
  intros A p rest Hp (b & tail & -> & Hb & Ht). unfold ws, delimited, p_bind. rewrite ms0_eq.
  change (snd (span is_space (b ++ tail))) with (skip (b ++ tail)). rewrite after_skip by auto. now rewrite Hp.
Qed.
Definition group_meaning (g : list Term) : Expr := joined_meaning "AND" (map term_meaning g).
Definition group_wf (g : list Term) : Prop := g <> [] /\ Forall term_wf g.
(** ** All terms *)
Section TermInd.
Variable P : Term -> Prop.
Hypotheses (Hc : forall f o v, P (TmCmp f o v)) (Hi : forall f vs, P (TmIn f vs)) (Hn : forall t, P t -> P (TmNot t))
  (Hp : forall c, Forall (Forall P) c -> P (TmParen c))
  (Hf : forall n args, P (TmCall n args)) (Hg : forall f o n args, P (TmCmpCall f o n args)).
Fixpoint term_induction (t : Term) : P t :=
  match t with
  | TmCmp f o v => Hc f o v
  | TmIn f vs => Hi f vs
  | TmNot t => Hn t (term_induction t)
  | TmCall n args => Hf n args
  | TmCmpCall f o n args => Hg f o n args
  | TmParen c => Hp c ((fix groups c : Forall (Forall P) c :=
      match c with
      | [] => Forall_nil _
      | g :: c' => Forall_cons _ ((fix terms g : Forall P g :=
          match g with [] => Forall_nil _ | t :: g' => Forall_cons _ (term_induction t) (terms g') end) g) (groups c')
      end) c)
  end.
End TermInd.
Lemma terms_wf : forall g, (fix terms g := match g with [] => True | t :: g' => term_wf t /\ terms g' end) g -> Forall term_wf g.
Proof. induction g as [|t g IH]; intro H; constructor; try apply H. apply IH, H. Qed.
Lemma paren_wf : forall c, term_wf (TmParen c) -> c <> [] /\ Forall group_wf c.
Proof.
  intros c [H1 H2]. split; auto. clear H1. induction c as [|g c IH]; constructor.
  - destruct H2 as [[H1 H2] _]. split; auto. now apply terms_wf.
  - apply IH, H2.
Qed.
Lemma after_nil : after_cmd EmptyString.
Proof. exists EmptyString, EmptyString. repeat split. Qed.
(** ** The whole query *)
Lemma parse_command : forall s c, reads command s EmptyString c ->
  stops is_space s -> match s with String d _ => d <> "|"%char | _ => True end ->
  parse s = Some (Ok [c]).
Proof.
  intros s c [n H] Hs Hp.
  set (m := S (max n (String.length s))).
  assert (parse_with m s = Some (Ok [c])) as E.
  { unfold parse_with, pipeline, preceded, p_bind.
    assert (opt (ws (tag "|")) s = POk s None) as ->.
    { unfold opt, ws, delimited, p_bind. rewrite ms0_eq, span_stops by auto. cbn [fst snd].
      destruct s as [|d s]; [ reflexivity | ]. rewrite tag1_err; auto.
      destruct (Ascii.eqb_spec "|"%char d); congruence. }
    unfold all_consuming, p_bind.
    assert (separated_list0 (ws (tag "|")) (command (level m)) (skip s) = POk EmptyString [c]) as E2.
    { rewrite skip_stops by auto. unfold separated_list0. rewrite H by (subst m; lia). reflexivity. }
    rewrite (ws_ok _ _ _ _ _ E2). reflexivity. }
  rewrite <- E. symmetry. apply parse_fuel. subst m. lia.
Qed.
