(** Options, and what the commands with options read (C69). *)
From Coq Require Import Lia.
From Verif Require Import Str SplAst Nom Lexer Parser CmdParser ParserFacts ParserTotal ParserFuel.
From Verif Require Import SpecText SpecExpr SpecSpell LexFacts TokenFacts NameFacts ExprFacts LogicFacts EvalFacts SpellFacts.

(** ** Things separated by white space *)
Lemma stops_ext : forall s x, stops is_space s -> s <> EmptyString -> stops is_space (s ++ x).
Proof. intros [|c s] x H Hn; [ congruence | exact H ]. Qed.
Lemma ws_skip : forall A (p : Parser A) s, ws p (skip s) = ws p s.
Proof. intros A p s. unfold ws, delimited, p_bind. rewrite !ms0_eq. pose proof (skip_skip s) as E. unfold skip in *. now rewrite E. Qed.
Section Manys.
Context {A : Type}.
Variables (sep : string -> Prop) (item : A -> string -> Prop) (p : Recs -> Parser A) (final start : string -> Prop).
Definition goes_with (rest : string) : Prop := exists b t, sep b /\ start t /\ rest = (b ++ t)%string.
Hypotheses
  (Hne : forall a s, item a s -> s <> EmptyString)
  (Hstop : forall x, start x -> stops is_space x)
  (Hstart : forall a s x, item a s -> final x \/ (exists b t, sep b /\ x = (b ++ t)%string) -> start (s ++ x))
  (Hsep : forall b, sep b -> spaces b)
  (Hread : forall a s rest, item a s -> final rest \/ goes_with rest -> exists rest', (rest' = rest \/ rest' = skip rest) /\ reads p (s ++ rest) rest' a)
  (Hend : forall rest, final rest -> exists n, forall m, n <= m -> p (level m) (skip rest) = PErr).
Lemma many_start : forall l s x, listed sep item l s -> final x -> start (s ++ x).
Proof. intros l s x H Hx. destruct H; rewrite ?append_assoc_s; eauto 10. Qed.
Lemma many_go : forall l s, listed sep item l s -> forall rest, final rest ->
  exists n, forall m, n <= m -> exists a l' r, l = a :: l' /\ ws (p (level m)) (s ++ rest)%string = POk r a /\
    String.length r < String.length (s ++ rest)%string /\
    forall fuel, String.length r < fuel -> many0_go (ws (p (level m))) fuel r = POk (skip rest) l'.
Proof.
  intros l s H. induction H as [a s Hi|a s b l t Hi Hb Hl IH]; intros rest Hr.
  - destruct (Hread a s rest Hi (or_introl Hr)) as (rest' & Er & n1 & H1). destruct (Hend rest Hr) as [n2 H2].
    exists (max n1 n2). intros m Hm. exists a, [], (skip rest). split; [ reflexivity | ]. split; [ | split ].
    + rewrite (ws_ok _ _ _ rest' a); [ destruct Er as [-> | ->]; now rewrite ?skip_skip | ].
      rewrite skip_stops; [ apply H1; lia | ]. apply Hstop, (Hstart a); auto.
    + rewrite length_append. pose proof (skip_length rest). pose proof (Hne a s Hi). destruct s; [ congruence | cbn; lia ].
    + intros [|fuel] Hf; [ lia | ]. cbn [many0_go]. rewrite ws_err; [ reflexivity | ]. rewrite skip_skip. apply H2. lia.
  - destruct (IH rest Hr) as [n1 H1].
    assert (start (t ++ rest)) as St by (eapply many_start; eauto).
    destruct (Hread a s (b ++ t ++ rest)%string Hi) as (rest' & Er & n2 & H2); [ right; exists b, (t ++ rest)%string; auto | ].
    exists (max n1 n2). intros m Hm. destruct (H1 m ltac:(lia)) as (a' & l' & r & -> & E1 & E2 & E3).
    assert (skip (b ++ t ++ rest) = (t ++ rest)%string) as Es by (apply skip_spaces; auto).
    exists a, (a' :: l'), (t ++ rest)%string. rewrite !append_assoc_s. split; [ reflexivity | ]. split; [ | split ].
    + rewrite (ws_ok _ _ _ rest' a); [ destruct Er as [-> | ->]; now rewrite ?skip_skip, Es | ].
      rewrite skip_stops; [ apply H2; lia | ]. apply Hstop, (Hstart a); eauto 10.
    + rewrite !length_append. pose proof (Hne a s Hi). destruct s; [ congruence | cbn; lia ].
    + intros [|fuel] Hf; [ lia | ]. cbn [many0_go]. rewrite E1.
      match goal with |- context [Nat.eqb ?x ?y] => destruct (Nat.eqb_spec x y); [ lia | ] end.
      rewrite E3; [ reflexivity | lia ].
Qed.
Lemma many_reads : forall k l s rest, spaces k -> listed sep item l s -> final rest ->
  reads (fun R => many1 (ws (p R))) (k ++ s ++ rest) (skip rest) l /\ reads (fun R => many0 (ws (p R))) (k ++ s ++ rest) (skip rest) l.
Proof.
  intros k l s rest Hk H Hr. destruct (many_go l s H rest Hr) as [n Hn].
  assert (W : forall A (q : Parser A), ws q (k ++ s ++ rest) = ws q (s ++ rest)).
  { intros B q. rewrite <- (ws_skip _ q (k ++ s ++ rest)). rewrite skip_spaces; auto. apply Hstop. eapply many_start; eauto. }
  pose proof (length_append k (s ++ rest)) as L.
  split; exists n; intros m Hm; destruct (Hn m Hm) as (a & l' & r & -> & E1 & E2 & E3).
  - unfold many1, p_bind. rewrite W, E1. unfold many0. rewrite E3 by lia. reflexivity.
  - unfold many0. cbn [many0_go]. rewrite W, E1. match goal with |- context [Nat.eqb ?x ?y] => destruct (Nat.eqb_spec x y); [ lia | ] end.
    rewrite E3; [ reflexivity | lia ].
Qed.
End Manys.

(** ** Options *)
Lemma given_get : forall o key v, given o key v -> opt_get o key = Some v.
Proof.
  intros o key v (a & b & -> & H). cbn [app].
  assert (opt_get b key = None) as E.
  { induction b as [|[k u] b IH]; [ reflexivity | ]. cbn [map fst In] in H. cbn [opt_get]. rewrite IH by tauto.
    destruct (String.eqb_spec k key); [ tauto | reflexivity ]. }
  induction a as [|[k u] a IH]; cbn [app opt_get].
  - now rewrite E, String.eqb_refl.
  - now rewrite IH.
Qed.
Lemma absent_get : forall o key, absent o key -> opt_get o key = None.
Proof.
  intros o key H. unfold absent in H. induction o as [|[k u] o IH]; [ reflexivity | ]. cbn [map fst In] in H. cbn [opt_get].
  rewrite IH by tauto. destruct (String.eqb_spec k key); [ tauto | reflexivity ].
Qed.
Ltac by_get := repeat match goal with
  | H : _ \/ _ |- _ => destruct H as [H|H]
  | H : _ /\ _ |- _ => destruct H
  | H : exists _, _ |- _ => destruct H
  | H : given _ _ _ |- _ => apply given_get in H; rewrite H
  | H : absent _ _ |- _ => apply absent_get in H; rewrite H
  end; subst; try reflexivity.
Lemma flag_get : forall o key d x, flag o key d x -> get_boolean o key d = Ok x.
Proof. intros o key d x H. unfold flag, get_boolean in *. by_get. destruct x; reflexivity. Qed.
Lemma number_get : forall o key d x, number o key d x -> get_int o key d = Ok x.
Proof. intros o key d x H. unfold number, get_int, get_int_option in *. by_get. Qed.
Lemma text_get : forall o key d x, text o key d x -> get_string o key d = Ok x.
Proof. intros o key d x H. unfold text, get_string, get_string_option in *. by_get. Qed.
Lemma maybe_number_get : forall o key x, maybe_number o key x -> get_int_option o key = Ok x.
Proof. intros o key x H. unfold maybe_number, get_int_option in *. by_get. Qed.
Lemma maybe_text_get : forall o key x, maybe_text o key x -> get_string_option o key = Ok x.
Proof. intros o key x H. unfold maybe_text, get_string_option in *. by_get. Qed.
Lemma maybe_time_get : forall o key x, maybe_time o key x -> get_span_option o key = Ok x.
Proof. intros o key x H. unfold maybe_time, get_span_option in *. by_get. Qed.
Ltac says := repeat match goal with
  | H : flag _ _ _ _ |- _ => apply flag_get in H; rewrite H; cbn [rbind]; clear H
  | H : number _ _ _ _ |- _ => apply number_get in H; rewrite H; cbn [rbind]; clear H
  | H : text _ _ _ _ |- _ => apply text_get in H; rewrite H; cbn [rbind]; clear H
  | H : maybe_number _ _ _ |- _ => apply maybe_number_get in H; rewrite H; cbn [rbind]; clear H
  | H : maybe_text _ _ _ |- _ => apply maybe_text_get in H; rewrite H; cbn [rbind]; clear H
  | H : maybe_time _ _ _ |- _ => apply maybe_time_get in H; rewrite H; cbn [rbind]; clear H
  end.
(** *** The values *)
Lemma short_read : forall w rest, tok_end lit_specials rest -> w = "t"%string \/ w = "f"%string ->
  constant (w ++ rest) = POk rest (KBool (String.eqb w "t")).
Proof.
  intros w rest Hr Hw. unfold constant, map_parser, p_bind.
  assert (literal_text (w ++ rest) = POk rest w) as ->.
  { unfold literal_text, recognize. rewrite or_err by (destruct Hw as [-> | ->]; reflexivity). rewrite or_err by (destruct Hw as [-> | ->]; reflexivity).
    change token_with_extras with (token_of lit_specials). rewrite token_of_read; [ | destruct Hw as [-> | ->]; discriminate | destruct Hw as [-> | ->]; reflexivity | auto ].
    replace (is_not_reserved_word w) with true by (destruct Hw as [-> | ->]; reflexivity). now rewrite consumed_app. }
  destruct Hw as [-> | ->]; reflexivity.
Qed.
Lemma time_read : forall n w u rest, int64_nonmin n -> In (w, u) time_words -> tok_end lit_specials rest ->
  constant ((decimal n ++ w) ++ rest) = POk rest (KTimeSpan (mkTimeSpan n u)).
Proof.
  intros n w u rest Hn Hw Hr. destruct (time_word_facts w u Hw) as (Hl & (c & r & Ew) & Hu).
  assert (Hc : letter c) by (rewrite Ew in Hl; apply Hl).
  assert (Hi : p_int (decimal n ++ w) = POk w n).
  { apply p_int_decimal_ok; auto. rewrite Ew. cbn. unfold letter, digit in *. lia. }
  destruct (decimal_numeral n) as (m & d & E & Hd & _). rewrite E in *.
  assert (Hdw : sforall (tok_char lit_specials) (numeral m d ++ w) = true).
  { rewrite sforall_app. destruct (numeral_tok m d Hd) as [_ Hx]. rewrite Hx. cbn [andb].
    clear - Hl. induction w as [|a w IH]; [ reflexivity | ]. destruct Hl as [Ha Hl]. cbn [sforall]. rewrite IH by auto.
    rewrite andb_true_r. unfold tok_char. apply is_alpha_spec in Ha. unfold is_alnum. rewrite Ha. now rewrite ?orb_true_r. }
  assert (Hno : forall x, is_digit x = false -> x <> "-"%char -> ~ letter x -> has_char x (numeral m d ++ w) = false).
  { intros x H1 H2 H3. unfold has_char, sexists. rewrite negb_false_iff, sforall_app.
    assert (sforall (fun c0 => negb (Ascii.eqb x c0)) w = true) as ->.
    { clear - Hl H3. induction w as [|a w IH]; [ reflexivity | ]. destruct Hl as [Ha Hl]. cbn [sforall]. rewrite IH by auto.
      destruct (Ascii.eqb_spec x a) as [->|]; [ contradiction | reflexivity ]. }
    rewrite andb_true_r. unfold numeral. rewrite sforall_app. destruct Hd as [_ Hd].
    assert (sforall (fun c0 => negb (Ascii.eqb x c0)) d = true) as ->.
    { apply (sforall_impl is_digit); auto. intros a Ha. destruct (Ascii.eqb_spec x a); [ congruence | reflexivity ]. }
    destruct m; [ | reflexivity ]. cbn. destruct (Ascii.eqb_spec x "-"%char); [ congruence | reflexivity ]. }
  assert (HT : forall x t, is_digit x = false -> x <> "-"%char -> tag (String x EmptyString) (numeral m d ++ t) = PErr) by (intros; now apply numeral_tag_err).
  assert (D : forall t, double_quoted (numeral m d ++ t) = PErr /\ single_quoted (numeral m d ++ t) = PErr) by (intro; now apply quoted_err).
  assert (NR : is_not_reserved_word (numeral m d ++ w) = true).
  { destruct (numeral_head m d Hd) as (x & y & -> & Hx). cbn [append]. unfold is_not_reserved_word. rewrite negb_true_iff.
    destruct (existsb (String.eqb (upper (String x (y ++ w)))) reserved_words) eqn:X; auto. exfalso.
    apply existsb_exists in X. destruct X as (z & Hin & Hz). apply String.eqb_eq in Hz.
    assert (upper_c x = x) as U by (destruct Hx as [->|Hx]; [ reflexivity | now apply upper_digit ]).
    cbn in Hz. rewrite U in Hz.
    assert (G : forall w, In w reserved_words -> match w with String x _ => is_digit x = false /\ x <> "-"%char | _ => False end).
    { intros w0 H0. cbn in H0. repeat (destruct H0 as [<-|H0]; [ split; [ reflexivity | discriminate ] | ]). destruct H0. }
    specialize (G z Hin). subst z. destruct G as [G1 G2]. destruct Hx as [->|Hx]; congruence. }
  assert (numeral m d <> EmptyString) as Hne by (destruct (numeral_head m d Hd) as (? & ? & -> & _); discriminate).
  unfold constant, map_parser, p_bind.
  assert (literal_text ((numeral m d ++ w) ++ rest) = POk rest (numeral m d ++ w)%string) as ->.
  { unfold literal_text, recognize. rewrite or_err by (rewrite append_assoc_s; apply D). rewrite or_err by (rewrite append_assoc_s; apply D).
    change token_with_extras with (token_of lit_specials). rewrite token_of_read; auto.
    - rewrite NR. now rewrite consumed_app.
    - destruct (numeral m d); [ congruence | discriminate ]. }
  assert (digit1 (d ++ w) = POk w d) as Ed.
  { apply digit1_read; try apply Hd. rewrite Ew. cbn. apply not_true_iff_false. intro X. apply is_digit_spec in X. unfold letter, digit in *. lia. }
  assert (I4 : ipv4_addr (numeral m d ++ w) = PErr).
  { unfold ipv4_addr, recognize, p_bind, byte, verify, recognize, p_bind. destruct m; cbn [numeral append]; [ reflexivity | ].
    rewrite Ed. destruct (Nat.leb _ 3); [ | reflexivity ]. unfold p_ret. rewrite Ew. rewrite tag1_err; [ reflexivity | ].
    destruct (Ascii.eqb_spec "."%char c) as [<-|]; auto. unfold letter in Hc. cbn in Hc. lia. }
  unfold constant_value.
  rewrite (or_err _ (p_map KIPv4CIDR _)) by (apply ac_err; unfold ipv4_cidr, recognize, separated_pair, p_bind; now rewrite I4).
  rewrite (or_err _ (p_map KStr (all_consuming ipv4_addr))) by (now apply ac_err).
  rewrite (or_err _ (p_map KStr (all_consuming ipv6_addr))).
  2:{ apply ac_err. unfold ipv6_addr, verify, recognize, separated_list1, p_bind.
      assert (exists r0 o, opt (unwrapped (p_map parse_u16 digit1)) (numeral m d ++ w) = POk r0 o
                /\ (r0 = w /\ m = false \/ r0 = (numeral m d ++ w)%string)) as (r0 & o & E0 & Hr0).
      { unfold opt, unwrapped, p_map, p_bind. destruct m; cbn [numeral append].
        - do 2 eexists. split; [ reflexivity | now right ].
        - rewrite Ed. unfold p_ret. destruct (parse_u16 d); do 2 eexists; split; try reflexivity; auto. }
      rewrite E0. assert (tag ":" w = PErr) as Tw.
      { rewrite Ew. apply tag1_err. destruct (Ascii.eqb_spec ":"%char c) as [<-|]; auto. unfold letter in Hc. cbn in Hc. lia. }
      destruct Hr0 as [[-> ->] | ->].
      - cbn [sep_go]. rewrite Tw. cbn -[consumed is_ipv6]. rewrite consumed_app. rewrite is_ipv6_digits by apply Hd. reflexivity.
      - cbn [sep_go]. rewrite HT by (auto; discriminate). cbn -[consumed is_ipv6]. rewrite consumed_none. reflexivity. }
  rewrite (or_err _ (p_map KSnapTime _)).
  2:{ apply ac_err. unfold relative_time. rewrite or_err.
      - unfold delimited, p_bind, dq. now rewrite HT by (auto; discriminate).
      - apply no_at_relative_fmt, Hno; [ reflexivity | discriminate | unfold letter; cbn; lia ]. }
  assert (p_map KTimeSpan (all_consuming time_span) (numeral m d ++ w)%string = POk EmptyString (KTimeSpan (mkTimeSpan n u))) as OK.
  { apply ac_ok. unfold time_span, p_bind. rewrite Hi, Hu. reflexivity. }
  now rewrite (or_ok _ _ _ _ _ _ OK).
Qed.
Lemma value_read : forall v u rest, value_item v u -> tok_end lit_specials rest -> constant (u ++ rest) = POk rest v.
Proof.
  intros v u rest H Hr. destruct H.
  - solve [ apply constant_ident; auto ].
  - apply (short_read "t"); auto.
  - apply (short_read "f"); auto.
  - rewrite constant_decimal by auto. unfold int64_nonmin in H. destruct (Z.leb_spec (Z.abs n) (2 ^ 63 - 1)); [ reflexivity | lia ].
  - now apply constant_string.
  - apply time_read; auto. unfold int64_nonmin. lia.
Qed.
Lemma value_stops : forall v u x, value_item v u -> stops is_space (u ++ x).
Proof.
  intros v u x H. destruct H; rewrite ?append_assoc_s.
  - solve [ apply ident_stops; auto ].
  - reflexivity.
  - reflexivity.
  - apply decimal_stops.
  - reflexivity.
  - apply decimal_stops.
Qed.
Lemma option_read : forall kv s rest, option_item kv s -> tok_end lit_specials rest -> field_and_constant (s ++ rest) = POk rest kv.
Proof.
  intros [k v] s rest (b1 & b2 & u & Hk & Hv & H1 & H2 & ->) Hr. cbn [fst snd] in *. rewrite !append_assoc_s.
  unfold field_and_constant, separated_pair. unfold p_bind at 1. rewrite token_ident; auto.
  - unfold p_bind at 1. rewrite (ws_ok _ _ _ (b2 ++ u ++ rest)%string "="%string) by (rewrite skip_spaces by (auto; reflexivity); reflexivity).
    rewrite skip_spaces by (auto; eapply value_stops; eauto). unfold p_bind. now rewrite (value_read v).
  - apply spaces_then_tok; auto. split; reflexivity.
Qed.
Lemma option_stops : forall kv s x, option_item kv s -> begins (s ++ x).
Proof. intros kv s x (b1 & b2 & u & Hk & _ & _ & _ & ->). rewrite append_assoc_s. solve [ apply ident_begins; auto ]. Qed.

(** Options and what follows them *)
Definition no_key (x : string) : Prop := field_and_constant x = PErr.
Lemma word_no_key : forall w x, field_name w -> no_option x -> no_key (w ++ x).
Proof.
  intros w x Hw [Hx He]. unfold no_key, field_and_constant, separated_pair. apply token_then_err; auto; intros; unfold p_bind; now rewrite ws_err.
Qed.
Lemma after_no_key : forall rest, after_cmd rest -> no_key (skip rest).
Proof. intros rest H. pose proof (after_tail rest H) as Ht. revert Ht. generalize (skip rest). by_tail. Qed.
Lemma options_of : forall A (f : Options -> res A) o x s r, f o = Ok x -> many0 (ws field_and_constant) s = POk r o -> match_options f s = POk r x.
Proof. intros A f o x s r Hf E. unfold match_options, unwrapped, p_map, command_options, p_bind. rewrite E. unfold p_ret. now rewrite Hf. Qed.
Lemma many0_none : forall A (p : Parser A) s, p (skip s) = PErr -> many0 (ws p) s = POk s [].
Proof. intros A p s E. unfold many0. cbn [many0_go]. now rewrite ws_err. Qed.
Lemma opts_read : forall o k s rest, listed blanks option_item o s -> spaces k -> tok_end lit_specials rest -> no_key (skip rest) ->
  many0 (ws field_and_constant) (k ++ s ++ rest) = POk (skip rest) o.
Proof.
  intros o k s rest Ho Hk H1 H2.
  destruct (many_reads blanks option_item (fun _ => field_and_constant) (fun y => tok_end lit_specials y /\ no_key (skip y)) begins)
    with (k := k) (l := o) (s := s) (rest := rest) as [_ [n Hn]]; auto.
  - intros kv t H E. subst t. exact (option_stops kv EmptyString EmptyString H).
  - exact begins_stops.
  - intros kv t y' H _. now apply (option_stops kv).
  - exact blanks_spaces.
  - intros kv t y' H Hy. exists y'. split; [ now left | ]. apply reads_const. apply option_read; auto.
    destruct Hy as [[Hy _]|(k' & u & Hk' & _ & ->)]; auto. now apply blanks_tok.
  - intros y' [_ Hy]. exists 0. intros m _. exact Hy.
  - apply (Hn n). lia.
Qed.
Lemma options_begin : forall o s x, listed blanks option_item o s -> begins (s ++ x).
Proof. intros o s x H. revert H. apply listed_begins. exact option_stops. Qed.
Lemma begins_full : forall s, (forall x, begins (s ++ x)) -> s <> EmptyString.
Proof. intros s H ->. exact (H EmptyString). Qed.
(** The options alone *)
Lemma opts_only : forall A (f : Options -> res A) o s rest x, listed0 blanks option_item o s -> f o = Ok x ->
  tok_end lit_specials rest -> no_key (skip rest) ->
  exists r, match_options f (s ++ rest) = POk r x /\ (r = rest \/ r = skip rest).
Proof.
  intros A f o s rest x [[-> ->]|Ho] Hf Hr Hk.
  - exists rest. split; auto. eapply options_of; eauto. now apply many0_none.
  - exists (skip rest). split; auto. eapply options_of; eauto. now apply (opts_read o EmptyString).
Qed.
(** The options and something after them *)
Lemma opts_then : forall A (f : Options -> res A) o a b s k rest x, listed0 blanks option_item o a -> beside a b s -> f o = Ok x ->
  b <> EmptyString -> stops is_space (b ++ rest) -> no_key (b ++ rest) -> spaces k ->
  exists r, match_options f (k ++ s ++ rest) = POk r x /\ skip r = (b ++ rest)%string /\ (k = EmptyString -> r = (b ++ rest)%string)
    /\ (exists k', spaces k' /\ r = (k' ++ b ++ rest)%string).
Proof.
  intros A f o a b s k rest x Ho Hs Hf Hb St Hk Hsp.
  destruct Ho as [[-> ->]|Ho].
  - assert (s = b) as ->.
    { destruct Hs as [[_ ->]|[[-> ->]|(H & _)]]; auto. congruence. }
    exists (k ++ b ++ rest)%string. assert (skip (k ++ b ++ rest) = (b ++ rest)%string) as E by now apply skip_spaces.
    split; [ eapply options_of; eauto; apply many0_none; now rewrite E | ]. split; auto. split; [ now intros -> | eauto ].
  - pose proof (begins_full a (fun x => options_begin o a x Ho)) as Hne.
    destruct Hs as [[-> _]|[[-> ->]|(_ & _ & k' & Hk' & ->)]]; [ congruence | congruence | ].
    assert (skip (k' ++ b ++ rest) = (b ++ rest)%string) as Es by (apply skip_spaces; auto; now apply blanks_spaces).
    exists (b ++ rest)%string. split.
    + eapply options_of; eauto. rewrite !append_assoc_s. rewrite (opts_read o); rewrite ?Es; auto. now apply blanks_tok.
    + split; [ now apply skip_stops | ]. split; auto. now exists EmptyString.
Qed.
Lemma beside_begins : forall o a b s, listed0 blanks option_item o a -> beside a b s -> (forall x, begins (b ++ x)) -> forall x, begins (s ++ x).
Proof.
  intros o a b s Ho Hs Hb x. destruct Ho as [[-> ->]|Ho].
  - destruct Hs as [[_ ->]|[[-> ->]|(H & _)]]; [ auto | exact (Hb x) | congruence ].
  - destruct Hs as [[-> ->]|[[-> ->]|(_ & _ & k & _ & ->)]]; rewrite ?append_assoc_s; [ auto | | ]; eapply options_begin; eauto.
Qed.
(** Bodies that may be empty *)
Definition reads_body0 (P : Recs -> Parser Command) (c : Command) (s : string) : Prop :=
  (s = EmptyString \/ forall x, stops is_space (s ++ x)) /\
  forall rest, after_cmd rest -> exists rest', (rest' = rest \/ rest' = skip rest) /\ reads P (s ++ rest) rest' c.
Lemma body_body0 : forall P c s, reads_body P c s -> reads_body0 P c s.
Proof. intros P c s [H1 H2]. split; auto. Qed.
