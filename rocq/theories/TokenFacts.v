(** Tokens, integers and literals. *)
From Coq Require Import Lia Nnat DecimalString DecimalZ DecimalFacts.
From Verif Require Import Str SplAst Nom Lexer Parser CmdParser ParserFacts ParserTotal ParserFuel.
From Verif Require Import SpecText LexFacts.

(** ** consumed *)
Lemma substring_prefix : forall a b, substring 0 (String.length a) (a ++ b) = a.
Proof. induction a as [|c a IH]; intro b; cbn; [ now destruct b | now rewrite IH ]. Qed.
Lemma consumed_app : forall a b, consumed (a ++ b) b = a.
Proof.
  intros a b. unfold consumed. rewrite length_append.
  replace (String.length a + String.length b - String.length b) with (String.length a) by lia.
  apply substring_prefix.
Qed.
Lemma consumed_all : forall s, consumed s EmptyString = s.
Proof. intro s. rewrite <- (append_nil_r s) at 1. apply consumed_app. Qed.
Lemma consumed_none : forall s, consumed s s = EmptyString.
Proof. intro s. apply (consumed_app EmptyString). Qed.
Lemma consumed_suffix : forall s r, is_suffix r s -> s = (consumed s r ++ r)%string.
Proof. intros s r [p ->]. now rewrite consumed_app. Qed.

(** ** Tokens *)
Definition tok_char (specials : string) (c : ascii) : bool := has_char c specials || is_alnum c.
Definition chunk (specials : string) : Parser string :=
  recognize (one_of specials) <|> alphanumeric1 <|> escaped_char.

Lemma span_alnum_split : forall sp t rest, sforall (tok_char sp) t = true ->
  exists t', sforall (tok_char sp) t' = true /\ String.length t' <= String.length t /\
              (snd (span is_alnum (t ++ rest)) = (t' ++ rest)%string)
            \/ snd (span is_alnum (t ++ rest)) = snd (span is_alnum rest) /\ sforall is_alnum t = true.
Proof.
  intros sp t rest. induction t as [|d t IH]; cbn [append]; intro Ht.
  - exists EmptyString. right. auto.
  - cbn in Ht. apply andb_true_iff in Ht. destruct Ht as [Hd Ht].
    cbn [span sforall]. destruct (is_alnum d) eqn:Ed.
    + destruct (IH Ht) as [t' [H|H]]; exists t'.
      * left. destruct (span is_alnum (t ++ rest)). cbn [snd String.length] in *.
        destruct H as (H1 & H2 & H3). repeat split; auto.
      * right. destruct (span is_alnum (t ++ rest)). cbn [snd] in *. auto.
    + exists (String d t). left. cbn. rewrite Hd, Ht. auto.
Qed.
Lemma chunk_step : forall sp c t rest, tok_char sp c = true -> sforall (tok_char sp) t = true ->
  exists t' o, chunk sp (String c t ++ rest) = POk (t' ++ rest)%string o /\
    sforall (tok_char sp) t' = true /\ String.length t' < String.length (String c t)
  \/ chunk sp (String c t ++ rest) = POk (snd (span is_alnum rest)) o /\ has_char c sp = false
     /\ sforall is_alnum t = true.
Proof.
  intros sp c t rest Hc Ht. unfold chunk, p_or.
  destruct (has_char c sp) eqn:Es.
  - exists t. eexists. left. cbn [append]. unfold recognize, one_of, satisfy. rewrite Es.
    cbn. repeat split; auto.
  - assert (recognize (one_of sp) (String c t ++ rest) = PErr) as ->.
    { unfold recognize, one_of, satisfy. cbn [append]. now rewrite Es. }
    unfold tok_char in Hc. rewrite Es in Hc. cbn in Hc.
    unfold alphanumeric1, take_while1. cbn [append span]. rewrite Hc.
    destruct (span_alnum_split sp t rest Ht) as [t' H].
    exists t'. destruct (span is_alnum (t ++ rest)) as [x y]. cbn [snd] in H.
    eexists. destruct H as [(H1 & H2 & H3)|[H H']].
    + left. rewrite H3. repeat split; auto. cbn. lia.
    + right. rewrite H. auto.
Qed.

(** What may follow a token: nothing that would extend it. *)
Definition tok_end (sp : string) (s : string) : Prop :=
  match s with
  | EmptyString => True
  | String c _ => tok_char sp c = false /\ Ascii.eqb backslash c = false
  end.
Lemma tok_end_span : forall sp rest, tok_end sp rest -> snd (span is_alnum rest) = rest.
Proof.
  intros sp [|c r]; cbn; auto. intros [H _]. unfold tok_char in H.
  apply orb_false_iff in H. destruct H as [_ H]. rewrite H. reflexivity.
Qed.
Lemma chunk_end : forall sp rest, tok_end sp rest -> chunk sp rest = PErr.
Proof.
  intros sp [|c r]; intro H; [ reflexivity | ]. destruct H as [H1 H2]. unfold tok_char in H1.
  apply orb_false_iff in H1. destruct H1 as [H1 H3].
  unfold chunk, p_or, recognize, one_of, satisfy. rewrite H1.
  unfold alphanumeric1, take_while1. cbn [span]. rewrite H3.
  unfold escaped_char, recognize, pair_, p_bind, tag, bs. cbn [strip_prefix]. rewrite H2. reflexivity.
Qed.
Lemma many0_go_chunks : forall sp rest, tok_end sp rest -> forall fuel t,
  sforall (tok_char sp) t = true -> String.length t < fuel ->
  exists l, many0_go (chunk sp) fuel (t ++ rest) = POk rest l.
Proof.
  intros sp rest He. induction fuel as [|fuel IH]; intros t Ht Hl; [ lia | ].
  destruct t as [|c t].
  - cbn [append many0_go]. rewrite chunk_end by exact He. eauto.
  - cbn in Ht. apply andb_true_iff in Ht. destruct Ht as [Hc Ht].
    destruct (chunk_step sp c t rest Hc Ht) as (t' & o & [(E & H1 & H2)|(E & H1 & H2)]).
    + cbn [many0_go]. rewrite E.
      destruct (Nat.eqb_spec (String.length (t' ++ rest)) (String.length (String c t ++ rest))) as [X|X].
      { rewrite !length_append in X. lia. }
      destruct (IH t' H1 ltac:(lia)) as [l ->]. eauto.
    + rewrite (tok_end_span sp rest He) in E. cbn [many0_go]. rewrite E.
      destruct (Nat.eqb_spec (String.length rest) (String.length (String c t ++ rest))) as [X|X].
      { rewrite length_append in X. cbn in X. lia. }
      destruct (IH EmptyString eq_refl ltac:(cbn in Hl |- *; lia)) as [l Hl'].
      cbn [append] in Hl'. rewrite Hl'. eauto.
Qed.
Lemma token_of_read : forall sp t rest,
  t <> EmptyString -> sforall (tok_char sp) t = true -> tok_end sp rest ->
  token_of sp (t ++ rest) = if is_not_reserved_word t then POk rest t else PErr.
Proof.
  intros sp t rest Hn Ht He.
  assert (exists l, many1 (chunk sp) (t ++ rest) = POk rest l) as [l E].
  { destruct t as [|c t]; [ congruence | ].
    cbn in Ht. apply andb_true_iff in Ht. destruct Ht as [Hc Ht].
    unfold many1, p_bind.
    destruct (chunk_step sp c t rest Hc Ht) as (t' & o & [(E & H1 & H2)|(E & H1 & H2)]); rewrite E.
    - unfold many0. destruct (many0_go_chunks sp rest He (S (String.length (t' ++ rest))) t' H1 ltac:(rewrite length_append; lia)) as [l ->]. eexists. reflexivity.
    - rewrite (tok_end_span sp rest He). unfold many0.
      destruct (many0_go_chunks sp rest He (S (String.length rest)) EmptyString eq_refl ltac:(cbn; lia)) as [l Hl]. cbn [append] in Hl. rewrite Hl. eexists. reflexivity. }
  change (token_of sp) with (verify (recognize (many1 (chunk sp))) is_not_reserved_word).
  unfold verify, p_bind, recognize. rewrite E, consumed_app.
  destruct (is_not_reserved_word t); reflexivity.
Qed.

(** ** Decimal digits *)
Lemma digits_of_uint_acc : forall u acc,
  digits_value (Zpos acc) (NilEmpty.string_of_uint u) = Zpos (Pos.of_uint_acc u acc).
Proof.
  induction u as [|u IH|u IH|u IH|u IH|u IH|u IH|u IH|u IH|u IH|u IH]; intro acc;
    [ reflexivity | .. ];
    cbn [NilEmpty.string_of_uint digits_value Pos.of_uint_acc]; rewrite <- IH; f_equal;
    cbn [code]; vm_compute (Z.of_N _); lia.
Qed.
Lemma digits_of_uint : forall u, digits_value 0 (NilEmpty.string_of_uint u) = Z.of_uint u.
Proof.
  unfold Z.of_uint.
  induction u as [|u IH|u IH|u IH|u IH|u IH|u IH|u IH|u IH|u IH|u IH]; [ reflexivity | exact IH | .. ];
    cbn [NilEmpty.string_of_uint digits_value Pos.of_uint];
    (match goal with |- digits_value ?x _ = _ => let v := eval vm_compute in x in change x with v end);
    rewrite digits_of_uint_acc; reflexivity.
Qed.
Lemma uint_digits : forall u, sforall is_digit (NilEmpty.string_of_uint u) = true.
Proof. induction u; cbn -[is_digit]; auto. Qed.
Lemma of_uint_nonneg : forall u, (0 <= Z.of_uint u)%Z.
Proof. intro u. unfold Z.of_uint. lia. Qed.

Definition no_digit (s : string) : Prop := next_is (fun c => ~ digit c) s.
Lemma no_digit_stops : forall s, no_digit s -> stops is_digit s.
Proof. intros [|c s]; cbn; auto. apply is_digit_false. Qed.
Lemma digit1_read : forall d rest, d <> EmptyString -> sforall is_digit d = true ->
  stops is_digit rest -> digit1 (d ++ rest) = POk rest d.
Proof.
  intros d rest Hn Hd Hr. unfold digit1, take_while1. rewrite span_exact; auto.
  destruct d; congruence.
Qed.

(** The sign in front of an integer, and its effect *)
Inductive Sign := NoSign | Plus | Minus.
Definition sign_text (s : Sign) : string :=
  match s with NoSign => "" | Plus => "+" | Minus => "-" end%string.
Definition signed (s : Sign) (z : Z) : Z := match s with Minus => (- z)%Z | _ => z end.

Lemma uint_text_nonempty : forall u, u <> Decimal.Nil -> NilEmpty.string_of_uint u <> EmptyString.
Proof. intros [| | | | | | | | | |]; cbn; congruence. Qed.
Lemma uint_text_head : forall u c r, NilEmpty.string_of_uint u = String c r -> is_digit c = true.
Proof. intros u c r H. pose proof (uint_digits u) as D. rewrite H in D. cbn in D. now apply andb_true_iff in D. Qed.
Lemma p_sign_none : forall d rest, d <> EmptyString -> sforall is_digit d = true ->
  p_sign (d ++ rest) = POk (d ++ rest)%string None.
Proof.
  intros [|c d] rest Hn Hd; [ congruence | ]. cbn in Hd. apply andb_true_iff in Hd. destruct Hd as [Hc _].
  unfold p_sign, opt, p_or, tag. cbn [append strip_prefix].
  destruct (Ascii.eqb_spec "+" c) as [<-|]; [ vm_compute in Hc; discriminate | ].
  destruct (Ascii.eqb_spec "-" c) as [<-|]; [ vm_compute in Hc; discriminate | reflexivity ].
Qed.
Lemma p_int_uint : forall sgn u rest, u <> Decimal.Nil -> no_digit rest ->
  p_int (sign_text sgn ++ NilEmpty.string_of_uint u ++ rest)
  = if (Z.of_uint u <=? 2 ^ 63 - 1)%Z then POk rest (signed sgn (Z.of_uint u)) else PErr.
Proof.
  intros sgn u rest Hu Hr. apply no_digit_stops in Hr.
  pose proof (uint_text_nonempty u Hu) as Hn. pose proof (uint_digits u) as Hd.
  assert (forall o, (P: v <- unwrapped (p_map parse_i64 digit1); p_ret (if is_minus o then - v else v)%Z)
            (NilEmpty.string_of_uint u ++ rest)%string
          = if (Z.of_uint u <=? 2 ^ 63 - 1)%Z
            then POk rest (if is_minus o then - Z.of_uint u else Z.of_uint u)%Z else PErr) as G.
  { intro o. unfold unwrapped, p_map, p_bind. rewrite digit1_read by auto. unfold p_ret, parse_i64.
    rewrite digits_of_uint. unfold i64_max. destruct (Z.of_uint u <=? 2 ^ 63 - 1)%Z; reflexivity. }
  unfold p_int. unfold p_bind at 1. destruct sgn; cbn [sign_text].
  - cbn [append]. rewrite p_sign_none by auto. rewrite G. reflexivity.
  - change (p_sign ("+" ++ NilEmpty.string_of_uint u ++ rest)%string)
      with (POk (NilEmpty.string_of_uint u ++ rest)%string (Some "+"%string)).
    cbn iota beta. rewrite G. reflexivity.
  - change (p_sign ("-" ++ NilEmpty.string_of_uint u ++ rest)%string)
      with (POk (NilEmpty.string_of_uint u ++ rest)%string (Some "-"%string)).
    cbn iota beta. rewrite G. reflexivity.
Qed.

(** Decimal notation as sign and digits *)
Definition abs_uint (z : Z) : Decimal.uint := N.to_uint (Z.abs_N z).
Lemma to_uint_nonnil : forall n, N.to_uint n <> Decimal.Nil.
Proof.
  intros [|p]; cbn; [ discriminate | ]. apply DecimalPos.Unsigned.to_uint_nonnil.
Qed.
Lemma string_of_uint_nonnil : forall u, u <> Decimal.Nil ->
  NilZero.string_of_uint u = NilEmpty.string_of_uint u.
Proof. intros [| | | | | | | | | |]; cbn; congruence. Qed.
Lemma decimal_text : forall z,
  decimal z = (sign_text (if (z <? 0)%Z then Minus else NoSign)
               ++ NilEmpty.string_of_uint (abs_uint z))%string.
Proof.
  intros [|p|p]; cbn [Z.ltb Z.compare]; unfold decimal, Z.to_int; cbn [NilZero.string_of_int sign_text append].
  - reflexivity.
  - apply string_of_uint_nonnil, DecimalPos.Unsigned.to_uint_nonnil.
  - unfold abs_uint. cbn. f_equal. apply string_of_uint_nonnil, DecimalPos.Unsigned.to_uint_nonnil.
Qed.
Lemma abs_uint_value : forall z, Z.of_uint (abs_uint z) = Z.abs z.
Proof.
  intro z. unfold Z.of_uint, abs_uint.
  change (Z.of_N (N.of_uint (N.to_uint (Z.abs_N z))) = Z.abs z).
  rewrite DecimalN.Unsigned.of_to. apply N2Z.inj_abs_N.
Qed.
Lemma p_int_decimal : forall z rest, no_digit rest ->
  p_int (decimal z ++ rest) = if (Z.abs z <=? 2 ^ 63 - 1)%Z then POk rest z else PErr.
Proof.
  intros z rest Hr. rewrite decimal_text, append_assoc_s, p_int_uint; auto.
  - rewrite abs_uint_value. destruct (Z.abs z <=? 2 ^ 63 - 1)%Z; auto. f_equal.
    destruct (Z.ltb_spec z 0); cbn [signed]; lia.
  - apply to_uint_nonnil.
Qed.

(** ** A literal made of a sign and digits *)
Definition tok_specials : string := "_*:/-%{}@".
Definition lit_specials : string := (tok_specials ++ bs ++ "$.")%string.

Lemma digit_facts : forall c, is_digit c = true ->
  tok_char tok_specials c = true /\ tok_char lit_specials c = true /\ is_hex c = true /\
  is_alnum c = true.
Proof.
  intros c H. unfold tok_char, is_hex, is_alnum. rewrite H, !orb_true_r. auto.
Qed.
Lemma sforall_impl : forall (f g : ascii -> bool) s, (forall c, f c = true -> g c = true) ->
  sforall f s = true -> sforall g s = true.
Proof.
  intros f g s H. induction s as [|c s IH]; cbn; auto. rewrite !andb_true_iff. intuition.
Qed.
Lemma sforall_app : forall f a b, sforall f (a ++ b) = sforall f a && sforall f b.
Proof. intros f a b. induction a as [|c a IH]; cbn; auto. now rewrite IH, andb_assoc. Qed.

(** The shape of the text: an optional minus and at least one digit. *)
Definition numeral (m : bool) (d : string) : string := ((if m then "-" else "") ++ d)%string.
Definition digits (d : string) : Prop := d <> EmptyString /\ sforall is_digit d = true.

Lemma numeral_head : forall m d, digits d -> exists c r, numeral m d = String c r /\
  (c = "-"%char \/ is_digit c = true).
Proof.
  intros m [|c d] [Hn Hd]; [ congruence | ]. cbn in Hd. apply andb_true_iff in Hd.
  destruct Hd as [Hc _]. destruct m; cbn; eauto.
Qed.
Lemma numeral_tok : forall m d, digits d ->
  sforall (tok_char tok_specials) (numeral m d) = true /\
  sforall (tok_char lit_specials) (numeral m d) = true.
Proof.
  intros m d [_ Hd]. unfold numeral. rewrite !sforall_app.
  rewrite !(sforall_impl is_digit _ d) by (auto; intros c Hc; apply digit_facts, Hc).
  destruct m; auto.
Qed.
Lemma head_neq : forall c x, (c = "-"%char \/ is_digit c = true) ->
  is_digit x = false -> x <> "-"%char -> Ascii.eqb x c = false.
Proof.
  intros c x [->|H] Hx Hm; (match goal with |- Ascii.eqb ?a ?b = _ => destruct (Ascii.eqb_spec a b) end); congruence.
Qed.
Lemma tag1_err : forall x c r, Ascii.eqb x c = false -> tag (String x EmptyString) (String c r) = PErr.
Proof. intros x c r H. unfold tag, strip_prefix. now rewrite H. Qed.
Lemma numeral_tag_err : forall m d x rest, digits d -> is_digit x = false -> x <> "-"%char ->
  tag (String x EmptyString) (numeral m d ++ rest) = PErr.
Proof.
  intros m d x rest Hd Hx Hm. destruct (numeral_head m d Hd) as (c & r & -> & Hc).
  cbn [append]. apply tag1_err. now apply head_neq.
Qed.
Lemma quoted_err : forall m d rest, digits d ->
  double_quoted (numeral m d ++ rest) = PErr /\ single_quoted (numeral m d ++ rest) = PErr.
Proof.
  intros m d rest Hd. unfold double_quoted, single_quoted, delimited, p_or, p_bind.
  unfold dq, sq. rewrite !(numeral_tag_err m d) by (auto; discriminate). auto.
Qed.

Lemma upper_digit : forall c, is_digit c = true -> upper_c c = c.
Proof.
  intros c H. unfold upper_c. destruct (is_lower c) eqn:E; auto. exfalso.
  unfold is_lower in E. apply between_spec in E. apply between_spec in H. cbn in *. lia.
Qed.
Lemma numeral_not_reserved : forall m d, digits d -> is_not_reserved_word (numeral m d) = true.
Proof.
  intros m d Hd. destruct (numeral_head m d Hd) as (c & r & -> & Hc).
  unfold is_not_reserved_word. rewrite negb_true_iff.
  destruct (existsb (String.eqb (upper (String c r))) reserved_words) eqn:E; auto. exfalso.
  apply existsb_exists in E. destruct E as (w & Hin & Hw). apply String.eqb_eq in Hw.
  assert (upper_c c = c) as U by (destruct Hc as [->|Hc]; [ reflexivity | now apply upper_digit ]).
  cbn in Hw. rewrite U in Hw.
  assert (G : forall w, In w reserved_words -> match w with String x _ => is_digit x = false /\ x <> "-"%char | _ => False end).
  { intros w0 H0. cbn in H0. repeat (destruct H0 as [<-|H0]; [ split; [ reflexivity | discriminate ] | ]). destruct H0. }
  specialize (G w Hin). subst w. destruct G as [G1 G2]. destruct Hc as [->|Hc]; congruence.
Qed.

Lemma literal_text_numeral : forall m d rest, digits d -> tok_end lit_specials rest ->
  literal_text (numeral m d ++ rest) = POk rest (numeral m d).
Proof.
  intros m d rest Hd He. unfold literal_text, recognize, p_or.
  destruct (quoted_err m d rest Hd) as [-> ->].
  assert (numeral m d <> EmptyString) by (destruct (numeral_head m d Hd) as (c & r & -> & _); discriminate).
  change token_with_extras with (token_of lit_specials).
  rewrite token_of_read by (auto; apply numeral_tok; auto).
  rewrite numeral_not_reserved by auto. now rewrite consumed_app.
Qed.

(** *** The alternatives that refuse a numeral *)
Lemma digit1_all : forall d, digits d -> digit1 d = POk EmptyString d.
Proof.
  intros d [Hn Hd]. rewrite <- (append_nil_r d) at 1. apply digit1_read; cbn; auto.
Qed.
Lemma digit1_minus : forall r, digit1 (String "-" r) = PErr.
Proof. reflexivity. Qed.
Lemma p_sign_numeral : forall m d, digits d ->
  p_sign (numeral m d) = POk d (if m then Some "-"%string else None).
Proof.
  intros [] d [Hn Hd]; [ reflexivity | ]. cbn [numeral append].
  rewrite <- (append_nil_r d) at 1. rewrite p_sign_none by auto. now rewrite append_nil_r.
Qed.
Lemma ipv4_err : forall m d, digits d -> ipv4_addr (numeral m d) = PErr.
Proof.
  intros [] d Hd; unfold ipv4_addr, recognize, p_bind, byte, verify, recognize, p_bind.
  - reflexivity.
  - cbn [numeral append]. rewrite digit1_all by auto. destruct (Nat.leb (String.length d) 3); reflexivity.
Qed.
Lemma ipv4_cidr_err : forall m d, digits d -> ipv4_cidr (numeral m d) = PErr.
Proof.
  intros m d Hd. unfold ipv4_cidr, recognize, separated_pair, p_bind. now rewrite ipv4_err.
Qed.
Lemma is_ipv6_digits : forall d, sforall is_digit d = true -> is_ipv6 d = false.
Proof.
  intros d Hd. unfold is_ipv6. cbn [ipv6_groups]. unfold ipv6_group.
  rewrite <- (append_nil_r d) at 1. rewrite span_exact;
    [ | now apply (sforall_impl is_digit); [ intros c Hc; apply digit_facts, Hc | ] | exact I ].
  assert (strip_prefix "::" d = None) as X.
  { destruct d as [|c d]; auto. cbn in Hd. apply andb_true_iff in Hd. destruct Hd as [Hc _].
    cbn [strip_prefix]. destruct (Ascii.eqb_spec ":" c) as [<-|]; [ discriminate | reflexivity ]. }
  destruct (Nat.leb 1 (String.length d) && Nat.leb (String.length d) 4); [ reflexivity | ].
  cbn [Nat.eqb]. now rewrite X.
Qed.
Lemma ipv6_err : forall m d, digits d -> ipv6_addr (numeral m d) = PErr.
Proof.
  intros m d Hd. unfold ipv6_addr, verify, recognize, separated_list1, p_bind.
  assert (exists r o, opt (unwrapped (p_map parse_u16 digit1)) (numeral m d) = POk r o
            /\ (r = EmptyString \/ r = numeral m d)) as (r & o & E & Hr).
  { unfold opt, unwrapped, p_map, p_bind. destruct m; cbn [numeral append].
    - do 2 eexists. split; [ reflexivity | now right ].
    - rewrite digit1_all by auto. unfold p_ret. destruct (parse_u16 d); do 2 eexists; split; try reflexivity; auto. }
  rewrite E. destruct Hr as [-> | ->].
  - cbn -[consumed is_ipv6]. rewrite consumed_all.
    destruct m; cbn [numeral append]; [ reflexivity | ].
    rewrite is_ipv6_digits by apply Hd. reflexivity.
  - cbn [sep_go]. replace (tag ":" (numeral m d)) with (@PErr string).
    2:{ rewrite <- (append_nil_r (numeral m d)). now rewrite numeral_tag_err by (auto; discriminate). }
    cbn -[consumed is_ipv6]. rewrite consumed_none. reflexivity.
Qed.
Lemma alt_tags_err : forall l s, (forall t, In t l -> tag_no_case t s = PErr) -> alt_tags l s = PErr.
Proof.
  induction l as [|t l IH]; intros s H; [ reflexivity | ]. cbn [alt_tags].
  pose proof (H t (or_introl eq_refl)) as Ht.
  destruct l as [|t' l']; [ exact Ht | ]. unfold p_or. rewrite Ht. apply IH.
  intros u Hu. apply H. now right.
Qed.
Lemma time_unit_nil : time_unit EmptyString = PErr.
Proof. reflexivity. Qed.
Lemma time_unit_digit : forall d, digits d -> time_unit d = PErr.
Proof.
  intros [|c d] [Hn Hd]; [ congruence | ]. cbn in Hd. apply andb_true_iff in Hd. destruct Hd as [Hc _].
  assert (forall x t, is_alpha x = true -> tag_no_case (String x t) (String c d) = PErr) as T.
  { intros x t Hx. unfold tag_no_case. cbn [strip_prefix_nc].
    destruct (Ascii.eqb_spec (lower_c x) (lower_c c)) as [E|]; [ | reflexivity ].
    apply lower_c_same in E. exfalso. unfold is_alpha, is_lower, is_upper in Hx.
    apply orb_true_iff in Hx. rewrite !between_spec in Hx. unfold is_digit in Hc. rewrite between_spec in Hc.
    cbn in *. destruct E as [->|E]; lia. }
  unfold time_unit, p_or, unit_normalizer, p_map, p_bind.
  rewrite !alt_tags_err; auto;
    intros t Ht; cbn in Ht; repeat (destruct Ht as [<-|Ht]; [ now apply T | ]); destruct Ht.
Qed.
Lemma time_span_err : forall m d, digits d -> time_span (numeral m d) = PErr.
Proof.
  intros m d Hd. unfold time_span, p_int, p_bind. rewrite p_sign_numeral by auto.
  unfold unwrapped, p_map, p_bind. rewrite digit1_all by auto. unfold p_ret.
  destruct (parse_i64 d); reflexivity.
Qed.
Lemma relative_time_err : forall m d, digits d -> relative_time (numeral m d) = PErr.
Proof.
  intros m d Hd. unfold relative_time, p_or.
  assert (relative_time_fmt (numeral m d) = PErr) as ->.
  { unfold relative_time_fmt, p_bind, opt, p_or. rewrite time_span_err by auto.
    assert (time_span_one (numeral m d) = PErr) as ->.
    { unfold time_span_one, p_bind, opt. destruct m.
      - change (tag "-" (numeral true d)) with (POk d "-"%string). cbn iota.
        now rewrite time_unit_digit.
      - cbn [numeral append]. destruct d as [|c d]; [ destruct Hd; congruence | ].
        rewrite tag1_err. 2:{ destruct Hd as [_ Hd]. cbn in Hd. apply andb_true_iff in Hd. destruct Hd as [Hc _].
          destruct (Ascii.eqb_spec "-" c) as [<-|]; [ discriminate | reflexivity ]. }
        now rewrite time_unit_digit. }
    rewrite <- (append_nil_r (numeral m d)). now rewrite numeral_tag_err by (auto; discriminate). }
  unfold delimited, p_bind. rewrite <- (append_nil_r (numeral m d)).
  unfold dq. now rewrite numeral_tag_err by (auto; discriminate).
Qed.
Lemma numeral_no_star : forall m d, digits d -> has_char "*"%char (numeral m d) = false.
Proof.
  intros m d [_ Hd]. unfold has_char, sexists. rewrite negb_false_iff. unfold numeral.
  rewrite sforall_app. apply andb_true_iff. split; [ destruct m; reflexivity | ].
  apply (sforall_impl is_digit); auto. intros c Hc. destruct (Ascii.eqb_spec "*" c) as [<-|]; [ discriminate | reflexivity ].
Qed.
Lemma token_of_numeral : forall sp m d, digits d -> sforall (tok_char sp) (numeral m d) = true ->
  token_of sp (numeral m d) = POk EmptyString (numeral m d).
Proof.
  intros sp m d Hd Ht. rewrite <- (append_nil_r (numeral m d)) at 1.
  rewrite token_of_read; auto; [ | | exact I ].
  - now rewrite numeral_not_reserved.
  - destruct (numeral_head m d Hd) as (c & r & -> & _). discriminate.
Qed.
Lemma quoted_err' : forall m d, digits d -> double_quoted (numeral m d) = PErr.
Proof. intros m d Hd. rewrite <- (append_nil_r (numeral m d)). now apply quoted_err. Qed.
Lemma wildcard_err : forall m d, digits d -> wildcard (numeral m d) = PErr.
Proof.
  intros m d Hd. unfold wildcard, verify, p_bind, p_or. rewrite quoted_err' by auto.
  change token_with_extras with (token_of lit_specials).
  rewrite token_of_numeral by (auto; apply numeral_tok; auto). now rewrite numeral_no_star.
Qed.
Lemma variable_err : forall m d, digits d -> variable (numeral m d) = PErr.
Proof.
  intros m d Hd. unfold variable, delimited, p_bind. rewrite <- (append_nil_r (numeral m d)).
  now rewrite numeral_tag_err by (auto; discriminate).
Qed.
Lemma p_double_err : forall m d, digits d -> p_double (numeral m d) = PErr.
Proof.
  intros m d Hd. unfold p_double, p_bind. rewrite p_sign_numeral by auto.
  unfold separated_pair, p_bind. now rewrite digit1_all.
Qed.
Lemma p_int_numeral : forall m d, digits d ->
  p_int (numeral m d) = match parse_i64 d with Ok v => POk EmptyString (if m then - v else v)%Z | _ => PErr end.
Proof.
  intros m d Hd. unfold p_int, p_bind. rewrite p_sign_numeral by auto.
  unfold unwrapped, p_map, p_bind. rewrite digit1_all by auto. unfold p_ret.
  destruct (parse_i64 d); auto. destruct m; reflexivity.
Qed.
Lemma field_numeral : forall m d, digits d -> field (numeral m d) = POk EmptyString (numeral m d).
Proof.
  intros m d Hd. unfold field, p_or, field_fmt, recognize, separated_list1, p_bind.
  unfold p_or, token_not_t_f, verify, p_bind.
  change token with (token_of tok_specials).
  rewrite token_of_numeral by (auto; apply numeral_tok; auto).
  assert (negb (String.eqb (numeral m d) "t") && negb (String.eqb (numeral m d) "f") = true) as ->.
  { destruct (numeral_head m d Hd) as (c & r & -> & Hc). cbn -[Ascii.eqb].
    destruct (Ascii.eqb_spec c "t") as [->|]; [ destruct Hc; discriminate | ].
    destruct (Ascii.eqb_spec c "f") as [->|]; [ destruct Hc; discriminate | reflexivity ]. }
  cbn -[consumed]. now rewrite consumed_all.
Qed.

Definition numeral_const (m : bool) (d : string) : Constant :=
  match parse_i64 d with Ok v => KInt (if m then - v else v)%Z | _ => KField (numeral m d) end.
Lemma ac_err : forall A B (f : A -> B) (p : Parser A) s, p s = PErr -> p_map f (all_consuming p) s = PErr.
Proof. intros A B f p s H. unfold p_map, all_consuming, p_bind. now rewrite H. Qed.
Lemma ac_ok : forall A B (f : A -> B) (p : Parser A) s a, p s = POk EmptyString a ->
  p_map f (all_consuming p) s = POk EmptyString (f a).
Proof. intros A B f p s a H. unfold p_map, all_consuming, p_bind. rewrite H. reflexivity. Qed.
Lemma or_err : forall A (p q : Parser A) s, p s = PErr -> (p <|> q) s = q s.
Proof. intros A p q s H. unfold p_or. now rewrite H. Qed.
Lemma or_ok : forall A (p q : Parser A) s r a, p s = POk r a -> (p <|> q) s = POk r a.
Proof. intros A p q s r a H. unfold p_or. now rewrite H. Qed.
Lemma constant_value_numeral : forall m d, digits d ->
  constant_value (numeral m d) = POk EmptyString (numeral_const m d).
Proof.
  intros m d Hd. unfold constant_value.
  rewrite (or_err _ (p_map KIPv4CIDR _)) by (apply ac_err; now apply ipv4_cidr_err).
  rewrite (or_err _ (p_map KStr (all_consuming ipv4_addr))) by (apply ac_err; now apply ipv4_err).
  rewrite (or_err _ (p_map KStr (all_consuming ipv6_addr))) by (apply ac_err; now apply ipv6_err).
  rewrite (or_err _ (p_map KSnapTime _)) by (apply ac_err; now apply relative_time_err).
  rewrite (or_err _ (p_map KTimeSpan _)) by (apply ac_err; now apply time_span_err).
  rewrite (or_err _ (p_map KWildcard _)) by (apply ac_err; now apply wildcard_err).
  rewrite (or_err _ (p_map KStr (all_consuming double_quoted))) by (apply ac_err; now apply quoted_err').
  rewrite (or_err _ (p_map KVariable _)) by (apply ac_err; now apply variable_err).
  rewrite (or_err _ (p_map KDouble _)) by (apply ac_err; now apply p_double_err).
  pose proof (p_int_numeral m d Hd) as I. unfold numeral_const.
  destruct (parse_i64 d) as [v| |].
  - now rewrite (or_ok _ _ _ _ _ _ (ac_ok _ _ KInt _ _ _ I)).
  - rewrite or_err by (now apply ac_err).
    now rewrite (or_ok _ _ _ _ _ _ (ac_ok _ _ KField _ _ _ (field_numeral m d Hd))).
  - rewrite or_err by (now apply ac_err).
    now rewrite (or_ok _ _ _ _ _ _ (ac_ok _ _ KField _ _ _ (field_numeral m d Hd))).
Qed.
Lemma constant_numeral : forall m d rest, digits d -> tok_end lit_specials rest ->
  constant (numeral m d ++ rest) = POk rest (numeral_const m d).
Proof.
  intros m d rest Hd He. unfold constant, map_parser, p_bind.
  rewrite literal_text_numeral by auto. now rewrite constant_value_numeral.
Qed.
Lemma decimal_numeral : forall z, exists m d, decimal z = numeral m d /\ digits d /\
  numeral_const m d = if (Z.abs z <=? 2 ^ 63 - 1)%Z then KInt z else KField (decimal z).
Proof.
  intro z. exists (z <? 0)%Z, (NilEmpty.string_of_uint (abs_uint z)).
  assert (decimal z = numeral (z <? 0)%Z (NilEmpty.string_of_uint (abs_uint z))) as E.
  { rewrite decimal_text. unfold numeral. now destruct (z <? 0)%Z. }
  repeat split; auto.
  - apply uint_text_nonempty, to_uint_nonnil.
  - apply uint_digits.
  - unfold numeral_const, parse_i64. rewrite digits_of_uint, abs_uint_value, <- E.
    unfold i64_max. destruct (Z.abs z <=? 2 ^ 63 - 1)%Z; auto. f_equal.
    destruct (Z.ltb_spec z 0); lia.
Qed.
Lemma constant_decimal : forall z rest, tok_end lit_specials rest ->
  constant (decimal z ++ rest)
  = POk rest (if (Z.abs z <=? 2 ^ 63 - 1)%Z then KInt z else KField (decimal z)).
Proof.
  intros z rest He. destruct (decimal_numeral z) as (m & d & -> & Hd & <-).
  now apply constant_numeral.
Qed.

Lemma p_int_decimal_ok : forall z rest, int64_nonmin z -> no_digit rest ->
  p_int (decimal z ++ rest) = POk rest z.
Proof.
  intros z rest Hz Hr. rewrite p_int_decimal by exact Hr. unfold int64_nonmin in Hz.
  destruct (Z.leb_spec (Z.abs z) (2 ^ 63 - 1)); [ reflexivity | lia ].
Qed.
Lemma has_char_spec : forall c s, has_char c s = true <-> In c (list_ascii_of_string s).
Proof.
  intros c s. unfold has_char, sexists. rewrite negb_true_iff.
  induction s as [|d s IH]; cbn [sforall list_ascii_of_string In]; [ intuition discriminate | ].
  rewrite andb_false_iff, negb_false_iff, Ascii.eqb_eq, IH. intuition.
Qed.
Lemma is_alpha_spec : forall c, is_alpha c = true <-> letter c.
Proof.
  intro c. unfold is_alpha, is_lower, is_upper, letter. rewrite orb_true_iff, !between_spec. cbn. lia.
Qed.
Lemma word_end : forall rest, next_is (fun c => ~ word_char c) rest -> tok_end lit_specials rest.
Proof.
  intros [|c r]; cbn; auto. intro H. unfold word_char in H.
  assert (Ascii.eqb backslash c = false) as Eb.
  { destruct (Ascii.eqb_spec backslash c) as [<-|]; auto. exfalso. apply H. right. right. right. reflexivity. }
  split; auto. apply not_true_iff_false. intro T. apply H. unfold tok_char in T.
  apply orb_true_iff in T. destruct T as [T|T].
  - right. right. left. apply has_char_spec in T. cbn in T |- *.
    repeat (destruct T as [<-|T]; [ first [ discriminate Eb | tauto ] | ]). destruct T.
  - unfold is_alnum in T. apply orb_true_iff in T. rewrite is_alpha_spec, is_digit_spec in T. tauto.
Qed.
Lemma constant_decimal_ok : forall z rest, int64_nonmin z -> next_is (fun c => ~ word_char c) rest ->
  constant (decimal z ++ rest) = POk rest (KInt z).
Proof.
  intros z rest Hz Hr. rewrite constant_decimal by (now apply word_end). unfold int64_nonmin in Hz.
  destruct (Z.leb_spec (Z.abs z) (2 ^ 63 - 1)); [ reflexivity | lia ].
Qed.
Lemma constant_decimal_overflow : forall z rest, ~ int64_nonmin z -> next_is (fun c => ~ word_char c) rest ->
  constant (decimal z ++ rest) = POk rest (KField (decimal z)).
Proof.
  intros z rest Hz Hr. rewrite constant_decimal by (now apply word_end). unfold int64_nonmin in Hz.
  destruct (Z.leb_spec (Z.abs z) (2 ^ 63 - 1)); [ lia | reflexivity ].
Qed.
