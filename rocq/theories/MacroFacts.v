(** Proofs about macro detection and substitution *)
From Coq Require Import Lia.
From Verif Require Import Str SplAst Nom Lexer Parser CmdParser Macros.
From Verif Require Import ParserFacts ParserTotal ParserFuel SpecText LexFacts TokenFacts NameFacts.
From Verif Require Import SpecExpr ExprFacts SpecMacro.
Open Scope string_scope.

(** ** Totality *)
Lemma good_macro_call : forall n R, good_recs n R -> good true (S n) (macro_call R).
Proof.
  intros n R HR. unfold macro_call. apply good_delimited; [ apply (good_tag _ bt) | | apply good_tag_f ].
  apply good_ws. apply good_bind; [ apply good_ws; unfold token; gd | intro nm ].
  apply good_bind; [ | intro; apply good_ret ]. eapply good_opt. unfold macro_args.
  apply (good_delimited _ _ _ false); [ apply good_ws, good_tag_f | | apply good_ws, good_tag_f ].
  eapply good_separated_list0; [ apply good_ws, good_tag_f | ]. unfold macro_arg.
  apply (good_pair _ _ false).
  - eapply good_opt. apply (good_terminated _ _ false); [ | apply good_tag_f ]. unfold token. gd.
  - apply good_recognize. now apply good_expr.
Qed.
Lemma good_spl_macros : forall n R, good_recs n R -> good false (S n) (spl_macros R).
Proof.
  intros n R HR. unfold spl_macros. apply good_all_consuming. apply good_pair.
  - eapply good_many0. apply (good_pair _ _ false); [ gd | ]. eapply good_false. now apply good_macro_call.
  - apply good_recognize. eapply good_many0. apply good_satisfy.
Qed.
Lemma detect_total : forall s, exists r, detect_macros s = Some r /\ r <> Panic.
Proof.
  intro s. unfold detect_macros.
  pose proof (good_spl_macros _ _ (good_level (S (String.length s))) s ltac:(lia)) as G.
  destruct (spl_macros _ s) as [[|c r] a| | |]; try contradiction; eauto; eexists; split; try reflexivity; discriminate.
Qed.

(** ** What is detected spells the text *)
Lemma gap_space : forall b, sforall is_space b = true <-> gap b.
Proof. intro b. apply (all_chars_sforall white is_space b is_space_spec). Qed.
Lemma ms0_inv : forall s r a, multispace0 s = POk r a -> s = a ++ r /\ gap a.
Proof.
  intros s r a H. rewrite ms0_eq in H. injection H as <- <-. split.
  - apply (span_append is_space). now destruct (span is_space s).
  - apply gap_space. induction s as [|c s IH]; cbn; auto. destruct (is_space c) eqn:E; cbn; auto.
    destruct (span is_space s); cbn in *. now rewrite E.
Qed.
Lemma ws_inv : forall A (p : Parser A) s r a, ws p s = POk r a ->
  exists b1 s1 b2, gap b1 /\ gap b2 /\ s = b1 ++ s1 /\ p s1 = POk (b2 ++ r) a.
Proof.
  intros A p s r a H. unfold ws, delimited in H.
  apply bind_ok in H. destruct H as (r1 & a1 & H1 & H).
  apply bind_ok in H. destruct H as (r2 & a2 & H2 & H).
  apply bind_ok in H. destruct H as (r3 & a3 & H3 & H). injection H as <- <-.
  apply ms0_inv in H1. apply ms0_inv in H3. destruct H1 as [-> G1]. destruct H3 as [-> G2].
  exists a1, r1, a3. auto.
Qed.
Lemma tag_inv : forall t s r a, tag t s = POk r a -> s = t ++ r /\ a = t.
Proof.
  intros t s r a H. unfold tag in H. destruct (strip_prefix t s) eqn:E; [ | discriminate ].
  injection H as <- <-. split; auto. now apply strip_prefix_suffix.
Qed.
Lemma recognize_inv : forall A (p : Parser A) s r t,
  (forall r a, p s = POk r a -> is_suffix r s) -> recognize p s = POk r t -> s = t ++ r.
Proof.
  intros A p s r t Hs H. unfold recognize in H. destruct (p s) eqn:E; try discriminate.
  injection H as <- <-. apply consumed_suffix. eapply Hs. reflexivity.
Qed.
Lemma good_suffix : forall A k (p : Parser A), (forall n, good k n p) ->
  forall s r a, p s = POk r a -> is_suffix r s.
Proof.
  intros A k p H s r a E. specialize (H (S (String.length s)) s ltac:(lia)). rewrite E in H. tauto.
Qed.
Lemma token_inv : forall s r t, token s = POk r t -> s = t ++ r.
Proof. intros s r t. exact (token_of_text _ s r t). Qed.
Lemma macro_arg_inv : forall n s r a, macro_arg (level n) s = POk r a ->
  exists t, s = t ++ r /\ arg_text a t.
Proof.
  intros n s r a H. unfold macro_arg, pair_ in H. apply bind_ok in H. destruct H as (r1 & o & H1 & H).
  apply bind_ok in H. destruct H as (r2 & v & H2 & H). injection H as <- <-.
  apply recognize_inv in H2; [ | intros r a; apply expr_suffix ].
  unfold opt in H1. destruct (terminated token (tag "=") s) as [r3 nm| | |] eqn:E; try discriminate; injection H1 as <- <-.
  - unfold terminated in E. apply bind_ok in E. destruct E as (r4 & a4 & E1 & E).
    apply bind_ok in E. destruct E as (r5 & a5 & E2 & E). injection E as <- <-.
    apply token_inv in E1. apply tag_inv in E2. destruct E2 as [-> _]. subst.
    exists (a4 ++ "=" ++ v). rewrite !append_assoc_s. split; [ reflexivity | constructor ].
  - subst. exists v. split; [ reflexivity | constructor ].
Qed.
Lemma sep_args_inv : forall n fuel s r l, sep_go (ws (tag ",")) (macro_arg (level n)) fuel s = POk r l ->
  forall a t, arg_text a t -> exists u, t ++ s = u ++ r /\ args_text (a :: l) u.
Proof.
  intros n. induction fuel as [|fuel IH]; intros s r l H a t Ha; [ discriminate | ]. cbn [sep_go] in H.
  destruct (ws (tag ",") s) as [r1 b| | |] eqn:E; try discriminate.
  2:{ injection H as <- <-. exists t. split; auto. now constructor. }
  destruct (Nat.eqb _ _); [ discriminate | ].
  destruct (macro_arg (level n) r1) as [r2 a2| | |] eqn:E2; try discriminate.
  2:{ injection H as <- <-. exists t. split; auto. now constructor. }
  destruct (sep_go _ _ fuel r2) as [r3 l3| | |] eqn:E3; try discriminate. injection H as <- <-.
  apply ws_inv in E. destruct E as (b1 & s1 & b2 & G1 & G2 & -> & E). apply tag_inv in E. destruct E as [-> _].
  apply macro_arg_inv in E2. destruct E2 as (t2 & -> & Ha2).
  destruct (IH _ _ _ E3 _ _ Ha2) as (u & Eu & Hu).
  exists (t ++ b1 ++ "," ++ b2 ++ u). split; [ | now constructor ].
  rewrite !append_assoc_s. now rewrite Eu.
Qed.
Lemma macro_call_inv : forall n s r c, macro_call (level n) s = POk r c ->
  exists t, s = tick ++ t ++ tick ++ r /\ call_text c t.
Proof.
  intros n s r c H. unfold macro_call, delimited in H.
  apply bind_ok in H. destruct H as (r1 & a1 & H1 & H).
  apply bind_ok in H. destruct H as (r2 & a2 & H2 & H).
  apply bind_ok in H. destruct H as (r3 & a3 & H3 & H). injection H as <- <-.
  apply tag_inv in H1. destruct H1 as [-> _]. apply tag_inv in H3. destruct H3 as [-> _].
  change bt with tick in *.
  apply ws_inv in H2. destruct H2 as (b1 & s1 & b5 & G1 & G5 & -> & H2).
  apply bind_ok in H2. destruct H2 as (r4 & nm & H4 & H2).
  apply bind_ok in H2. destruct H2 as (r5 & args & H5 & H2). injection H2 as E <-. subst r5.
  apply ws_inv in H4. destruct H4 as (b1' & s2 & b2 & G1' & G2 & -> & H4). apply token_inv in H4. subst s2.
  assert (G0 : gap (b1 ++ b1')) by (apply all_chars_app; auto).
  unfold opt in H5. destruct (macro_args (level n) r4) as [r6 l| | |] eqn:E; try discriminate; injection H5 as -> <-.
  - unfold macro_args, delimited in E.
    apply bind_ok in E. destruct E as (r7 & a7 & E7 & E).
    apply bind_ok in E. destruct E as (r8 & a8 & E8 & E).
    apply bind_ok in E. destruct E as (r9 & a9 & E9 & E). injection E as -> ->.
    apply ws_inv in E7. destruct E7 as (b2' & s3 & b3 & G2' & G3 & -> & E7). apply tag_inv in E7. destruct E7 as [-> _].
    apply ws_inv in E9. destruct E9 as (b4 & s4 & b4' & G4 & G4' & -> & E9). apply tag_inv in E9. destruct E9 as [-> _].
    assert (G20 : gap (b2 ++ b2')) by (apply all_chars_app; auto).
    assert (G50 : gap (b4' ++ b5)) by (apply all_chars_app; auto).
    unfold separated_list0 in E8. cbn [or_default].
    destruct (macro_arg (level n) r7) as [r10 a10| | |] eqn:E10; try discriminate.
    + destruct (sep_go _ _ _ r10) as [r11 l11| | |] eqn:E11; try discriminate. injection E8 as -> <-.
      apply macro_arg_inv in E10. destruct E10 as (t & -> & Ht).
      destruct (sep_args_inv _ _ _ _ _ E11 _ _ Ht) as (u & Eu & Hu).
      exists ((b1 ++ b1') ++ nm ++ (b2 ++ b2') ++ "(" ++ b3 ++ u ++ b4 ++ ")" ++ (b4' ++ b5)). split.
      * rewrite Eu. rewrite !append_assoc_s. reflexivity.
      * now constructor.
    + injection E8 as -> <-.
      assert (G34 : gap (b3 ++ b4)) by (apply all_chars_app; auto).
      exists ((b1 ++ b1') ++ nm ++ (b2 ++ b2') ++ "(" ++ (b3 ++ b4) ++ ")" ++ (b4' ++ b5)). split.
      * rewrite !append_assoc_s. reflexivity.
      * now constructor.
  - assert (G25 : gap (b2 ++ b5)) by (apply all_chars_app; auto).
    exists ((b1 ++ b1') ++ nm ++ (b2 ++ b5)). split; [ | now constructor ].
    rewrite !append_assoc_s. reflexivity.
Qed.
Lemma take_until_inv : forall c s r a, take_until_char c s = POk r a ->
  s = a ++ r /\ all_chars (fun d => d <> c) a.
Proof.
  intros c s r a H. unfold take_until_char in H.
  assert (K : forall s, all_chars (fun d => d <> c) (fst (span (fun d => negb (Ascii.eqb c d)) s))).
  { clear. induction s as [|d s IH]; cbn; auto. destruct (Ascii.eqb_spec c d) as [->|Hn]; cbn; auto.
    destruct (span _ s); cbn in *. split; auto. }
  specialize (K s). destruct (span _ s) as [x y] eqn:E. apply span_append in E. destruct y; [ discriminate | ].
  injection H as <- <-. auto.
Qed.
Lemma chunks_inv : forall n fuel s r l,
  many0_go (pair_ (take_until_char backtick) (macro_call (level n))) fuel s = POk r l ->
  spells l r s /\ Forall (fun pc => no_tick (fst pc)) l.
Proof.
  intros n. induction fuel as [|fuel IH]; intros s r l H; [ discriminate | ]. cbn [many0_go] in H.
  destruct (pair_ _ _ s) as [r1 a| | |] eqn:E; try discriminate.
  2:{ injection H as <- <-. split; constructor. }
  destruct (Nat.eqb _ _); [ discriminate | ].
  destruct (many0_go _ fuel r1) as [r2 l2| | |] eqn:E2; try discriminate. injection H as <- <-.
  unfold pair_ in E. apply bind_ok in E. destruct E as (r3 & p & E3 & E).
  apply bind_ok in E. destruct E as (r4 & c & E4 & E). injection E as <- <-.
  apply take_until_inv in E3. destruct E3 as [-> Hp]. apply macro_call_inv in E4. destruct E4 as (t & -> & Hc).
  destruct (IH _ _ _ E2) as [H1 H2]. split; [ now constructor | now constructor ].
Qed.
Lemma none_of_tick : forall fuel s r l, many0_go (none_of bt) fuel s = POk r l -> r = EmptyString -> no_tick s.
Proof.
  induction fuel as [|fuel IH]; intros s r l H Hr; [ discriminate | ]. cbn [many0_go] in H.
  destruct s as [|c s]; [ exact I | ]. unfold none_of, satisfy in H.
  destruct (negb (has_char c bt)) eqn:E.
  - destruct (Nat.eqb _ _); [ discriminate | ].
    destruct (many0_go _ fuel s) as [r2 l2| | |] eqn:E2; try discriminate. injection H as <- <-. split; [ | exact (IH _ _ _ E2 Hr) ].
    intros ->. discriminate.
  - injection H as <- <-. discriminate.
Qed.
Lemma detect_sound : forall s l suffix, detect_macros s = Some (Ok (l, suffix)) ->
  spells l suffix s /\ Forall (fun pc => no_tick (fst pc)) l /\ no_tick suffix.
Proof.
  intros s l suffix H. unfold detect_macros in H. destruct (spl_macros _ s) as [[|c r] a| | |] eqn:E; try discriminate.
  injection H as ->. unfold spl_macros, all_consuming in E. apply bind_ok in E. destruct E as (r1 & a & E & E').
  apply bind_ok in E'. destruct E' as (r2 & b & E2 & E'). injection E' as -> ->.
  unfold eof in E2. destruct r1; [ | discriminate ]. clear E2.
  unfold pair_ in E. apply bind_ok in E. destruct E as (r3 & l3 & E3 & E).
  apply bind_ok in E. destruct E as (r4 & t & E4 & E). injection E as -> -> ->.
  unfold many0 in E3. apply chunks_inv in E3. destruct E3 as [H1 H2].
  assert (N : no_tick r3).
  { unfold recognize in E4. destruct (many0 (none_of bt) r3) eqn:E5; try discriminate. injection E4 as -> _.
    unfold many0 in E5. now apply none_of_tick in E5. }
  apply recognize_inv in E4.
  - rewrite append_nil_r in E4. subst r3. auto.
  - apply (good_suffix _ false). intro k. eapply good_many0. apply good_satisfy.
Qed.

(** ** What is spelled is detected *)
Lemma ple_macro_call : forall R R', ple_recs R R' -> ple (macro_call R) (macro_call R').
Proof.
  intros R R' H. unfold macro_call, delimited, ws, delimited. apply ple_bind; [ apply ple_refl | intro ].
  apply ple_bind; [ | intro; apply ple_refl ]. apply ple_bind; [ apply ple_refl | intro ].
  apply ple_bind; [ | intro; apply ple_refl ]. apply ple_bind; [ apply ple_refl | intro ].
  apply ple_bind; [ | intro; apply ple_refl ]. apply ple_opt. unfold macro_args, delimited.
  apply ple_bind; [ apply ple_refl | intro ]. apply ple_bind; [ | intro; apply ple_refl ].
  apply ple_separated_list0. unfold macro_arg, pair_. apply ple_bind; [ apply ple_refl | intro ].
  apply ple_bind; [ | intro; apply ple_refl ]. apply ple_recognize. now apply ple_expr.
Qed.
Lemma ple_spl_macros : forall R R', ple_recs R R' -> ple (spl_macros R) (spl_macros R').
Proof.
  intros R R' H. unfold spl_macros, all_consuming. apply ple_bind; [ | intro; apply ple_refl ].
  unfold pair_. apply ple_bind; [ | intro; apply ple_refl ]. apply ple_many0.
  apply ple_bind; [ apply ple_refl | intro ]. apply ple_bind; [ | intro; apply ple_refl ].
  now apply ple_macro_call.
Qed.
Lemma spl_macros_fuel : forall n m s, String.length s <= n -> String.length s <= m ->
  spl_macros (level n) s = spl_macros (level m) s.
Proof.
  intros n m s Hn Hm. destruct (Nat.le_ge_cases n m) as [H|H].
  - apply (enough_fuel _ _ _ false (S n)); [ | apply good_spl_macros, good_level | lia ].
    apply ple_spl_macros, ple_level, H.
  - symmetry. apply (enough_fuel _ _ _ false (S m)); [ | apply good_spl_macros, good_level | lia ].
    apply ple_spl_macros, ple_level, H.
Qed.

Definition closer (c : ascii) : Prop := c = ","%char \/ c = ")"%char.
Definition not_eq_head (s : string) : Prop := match s with String c _ => c <> "="%char | _ => True end.
Lemma gap_cases : forall b, gap b -> b = "" \/ exists c b', b = String c b' /\
  (c = ascii_of_nat 32 \/ c = ascii_of_nat 9 \/ c = ascii_of_nat 10 \/ c = ascii_of_nat 13).
Proof.
  intros [|c b] H; auto. right. destruct (blanks_head (String c b)) as (d & b' & E & _ & Hd).
  - split; [ discriminate | exact H ].
  - injection E as -> ->. eauto.
Qed.
Lemma gap_closed : forall b c r, gap b -> closer c ->
  closed (b ++ String c r) /\ op9 (b ++ String c r) = PErr /\ not_eq_head (b ++ String c r).
Proof.
  intros b c r Hb Hc. pose proof (proj2 (gap_space b) Hb) as Hs.
  assert (W : forall A (p : Parser A), ws p (String c r) = PErr -> ws p (b ++ String c r) = PErr).
  { intros A p H. now rewrite ws_skip. }
  split; [ | split ].
  - split; [ split; [ | split ] | ].
    + destruct (gap_cases b Hb) as [->|(d & b' & -> & [-> | [-> | [-> | ->]]])];
        [ destruct Hc as [-> | ->] | .. ]; split; reflexivity.
    + destruct (gap_cases b Hb) as [->|(d & b' & -> & [-> | [-> | [-> | ->]]])];
        [ destruct Hc as [-> | ->] | .. ]; discriminate.
    + apply W. destruct Hc as [-> | ->]; reflexivity.
    + repeat split; apply W; destruct Hc as [-> | ->]; reflexivity.
  - apply W. destruct Hc as [-> | ->]; reflexivity.
  - destruct (gap_cases b Hb) as [->|(d & b' & -> & [-> | [-> | [-> | ->]]])];
        [ destruct Hc as [-> | ->] | .. ]; discriminate.
Qed.
Lemma tag_eq_err : forall s, not_eq_head s -> tag "=" s = PErr.
Proof.
  intros [|c s] H; [ reflexivity | ]. apply tag1_err. destruct (Ascii.eqb_spec "="%char c); congruence.
Qed.
Definition word_chars (v : string) : Prop := all_chars word_char v.
Lemma name_words : forall w, all_chars name_char w -> word_chars w.
Proof. intros w. apply all_chars_impl. unfold word_char. tauto. Qed.
Lemma numeral_words : forall m d, digits d -> word_chars (numeral m d).
Proof.
  intros m d [_ H]. assert (word_chars d) as W.
  { revert H. clear. induction d as [|c d IH]; cbn; auto. intro H. apply andb_true_iff in H. destruct H as [H1 H2]. split; [ | now apply IH ].
    left. right. left. now apply is_digit_spec. }
  destruct m; [ | exact W ]. split; [ right; cbn; tauto | exact W ].
Qed.
Lemma written_eq : forall k t v, writes k t v -> wf t -> forall rest, tok_end lit_specials rest \/ closes v ->
  terminated token (tag "=") (v ++ rest) = PErr \/ word_chars v /\ ~ not_eq_head rest \/ named_like v.
Proof.
  assert (D : forall rest, {not_eq_head rest} + {~ not_eq_head rest}).
  { intros [|c r]; [ left; exact I | ]. cbn. destruct (Ascii.ascii_dec c "="%char); [ right | left ]; tauto. }
  assert (X : forall sl t, named_like sl -> named_like (sl ++ t)).
  { intros sl t (n & x & -> & H). exists n, (x ++ t). split; auto. now rewrite !append_assoc_s. }
  intros k t v H. induction H; intros Hw rest Ht; auto.
  - destruct Ht as [Ht|Ht]; [ | now destruct (field_open f Hw) ]. unfold terminated. destruct (D rest) as [He|He].
    + left. apply token_then_err; auto; intros; unfold p_bind; now rewrite tag_eq_err.
    + cbn in Hw. destruct Hw as [f Hw|f n Hw Hn].
      * right. left. split; auto. now apply fword_chars.
      * left. rewrite append_assoc_s. unfold p_bind. rewrite token_word; auto. split; reflexivity.
  - destruct Ht as [Ht|Ht]; [ | now destruct (int_open z) ]. destruct (decimal_numeral z) as (m & d & E & Hd & _). rewrite E. destruct (D rest) as [He|He].
    + left. unfold terminated, p_bind. rewrite token_numeral by auto. now rewrite tag_eq_err.
    + right. left. split; auto. now apply numeral_words.
  - left. cbn in Hw. destruct (fraction_parts t Hw) as (m & d & e & -> & Hd & He & _). rewrite append_assoc_s. unfold terminated, p_bind.
    change token with (token_of tok_specials). rewrite token_of_read;
      [ | destruct (numeral_head m d Hd) as (? & ? & -> & _); discriminate | now apply numeral_tok | apply dot_end ].
    rewrite numeral_not_reserved by exact Hd. reflexivity.
  - destruct Hw as [Hn _]. left. rewrite !append_assoc_s. unfold terminated, p_bind.
    rewrite token_ident; auto. split; reflexivity.
  - left. rewrite !append_assoc_s. unfold terminated, p_bind. change token with (token_of tok_specials).
    rewrite token_of_read; [ reflexivity | discriminate | reflexivity | ].
    destruct (blanks_head b H) as (c & b' & -> & _ & [-> | [-> | [-> | ->]]]); split; reflexivity.
  - destruct Hw as [Hl Hr].
    replace ((sl ++ b1 ++ op_text o ++ b2 ++ sr) ++ rest) with (sl ++ infix b1 o b2 (sr ++ rest))
      by (unfold infix; now rewrite !append_assoc_s).
    destruct (IHwrites1 Hl (infix b1 o b2 (sr ++ rest))) as [Y|[[Y Z]|Y]]; auto.
    + left. exact (proj1 (ends_infix _ _ _ _ H H0)).
    + exfalso. apply Z. unfold infix. destruct (blanks_head b1 H) as (c & b' & -> & _ & [-> | [-> | [-> | ->]]]); discriminate.
  - destruct Hw as [Hl Hr].
    replace ((sl ++ b1 ++ op_text o ++ b2 ++ sr) ++ rest) with (sl ++ infix b1 o b2 (sr ++ rest))
      by (unfold infix; now rewrite !append_assoc_s).
    destruct (IHwrites1 Hl (infix b1 o b2 (sr ++ rest))) as [Y|[[Y Z]|Y]]; auto.
    + destruct (tight_infix _ _ _ _ (sr ++ rest) H) as [_ [[E _]|E]]; auto.
    + right. right. destruct H as (H & _). destruct b1 as [|c b1].
      * destruct o; try discriminate; unfold infix in Z; cbn in Z; try (exfalso; apply Z; discriminate).
        -- exists sl, ("=" ++ b2 ++ sr). split; auto.
        -- exists sl, (b2 ++ sr). split; auto.
      * exfalso. apply Z. unfold infix. cbn. intros ->. destruct H as [H _]. apply is_space_spec in H. discriminate.
Qed.
Lemma written_no_eq : forall k t v, writes k t v -> wf t -> ~ named_like v -> forall rest,
  tok_end lit_specials rest -> not_eq_head rest -> terminated token (tag "=") (v ++ rest) = PErr.
Proof.
  intros k t v H Hw Hn rest Ht He. destruct (written_eq _ _ _ H Hw rest (or_introl Ht)) as [Y|[[_ Y]|Y]]; auto; contradiction.
Qed.
Lemma arg_stops : forall a t, arg_text a t -> plain_arg a -> forall x, stops is_space (t ++ x).
Proof.
  intros a t H [Hn (tr & Hw & Ht)] x. destruct H; cbn [fst snd] in *.
  - exact (et_stops _ _ _ (written_reads _ _ _ Ht Hw) x).
  - destruct (ident_chars n Hn) as [Hne Hc]. destruct n as [|c n]; [ congruence | ].
    destruct Hc as [Hc _]. cbn. now apply name_char_facts.
Qed.
Lemma arg_reads : forall a t rest, arg_text a t -> plain_arg a -> closed rest -> op9 rest = PErr ->
  not_eq_head rest -> reads macro_arg (t ++ rest) rest a.
Proof.
  intros a t rest H [Hn (tr & Hw & Ht)] Hc H9 He. pose proof (written_reads _ _ _ Ht Hw) as W.
  pose proof Hc as ((T & _) & _).
  destruct (ex_reads _ _ W rest Hc H9) as [n E]. exists n. intros m Hm. specialize (E m Hm).
  unfold macro_arg, pair_, p_bind. destruct H; cbn [fst snd] in *.
  - unfold opt. rewrite (written_no_eq _ _ _ Ht Hw Hn rest T He). unfold recognize. rewrite E.
    rewrite consumed_app. reflexivity.
  - rewrite !append_assoc_s. unfold opt, terminated, p_bind.
    rewrite token_ident by (auto; split; reflexivity).
    change (tag "=" ("=" ++ v ++ rest)) with (POk (v ++ rest) "=").
    cbn iota beta. unfold p_ret at 1. unfold recognize. rewrite E.
    rewrite consumed_app. reflexivity.
Qed.
Lemma comma_reads : forall b1 b2 x, gap b1 -> gap b2 -> stops is_space x ->
  ws (tag ",") (b1 ++ "," ++ b2 ++ x) = POk x ",".
Proof.
  intros b1 b2 x H1 H2 Hx. rewrite ws_skip by now apply gap_space.
  rewrite (ws_ok _ (tag ",") _ (b2 ++ x) ","); [ | reflexivity ].
  f_equal. apply skip_blanks; auto. now apply gap_space.
Qed.
Lemma args_read : forall l u, args_text l u -> Forall plain_arg l -> forall b r, gap b ->
  let rest := b ++ ")" ++ r in
  exists a l', l = a :: l' /\ (forall x, stops is_space (u ++ x)) /\
  exists n r1, forall m, n <= m ->
    macro_arg (level m) (u ++ rest) = POk r1 a /\
    forall fuel, String.length r1 < fuel ->
      sep_go (ws (tag ",")) (macro_arg (level m)) fuel r1 = POk rest l'.
Proof.
  intros l u H. induction H as [a t Ha | a t l u b1 b2 Ha G1 G2 Hl IH]; intros F b r Gb rest; inversion F; subst.
  - exists a, []. split; auto. split; [ now apply (arg_stops a) | ].
    destruct (gap_closed b ")" r Gb (or_intror eq_refl)) as (C1 & C2 & C3).
    destruct (arg_reads a t rest Ha H1 C1 C2 C3) as [n E]. exists n, rest. intros m Hm.
    split; [ exact (E m Hm) | ]. intros [|fuel] Hf; [ lia | ]. cbn [sep_go].
    subst rest. rewrite ws_skip by now apply gap_space. reflexivity.
  - destruct (IH H2 b r Gb) as (a' & l' & -> & St & n & r1 & E).
    exists a, (a' :: l'). split; auto. split.
    { intro x. rewrite append_assoc_s. now apply (arg_stops a). }
    set (r0 := b1 ++ "," ++ b2 ++ u ++ rest).
    destruct (gap_closed b1 "," (b2 ++ u ++ rest) G1 (or_introl eq_refl)) as (C1 & C2 & C3).
    destruct (arg_reads a t r0 Ha H1 C1 C2 C3) as [n' E']. exists (max n n'), r0. intros m Hm.
    destruct (E m ltac:(lia)) as [E1 E2].
    split; [ rewrite !append_assoc_s; apply (E' m); lia | ].
    intros [|fuel] Hf; [ lia | ]. cbn [sep_go].
    assert (ws (tag ",") r0 = POk (u ++ rest) ",") as -> by (apply comma_reads; auto).
    destruct (Nat.eqb_spec (String.length (u ++ rest)) (String.length r0)) as [X|_].
    { subst r0. rewrite !length_append in X. cbn in X. lia. }
    subst rest. rewrite E1. rewrite E2; [ reflexivity | ].
    assert (is_suffix r1 (u ++ b ++ ")" ++ r)) as S1.
    { revert E1. unfold macro_arg. intro E1. eapply (macro_arg_inv m) in E1. destruct E1 as (t1 & -> & _). now exists t1. }
    apply suffix_length in S1. subst r0. rewrite !length_append in *. cbn in *. rewrite ?length_append in *. lia.
Qed.
Lemma tick_stops : forall x, stops is_space (tick ++ x).
Proof. reflexivity. Qed.
Lemma no_expr_paren : forall m r, expr (level (S (S m))) (String ")" r) = PErr.
Proof. intros m r. reflexivity. Qed.
Lemma ws_ident : forall b2 n x, gap b2 -> plain_ident n -> stops is_space x ->
  tok_end lit_specials (b2 ++ x) -> ws token (n ++ b2 ++ x) = POk x n.
Proof.
  intros b2 n x G2 Hi Hx Ht.
  assert (stops is_space (n ++ b2 ++ x)) as Hs.
  { destruct (ident_chars n Hi) as [Hne Hc]. destruct n as [|d n]; [ congruence | ].
    destruct Hc as [Hc _]. cbn. now apply name_char_facts. }
  rewrite (ws_ok _ token _ (b2 ++ x) n).
  - f_equal. apply skip_blanks; auto. now apply gap_space.
  - rewrite skip_stops by auto. apply token_ident; auto.
Qed.
Lemma gap_tok_end : forall b d x, gap b -> tok_end lit_specials (String d x) -> tok_end lit_specials (b ++ String d x).
Proof.
  intros b d x G Hd. destruct (gap_cases b G) as [->|(e & b' & -> & [-> | [-> | [-> | ->]]])]; auto; split; reflexivity.
Qed.
Lemma ws_tag1 : forall c b x, is_space c = false -> gap b -> stops is_space x ->
  ws (tag (String c "")) (String c (b ++ x)) = POk x (String c "").
Proof.
  intros c b x Hc Hb Hx. rewrite (ws_ok _ _ _ (b ++ x) (String c "")).
  - f_equal. apply skip_blanks; auto. now apply gap_space.
  - rewrite skip_stops by exact Hc. unfold tag. cbn [strip_prefix]. now rewrite Ascii.eqb_refl.
Qed.
Lemma ident_stops : forall n x, plain_ident n -> stops is_space (n ++ x).
Proof.
  intros n x Hi. destruct (ident_chars n Hi) as [Hne Hc]. destruct n as [|d n]; [ congruence | ].
  destruct Hc as [Hc _]. cbn. now apply name_char_facts.
Qed.
Lemma call_reads : forall c t r, call_text c t -> plain_call c ->
  reads macro_call (tick ++ t ++ tick ++ r) r c.
Proof.
  intros c t r H [Hn Ha].
  assert (P : forall b1 s1, gap b1 -> stops is_space s1 ->
            reads (fun R => P: name <- ws token; P: args <- opt (macro_args R);
                            p_ret (mkMacroCall name (or_default [] args))) s1 (tick ++ r) c ->
            reads macro_call (tick ++ b1 ++ s1) r c).
  { intros b1 s1 G1 Hs [n E]. exists n. intros m Hm. unfold macro_call, delimited, p_bind at 1.
    change (tag bt (tick ++ b1 ++ s1)) with (POk (b1 ++ s1) bt). cbn iota beta. unfold p_bind at 1.
    rewrite ws_skip by now apply gap_space. specialize (E m Hm).
    rewrite (ws_ok _ _ _ (tick ++ r) c).
    - reflexivity.
    - rewrite skip_stops by auto. exact E. }
  destruct H as [n b1 b2 G1 G2 | n b1 b2 b3 b4 G1 G2 G3 G4 | n l u b1 b2 b3 b4 b5 G1 G2 G3 G4 G5 Hl];
    cbn [mc_name mc_args] in *; rewrite !append_assoc_s; apply P; auto using ident_stops; clear P.
  - exists 0. intros m _. unfold p_bind at 1.
    rewrite ws_ident; auto; try (apply gap_tok_end; auto; split; reflexivity); try reflexivity.
  - exists 2. intros m Hm. destruct m as [|[|m]]; [ lia | lia | ]. unfold p_bind at 1.
    change ("(" ++ b3 ++ ")" ++ b4 ++ tick ++ r) with (String "(" (b3 ++ ")" ++ b4 ++ tick ++ r)).
    rewrite ws_ident; auto; try (apply gap_tok_end; auto; split; reflexivity); try reflexivity.
    unfold p_bind at 1, opt, macro_args, delimited, p_bind at 1.
    rewrite ws_tag1; auto; try reflexivity. unfold p_bind at 1.
    unfold separated_list0.
    change (")" ++ b4 ++ tick ++ r) with (String ")" (b4 ++ tick ++ r)).
    assert (macro_arg (level (S (S m))) (String ")" (b4 ++ tick ++ r)) = PErr) as ->.
    { reflexivity. }
    unfold p_bind. rewrite ws_tag1; auto. reflexivity.
  - destruct (args_read l u Hl Ha b4 (b5 ++ tick ++ r) G4) as (a & l' & -> & St & k & r1 & E).
    exists k. intros m Hm. destruct (E m Hm) as [E1 E2]. unfold p_bind at 1.
    set (x := u ++ b4 ++ ")" ++ b5 ++ tick ++ r) in *.
    change ("(" ++ b3 ++ x) with (String "(" (b3 ++ x)).
    rewrite ws_ident; auto; try (apply gap_tok_end; auto; split; reflexivity); try reflexivity.
    unfold p_bind at 1, opt, macro_args, delimited, p_bind at 1.
    rewrite ws_tag1; auto; try (unfold x; apply St). unfold p_bind at 1.
    unfold separated_list0. fold x in E1. rewrite E1.
    rewrite E2 by lia. unfold p_bind.
    rewrite ws_skip by now apply gap_space.
    change (")" ++ b5 ++ tick ++ r) with (String ")" (b5 ++ tick ++ r)).
    rewrite ws_tag1; auto. reflexivity.
Qed.
Lemma take_until_read : forall p x, no_tick p -> take_until_char backtick (p ++ tick ++ x) = POk (tick ++ x) p.
Proof.
  intros p x H. unfold take_until_char.
  assert (E : span (fun d => negb (Ascii.eqb backtick d)) (p ++ tick ++ x) = (p, tick ++ x)).
  { induction p as [|c p IH]; [ reflexivity | ]. destruct H as [Hc H].
    change ((String c p ++ tick ++ x)) with (String c (p ++ tick ++ x)). cbn [span].
    destruct (Ascii.eqb_spec backtick c) as [X|_]; [ exfalso; apply Hc; now rewrite <- X | ].
    cbn [negb]. now rewrite IH. }
  rewrite E. reflexivity.
Qed.
Lemma take_until_none : forall p, no_tick p -> take_until_char backtick p = PErr.
Proof.
  intros p H. unfold take_until_char.
  assert (E : span (fun d => negb (Ascii.eqb backtick d)) p = (p, "")).
  { induction p as [|c p IH]; [ reflexivity | ]. destruct H as [Hc H]. cbn [span].
    destruct (Ascii.eqb_spec backtick c) as [X|_]; [ exfalso; apply Hc; now rewrite <- X | ].
    cbn [negb]. now rewrite IH. }
  now rewrite E.
Qed.
Lemma none_of_all : forall s fuel, no_tick s -> String.length s < fuel ->
  exists l, many0_go (none_of bt) fuel s = POk "" l.
Proof.
  induction s as [|c s IH]; intros [|fuel] H Hf; cbn [String.length] in Hf; try lia.
  - exists []. reflexivity.
  - destruct H as [Hc H]. destruct (IH fuel H ltac:(lia)) as [l E]. exists (c :: l). cbn [many0_go].
    assert (none_of bt (String c s) = POk s c) as ->.
    { unfold none_of, satisfy. 
      assert (has_char c bt = false) as ->; [ | reflexivity ].
      change (has_char c bt) with (negb (negb (c =? "`")%char && true))%bool.
      destruct (Ascii.eqb_spec c "`"); [ contradiction | reflexivity ]. }
    cbn [String.length]. destruct (Nat.eqb_spec (String.length s) (S (String.length s))); [ lia | ].
    now rewrite E.
Qed.
Lemma chunks_read : forall l suffix s, spells l suffix s -> Forall (fun pc => no_tick (fst pc)) l ->
  no_tick suffix -> Forall (fun pc => plain_call (snd pc)) l ->
  exists n, forall m, n <= m -> forall fuel, String.length s < fuel ->
    many0_go (pair_ (take_until_char backtick) (macro_call (level m))) fuel s = POk suffix l.
Proof.
  intros l suffix s H. induction H as [suffix | piece c t l suffix s Hc Hs IH]; intros F1 F2 F3.
  - exists 0. intros m _ [|fuel] Hf; [ lia | ]. cbn [many0_go]. unfold pair_, p_bind.
    now rewrite take_until_none.
  - inversion F1; subst. inversion F3; subst. cbn [fst snd] in *.
    destruct (IH H2 F2 H4) as [n E]. destruct (call_reads c t s Hc H3) as [n' E'].
    exists (max n n'). intros m Hm [|fuel] Hf; [ lia | ]. cbn [many0_go].
    unfold pair_ at 1, p_bind. rewrite take_until_read by auto. rewrite (E' m) by lia. unfold p_ret.
    rewrite !length_append in *. change (String.length tick) with 1 in *.
    destruct (Nat.eqb_spec (String.length s) (String.length piece + (1 + (String.length t + (1 + String.length s))))); [ lia | ].
    rewrite (E m) by lia. reflexivity.
Qed.
Lemma detect_complete : forall l suffix s, spells l suffix s -> Forall (fun pc => no_tick (fst pc)) l ->
  no_tick suffix -> Forall (fun pc => plain_call (snd pc)) l ->
  detect_macros s = Some (Ok (l, suffix)).
Proof.
  intros l suffix s H F1 F2 F3. destruct (chunks_read l suffix s H F1 F2 F3) as [n E].
  unfold detect_macros.
  rewrite (spl_macros_fuel _ (max n (String.length s))) by lia.
  unfold spl_macros, all_consuming, pair_, p_bind, many0.
  rewrite (E (max n (String.length s))) by lia. unfold recognize.
  destruct (none_of_all suffix (S (String.length suffix)) F2 ltac:(lia)) as [k ->].
  unfold p_ret. rewrite consumed_all.
  reflexivity.
Qed.
