(** Reserved words, options and quoted sub-searches. *)
From Coq Require Import Lia Nnat.
From Verif Require Import Str SplAst Nom Lexer Parser CmdParser ParserFacts ParserTotal ParserFuel.
From Verif Require Import SpecText LexFacts TokenFacts.

(** ** Reserved words (C05) *)
Lemma same_word_lower : forall s t, same_word s t <-> lower s = lower t.
Proof.
  split.
  - induction 1 as [|c d s t H _ IH]; cbn; auto. apply lower_c_same in H. unfold lower in IH. congruence.
  - revert t. induction s as [|c s IH]; destruct t as [|d t]; cbn; intro H; try discriminate; [ constructor | ].
    injection H as H1 H2. constructor; [ now apply lower_c_same | now apply IH ].
Qed.
Lemma is_lower_spec : forall c, is_lower c = true <-> 97 <= nat_of_ascii c <= 122.
Proof. intro c. unfold is_lower. rewrite between_spec. cbn. lia. Qed.
Lemma upper_c_code : forall c, nat_of_ascii (upper_c c)
  = if is_lower c then nat_of_ascii c - 32 else nat_of_ascii c.
Proof.
  intro c. unfold upper_c. destruct (is_lower c) eqn:E; auto.
  apply is_lower_spec in E. unfold nat_of_ascii at 1. rewrite N_ascii_embedding.
  - rewrite code_nat. lia.
  - rewrite code_nat. lia.
Qed.
Lemma upper_c_same : forall c d, same_letter c d -> upper_c c = upper_c d.
Proof.
  intros c d H. apply nat_of_ascii_inj. rewrite !upper_c_code.
  pose proof (is_lower_spec c) as Lc. pose proof (is_lower_spec d) as Ld.
  destruct H as [->|H]; auto.
  destruct (is_lower c), (is_lower d); intuition lia.
Qed.
Lemma same_word_upper : forall s t, same_word s t -> upper s = upper t.
Proof. induction 1 as [|c d s t H _ IH]; cbn; auto. apply upper_c_same in H. unfold upper in IH. congruence. Qed.
Lemma reserved_upper : forall w, In w spl_reserved -> upper w = w.
Proof. intros w H. cbn in H. repeat (destruct H as [<-|H]; [ reflexivity | ]). destruct H. Qed.
Lemma not_reserved : forall t, is_not_reserved_word t = true -> ~ is_reserved t.
Proof.
  intros t H (w & Hin & Hw). unfold is_not_reserved_word in H. rewrite negb_true_iff in H.
  apply not_true_iff_false in H. apply H. apply existsb_exists. exists w. split; [ exact Hin | ].
  apply String.eqb_eq. rewrite (same_word_upper t w Hw). now apply reserved_upper.
Qed.

Lemma bind_ok : forall A B (p : Parser A) (f : A -> Parser B) s r b,
  p_bind p f s = POk r b -> exists r1 a, p s = POk r1 a /\ f a r1 = POk r b.
Proof. intros A B p f s r b H. unfold p_bind in H. destruct (p s); try discriminate. eauto. Qed.
Lemma or_inv : forall A (p q : Parser A) s r a,
  (p <|> q) s = POk r a -> p s = POk r a \/ q s = POk r a.
Proof. intros A p q s r a H. unfold p_or in H. destruct (p s); auto; discriminate. Qed.
Lemma verify_ok : forall A (p : Parser A) f s r a,
  verify p f s = POk r a -> p s = POk r a /\ f a = true.
Proof.
  intros A p f s r a H. apply bind_ok in H. destruct H as (r1 & a1 & H1 & H2).
  destruct (f a1) eqn:E; [ | discriminate ]. injection H2 as <- <-. auto.
Qed.
Lemma map_ok : forall A B (f : A -> B) p s r b,
  p_map f p s = POk r b -> exists a, p s = POk r a /\ b = f a.
Proof.
  intros A B f p s r b H. apply bind_ok in H. destruct H as (r1 & a1 & H1 & H2).
  injection H2 as <- <-. eauto.
Qed.
Lemma recognize_ok : forall A (p : Parser A) s r t,
  recognize p s = POk r t -> exists a, p s = POk r a /\ t = consumed s r.
Proof.
  intros A p s r t H. unfold recognize in H. destruct (p s); try discriminate.
  injection H as <- <-. eauto.
Qed.

Lemma token_of_ok : forall sp s r t, token_of sp s = POk r t -> ~ is_reserved t.
Proof. intros sp s r t H. apply verify_ok in H. apply not_reserved, H. Qed.
Lemma token_of_text : forall sp s r t, token_of sp s = POk r t -> s = (t ++ r)%string.
Proof.
  intros sp s r t H. pose proof (good_token_of sp (S (String.length s)) s ltac:(lia)) as G.
  rewrite H in G. apply verify_ok in H. destruct H as [H _].
  apply recognize_ok in H. destruct H as (a & H & ->). apply consumed_suffix, G.
Qed.

Lemma call_name : forall R s r e, call R s = POk r e ->
  exists n args, e = ECall n args /\ ~ is_reserved n.
Proof.
  intros R s r e H. unfold call in H. apply bind_ok in H. destruct H as (r1 & n & Hn & H).
  apply bind_ok in H. destruct H as (r2 & args & _ & H). injection H as _ <-.
  exists n, args. split; auto. eapply token_of_ok. exact Hn.
Qed.

Lemma many0_ok : forall A (p : Parser A) (Q : A -> Prop),
  (forall s r a, p s = POk r a -> Q a) ->
  forall s r l, many0 p s = POk r l -> Forall Q l.
Proof.
  intros A p Q HQ s r l. unfold many0. generalize (S (String.length s)). intro fuel.
  revert s r l. induction fuel as [|fuel IH]; intros s r l H; [ discriminate | ].
  cbn [many0_go] in H. destruct (p s) as [r1 a| | |] eqn:E; try discriminate.
  - destruct (Nat.eqb (String.length r1) (String.length s)); [ discriminate | ].
    destruct (many0_go p fuel r1) as [r2 l2| | |] eqn:E2; try discriminate.
    injection H as <- <-. constructor; eauto.
  - injection H as <- <-. constructor.
Qed.
Lemma option_keys : forall s r o, command_options s = POk r o ->
  Forall (fun kv => ~ is_reserved (fst kv)) o.
Proof.
  intros s r o. apply many0_ok. clear. intros s r [k v] H. unfold ws, delimited in H.
  apply bind_ok in H. destruct H as (r1 & a & _ & H). apply bind_ok in H.
  destruct H as (r2 & kv & H & H'). apply bind_ok in H'. destruct H' as (r3 & u & _ & H').
  injection H' as _ ->. unfold field_and_constant, separated_pair in H.
  apply bind_ok in H. destruct H as (r4 & k' & Hk & H). apply bind_ok in H.
  destruct H as (r5 & a' & _ & H). apply bind_ok in H. destruct H as (r6 & v' & _ & H).
  injection H as _ <- <-. cbn. eapply token_of_ok. exact Hk.
Qed.

(** Field names.  A name is bare when it does not start with a quotation mark. *)
Definition quote_char (c : ascii) : Prop := nat_of_ascii c = 34 \/ nat_of_ascii c = 39.
Lemma reserved_letters : forall t, is_reserved t -> all_chars letter t.
Proof.
  intros t (w & Hin & Hw).
  assert (all_chars letter w) as Lw.
  { apply (all_chars_sforall letter is_alpha w).
    - intro c. unfold is_alpha, letter. rewrite orb_true_iff, is_lower_spec, is_upper_spec. tauto.
    - clear Hw. revert w Hin. apply forallb_forall. vm_compute. reflexivity. }
  clear Hin. induction Hw as [|c d s t H _ IH]; cbn in *; auto. destruct Lw as [Ld Lw].
  split; auto. unfold letter, same_letter in *. destruct H as [->|H]; lia.
Qed.
Lemma letter_app : forall a b, all_chars letter (a ++ b)%string -> all_chars letter b.
Proof. induction a as [|c a IH]; cbn; auto. intros b [_ H]. auto. Qed.
Lemma sep_go_dot : forall A (p : Parser A) fuel s r l, (forall n, good false n p) ->
  sep_go (tag ".") p fuel s = POk r l -> r = s \/ exists x, s = String "." (x ++ r)%string.
Proof.
  intros A p fuel s r l Hg H. destruct fuel as [|fuel]; [ discriminate | ]. cbn [sep_go] in H.
  destruct (tag "." s) as [r1 a| | |] eqn:E; try discriminate.
  - destruct (Nat.eqb (String.length r1) (String.length s)); [ discriminate | ].
    destruct (p r1) as [r2 b| | |] eqn:E2; try discriminate.
    + destruct (sep_go (tag ".") p fuel r2) as [r3 l3| | |] eqn:E3; try discriminate.
      injection H as <- <-. right.
      assert (is_suffix r3 r1) as [x ->].
      { eapply suffix_trans.
        - assert (forall fuel s r l, sep_go (tag ".") p fuel s = POk r l -> is_suffix r s) as G.
          { clear - Hg. induction fuel as [|fuel IH]; intros s r l H; [ discriminate | ].
            cbn [sep_go] in H. destruct (tag "." s) as [r1 a| | |] eqn:E; try discriminate.
            - destruct (Nat.eqb (String.length r1) (String.length s)); [ discriminate | ].
              destruct (p r1) as [r2 b| | |] eqn:E2; try discriminate.
              + destruct (sep_go (tag ".") p fuel r2) as [r3 l3| | |] eqn:E3; try discriminate.
                injection H as <- <-. apply IH in E3. eapply suffix_trans; [ exact E3 | ].
                pose proof (Hg (S (String.length r1)) r1 ltac:(lia)) as G. rewrite E2 in G.
                eapply suffix_trans; [ apply G | ].
                unfold tag in E. destruct s as [|c s]; [ discriminate | ]. cbn [strip_prefix] in E.
                destruct (Ascii.eqb "." c); [ | discriminate ]. injection E as <- _. apply suffix_cons.
              + injection H as <- <-. apply suffix_refl.
            - injection H as <- <-. apply suffix_refl. }
          eapply G. exact E3.
        - pose proof (Hg (S (String.length r1)) r1 ltac:(lia)) as G. rewrite E2 in G. apply G. }
      exists x. unfold tag in E. destruct s as [|c s]; [ discriminate | ]. cbn [strip_prefix] in E.
      destruct (Ascii.eqb_spec "."%char c) as [<-|]; [ | discriminate ]. injection E as <- _. reflexivity.
    + injection H as <- <-. now left.
  - injection H as <- <-. now left.
Qed.
Lemma good_name_part : forall n, good false n (token_not_t_f <|> double_quoted).
Proof. intro n. unfold token_not_t_f. gd. Qed.
Lemma field_not_reserved : forall s r f, field s = POk r f -> next_is (fun c => ~ quote_char c) s ->
  ~ is_reserved f.
Proof.
  intros s r f H Hs Hr. apply or_inv in H. destruct H as [H|H].
  - unfold field_fmt in H. apply recognize_ok in H. destruct H as (l & H & ->).
    unfold separated_list1 in H. apply bind_ok in H. destruct H as (r1 & t & Ht & H).
    apply bind_ok in H. destruct H as (r2 & l2 & H & H'). injection H' as -> _.
    apply or_inv in Ht. destruct Ht as [Ht|Ht].
    + apply verify_ok in Ht. destruct Ht as [Ht _].
      pose proof (token_of_text _ _ _ _ Ht) as E. pose proof (token_of_ok _ _ _ _ Ht) as N.
      apply sep_go_dot in H; [ | exact good_name_part ]. destruct H as [->|[x ->]].
      * apply N. rewrite E in Hr. now rewrite consumed_app in Hr.
      * subst s. replace (t ++ String "." (x ++ r))%string with ((t ++ String "." x) ++ r)%string in Hr
          by (rewrite append_assoc_s; reflexivity).
        rewrite consumed_app in Hr. apply reserved_letters in Hr. apply letter_app in Hr.
        destruct Hr as [Hr _]. unfold letter in Hr. cbn in Hr. lia.
    + destruct s as [|c s]; [ discriminate | ]. cbn in Hs. apply Hs. left.
      unfold double_quoted, delimited, p_or, p_bind, tag, dq in Ht. cbn [strip_prefix] in Ht.
      destruct (Ascii.eqb_spec dquote c) as [<-|]; [ reflexivity | discriminate ].
  - destruct s as [|c s]; [ discriminate | ]. cbn in Hs. apply Hs. right.
    unfold single_quoted, delimited, p_bind, tag, sq in H. cbn [strip_prefix] in H.
    destruct (Ascii.eqb_spec squote c) as [<-|]; [ reflexivity | discriminate ].
Qed.

(** ** Options (C10) *)
Lemma opt_get_absent : forall o k, ~ In k (map fst o) -> opt_get o k = None.
Proof.
  induction o as [|[k' v] o IH]; cbn; intros k H; auto. rewrite IH by tauto.
  destruct (String.eqb_spec k' k); tauto.
Qed.
Lemma opt_get_last : forall (a : Options) k v b, ~ In k (map fst b) -> opt_get (a ++ (k, v) :: b)%list k = Some v.
Proof.
  induction a as [|[k' v'] a IH]; cbn; intros k v b H.
  - rewrite opt_get_absent by exact H. now rewrite String.eqb_refl.
  - now rewrite IH.
Qed.
Lemma opt_get_filter : forall o k,
  opt_get o k = opt_get (filter (fun kv => String.eqb (fst kv) k) o) k.
Proof.
  induction o as [|[k' v] o IH]; cbn; intro k; auto.
  destruct (String.eqb_spec k' k) as [->|]; cbn; rewrite <- IH; [ now rewrite String.eqb_refl | ].
  now destruct (opt_get o k).
Qed.
Lemma opt_get_reorder : forall o1 o2,
  (forall k, filter (fun kv => String.eqb (fst kv) k) o1 = filter (fun kv => String.eqb (fst kv) k) o2) ->
  forall k, opt_get o1 k = opt_get o2 k.
Proof. intros o1 o2 H k. now rewrite opt_get_filter, H, <- opt_get_filter. Qed.

(** ** Quoted searches (C11) *)
Lemma nat_eqb_ascii : forall c n, n < 256 -> Nat.eqb (nat_of_ascii c) n = Ascii.eqb (ascii_of_nat n) c.
Proof.
  intros c n Hn. destruct (Nat.eqb_spec (nat_of_ascii c) n) as [<-|H].
  - rewrite ascii_nat_embedding. now rewrite Ascii.eqb_refl.
  - destruct (Ascii.eqb_spec (ascii_of_nat n) c) as [<-|]; auto.
    exfalso. apply H. now apply nat_ascii_embedding.
Qed.
Lemma escape_cons : forall c s, escape (String c s)
  = if Ascii.eqb dquote c || Ascii.eqb backslash c
    then String backslash (String c (escape s)) else String c (escape s).
Proof. intros c s. cbn [escape]. rewrite !nat_eqb_ascii by lia. reflexivity. Qed.

(** after the first pass: quotes are bare, backslashes still doubled *)
Fixpoint double_bs (s : string) : string :=
  match s with
  | EmptyString => EmptyString
  | String c s' => if Ascii.eqb backslash c then String backslash (String backslash (double_bs s'))
                   else String c (double_bs s')
  end.
Lemma pass1 : forall s, replace_go (bs ++ dq)%string dq 0 (escape s) = double_bs s.
Proof.
  induction s as [|c s IH]; [ reflexivity | ]. rewrite escape_cons. cbn [double_bs].
  destruct (Ascii.eqb_spec dquote c) as [<-|Hq].
  - change (String dquote (replace_go (bs ++ dq)%string dq 0 (escape s)) = String dquote (double_bs s)).
    now rewrite IH.
  - cbn [orb]. destruct (Ascii.eqb_spec backslash c) as [<-|Hb].
    + assert (forall t, replace_go (bs ++ dq)%string dq 0 (String backslash (String backslash t))
              = String backslash (replace_go (bs ++ dq)%string dq 0 (String backslash t))) as E by reflexivity.
      rewrite E.
      assert (replace_go (bs ++ dq)%string dq 0 (String backslash (escape s))
              = String backslash (replace_go (bs ++ dq)%string dq 0 (escape s))) as ->.
      { destruct s as [|d s]; [ reflexivity | ]. rewrite escape_cons.
        destruct (Ascii.eqb_spec dquote d) as [<-|Hd]; [ reflexivity | ]. cbn [orb].
        destruct (Ascii.eqb_spec backslash d) as [<-|Hd']; [ reflexivity | ].
        cbn [replace_go]. unfold starts_with, bs, dq. cbn [append strip_prefix].
        rewrite Ascii.eqb_refl. destruct (Ascii.eqb_spec dquote d); [ congruence | ]. reflexivity. }
      rewrite IH. reflexivity.
    + cbn [replace_go]. unfold starts_with, bs, dq. cbn [append strip_prefix].
      destruct (Ascii.eqb_spec backslash c); [ congruence | ].
      change (String c (replace_go (bs ++ dq)%string dq 0 (escape s)) = String c (double_bs s)).
      now rewrite IH.
Qed.
Lemma pass2 : forall s, replace_go (bs ++ bs)%string bs 0 (double_bs s) = s.
Proof.
  induction s as [|c s IH]; [ reflexivity | ]. cbn [double_bs].
  destruct (Ascii.eqb_spec backslash c) as [<-|Hb].
  - change (String backslash (replace_go (bs ++ bs)%string bs 0 (double_bs s)) = String backslash s).
    now rewrite IH.
  - cbn [replace_go]. unfold starts_with, bs. cbn [append strip_prefix].
    destruct (Ascii.eqb_spec backslash c); [ congruence | ].
    change (String c (replace_go (bs ++ bs)%string bs 0 (double_bs s)) = String c s).
    now rewrite IH.
Qed.
Lemma unescape_escape : forall s, unescape_search (escape s) = s.
Proof. intro s. unfold unescape_search, replace_all. now rewrite pass1, pass2. Qed.

(** *** The text of a quoted search is read back *)
Definition skip (s : string) : string := snd (span is_space s).
Lemma ws_ok : forall A (p : Parser A) s r a, p (skip s) = POk r a -> ws p s = POk (skip r) a.
Proof.
  intros A p s r a H. unfold ws, delimited, p_bind. rewrite ms0_eq. fold (skip s). rewrite H.
  rewrite ms0_eq. reflexivity.
Qed.
Lemma skip_stops : forall s, stops is_space s -> skip s = s.
Proof. intros s H. unfold skip. now rewrite span_stops. Qed.
Lemma skip_skip : forall s, skip (skip s) = skip s.
Proof. intro s. apply skip_stops, span_rest_stops. Qed.

Lemma tag_nc_read : forall t w r, same_word w t -> tag_no_case t (w ++ r) = POk r w.
Proof. intros t w r H. unfold tag_no_case. rewrite strip_nc_same by exact H. now rewrite consumed_app. Qed.
Definition alt_item : Parser string :=
  tag (bs ++ dq)%string <|> tag (bs ++ bs)%string <|> recognize (none_of (dq ++ bs)%string).
Lemma escape_items : forall t rest fuel, String.length (escape t) < fuel ->
  exists l, many0_go alt_item fuel (escape t ++ String dquote rest) = POk (String dquote rest) l.
Proof.
  induction t as [|c t IH]; intros rest [|fuel] Hf; try lia.
  - cbn [escape append many0_go].
    replace (alt_item (String dquote rest)) with (@PErr string) by reflexivity. eauto.
  - assert (exists x, (x = String c EmptyString \/ x = String backslash (String c EmptyString))
              /\ escape (String c t) = (x ++ escape t)%string
              /\ forall u, alt_item (x ++ u)%string = POk u x) as (x & Hx & E & Hi).
    { rewrite escape_cons. destruct (Ascii.eqb_spec dquote c) as [<-|Hq].
      - exists (bs ++ dq)%string. split; [ now right | split; [ reflexivity | intro u; reflexivity ] ].
      - destruct (Ascii.eqb_spec backslash c) as [<-|Hb].
        + exists (bs ++ bs)%string. split; [ now right | split; [ reflexivity | intro u; reflexivity ] ].
        + exists (String c EmptyString). split; [ now left | split; [ reflexivity | intro u ] ].
          unfold alt_item, p_or, tag, bs, dq. cbn [append strip_prefix].
          destruct (Ascii.eqb_spec backslash c); [ congruence | ].
          unfold recognize, none_of, satisfy, has_char, sexists. cbn [sforall].
          destruct (Ascii.eqb_spec c dquote); [ congruence | ].
          destruct (Ascii.eqb_spec c backslash); [ congruence | ].
          cbn -[consumed]. f_equal. apply (consumed_app (String c EmptyString) u). }
    rewrite E in Hf |- *. rewrite append_assoc_s. cbn [many0_go]. rewrite Hi.
    assert (1 <= String.length x) by (destruct Hx; subst x; cbn; lia).
    rewrite length_append in Hf.
    destruct (Nat.eqb_spec (String.length (escape t ++ String dquote rest))
                           (String.length (x ++ escape t ++ String dquote rest))) as [X|_].
    { rewrite (length_append x) in X. lia. }
    destruct (IH rest fuel ltac:(lia)) as [l ->]. eauto.
Qed.
Lemma double_quoted_alt_escape : forall q rest,
  double_quoted_alt (in_quotes (escape q) ++ rest) = POk rest (escape (skip q)).
Proof.
  intros q rest. unfold double_quoted_alt, in_quotes.
  change (String (ascii_of_nat 34) (escape q ++ String (ascii_of_nat 34) "") ++ rest)%string
    with (String dquote ((escape q ++ String dquote "") ++ rest)).
  rewrite append_assoc_s. cbn [append].
  unfold delimited at 1. unfold p_bind at 1.
  change (tag dq (String dquote (escape q ++ String dquote rest)))
    with (POk (escape q ++ String dquote rest)%string dq). cbn iota beta.
  assert (skip (escape q ++ String dquote rest) = (escape (skip q) ++ String dquote rest)%string) as Es.
  { induction q as [|c q IH]; [ reflexivity | ].
    rewrite escape_cons. unfold skip. cbn [span]. destruct (is_space c) eqn:Ec.
    - assert (Ascii.eqb dquote c || Ascii.eqb backslash c = false) as ->.
      { apply is_space_spec in Ec. destruct (Ascii.eqb_spec dquote c) as [<-|]; [ exfalso; revert Ec; unfold white; cbn; lia | ].
        destruct (Ascii.eqb_spec backslash c) as [<-|]; [ exfalso; revert Ec; unfold white; cbn; lia | reflexivity ]. }
      cbn [append span]. rewrite Ec. unfold skip in IH.
      destruct (span is_space (escape q ++ String dquote rest)), (span is_space q). exact IH.
    - cbn [snd]. rewrite escape_cons.
      destruct (Ascii.eqb dquote c || Ascii.eqb backslash c); cbn [append span].
      + reflexivity.
      + now rewrite Ec. }
  set (content := recognize _). change content with (recognize (many0 alt_item)) in *.
  clear content. set (content := recognize _).
  assert (content (escape (skip q) ++ String dquote rest)%string
          = POk (String dquote rest) (escape (skip q))) as Ec.
  { subst content. unfold recognize, many0.
    destruct (escape_items (skip q) rest (S (String.length (escape (skip q) ++ String dquote rest)))) as [l ->].
    { rewrite length_append. lia. }
    now rewrite consumed_app. }
  rewrite <- Es in Ec. unfold p_bind. rewrite (ws_ok _ _ _ _ _ Ec). reflexivity.
Qed.
Lemma parse_skip : forall s, parse (skip s) = parse s.
Proof.
  intro s. destruct (skipped_split s) as [w [E H]]. rewrite E at 2. symmetry. apply parse_ws.
  now apply (all_chars_sforall white is_space w is_space_spec).
Qed.
Lemma skip_length : forall s, String.length (skip s) <= String.length s.
Proof.
  intro s. destruct (skipped_split s) as [w [E H]]. rewrite E at 2. rewrite length_append.
  unfold skip. lia.
Qed.
Lemma parse_pipeline : forall s p n, parse s = Some (Ok p) -> String.length s < n ->
  pipeline (level n) s = POk EmptyString p.
Proof.
  intros s p n H Hn. rewrite <- (parse_fuel n s Hn) in H. unfold parse_with in H.
  destruct (pipeline (level n) s) as [[|c r] a| | |]; try discriminate. congruence.
Qed.
Lemma quoted_search_escape : forall q p n rest,
  parse q = Some (Ok p) -> String.length q < n ->
  quoted_search (level (S n)) ("search=" ++ in_quotes (escape q) ++ rest) = POk rest p.
Proof.
  intros q p n rest Hq Hn. unfold quoted_search, preceded, p_bind.
  assert (pair_ (ws (tag_no_case "search")) (ws (tag "=")) ("search=" ++ in_quotes (escape q) ++ rest)%string
    = POk (in_quotes (escape q) ++ rest)%string ("search"%string, "="%string)) as ->.
  { unfold pair_, p_bind.
    rewrite (ws_ok _ _ _ ("=" ++ in_quotes (escape q) ++ rest) "search"%string); [ reflexivity | ].
    rewrite skip_stops by reflexivity. apply (tag_nc_read "search" "search").
    apply same_word_lower. reflexivity. }
  unfold map_parser, p_bind. rewrite double_quoted_alt_escape, unescape_escape.
  change (r_pipeline (level (S n))) with (pipeline (level n)).
  assert (pipeline (level n) (skip (skip q)) = POk EmptyString p) as E.
  { rewrite skip_skip. apply parse_pipeline; [ now rewrite parse_skip | ].
    pose proof (skip_length q). lia. }
  unfold all_consuming, p_bind. rewrite (ws_ok _ _ _ _ _ E). reflexivity.
Qed.
Lemma map_command_reads : forall q p,
  parse q = Some (Ok p) ->
  parse ("map search=" ++ in_quotes (escape q)) = Some (Ok [CMap p 10%Z]).
Proof.
  intros q p Hq. unfold parse, parse_with.
  assert (String.length q < String.length ("map search=" ++ in_quotes (escape q))) as Hl.
  { unfold in_quotes. cbn. rewrite length_append.
    assert (String.length q <= String.length (escape q)).
    { clear. induction q as [|c q IH]; [ cbn; lia | ].
      rewrite escape_cons. destruct (_ || _); cbn; lia. }
    lia. }
  set (n := String.length ("map search=" ++ in_quotes (escape q))) in *.
  assert (command (level (S n)) ("map search=" ++ in_quotes (escape q)) = POk EmptyString (CMap p 10%Z)) as E.
  { unfold command. repeat rewrite or_err by reflexivity. apply or_ok.
    unfold cmd, preceded, p_bind.
    change (match_name "map" ("map search=" ++ in_quotes (escape q)))
      with (POk ("search=" ++ in_quotes (escape q))%string tt). cbn iota beta.
    unfold p_map_cmd, p_bind. rewrite <- (append_nil_r (in_quotes (escape q))).
    rewrite (quoted_search_escape q p n EmptyString Hq Hl). reflexivity. }
  unfold pipeline, preceded, p_bind.
  change (opt (ws (tag "|")) ("map search=" ++ in_quotes (escape q)))
    with (POk ("map search=" ++ in_quotes (escape q))%string (@None string)). cbn iota beta.
  unfold all_consuming, p_bind.
  assert (separated_list0 (ws (tag "|")) (command (level (S n))) (skip ("map search=" ++ in_quotes (escape q)))
          = POk EmptyString [CMap p 10%Z]) as E2.
  { rewrite skip_stops by reflexivity. unfold separated_list0. rewrite E. reflexivity. }
  rewrite (ws_ok _ _ _ _ _ E2). reflexivity.
Qed.

Lemma command_keyword_case_spec : forall depth w w' args rest c,
  same_word w w' -> all_chars letter w ->
  command (level depth) (w ++ args) = POk rest c -> (forall e, c <> CSearch e) ->
  command (level depth) (w' ++ args) = POk rest c.
Proof.
  intros depth w w' args rest c H Hw E Hn. eapply command_keyword_case; eauto.
  intro S. destruct c; try contradiction. now eapply Hn.
Qed.
Lemma options_last : forall before key value after,
  ~ In key (map fst after) ->
  let options := (before ++ (key, value) :: after)%list in
  (forall default, get_int options key default
     = match value with KInt z => Ok z | _ => Err end) /\
  (forall default, get_string options key default
     = match value with KStr s => Ok s | KField s => Ok s | _ => Err end) /\
  (get_span_option options key
     = match value with KTimeSpan t => Ok (Some t) | _ => Err end) /\
  (forall default, get_boolean options key default
     = match value with
       | KBool b => Ok b
       | KField w => match find (fun p => String.eqb w (fst p))
                             [("true", true); ("t", true); ("false", false); ("f", false)]%string with
                     | Some (_, b) => Ok b
                     | None => Err
                     end
       | _ => Err
       end).
Proof.
  intros a k v b H o.
  assert (E : opt_get o k = Some v) by (apply opt_get_last; exact H).
  unfold get_int, get_int_option, get_string, get_string_option, get_span_option, get_boolean, rmap, rbind.
  rewrite E. split; [ intros; destruct v; reflexivity | ].
  split; [ intros; destruct v; reflexivity | ]. split; [ destruct v; reflexivity | ].
  intros d. destruct v; try reflexivity. cbn [find fst].
  destruct (String.eqb s "true"), (String.eqb s "t"), (String.eqb s "false"), (String.eqb s "f"); reflexivity.
Qed.
Lemma options_absent : forall (options : Options) key,
  ~ In key (map fst options) ->
  (forall d, get_int options key d = Ok d) /\
  (forall d, get_string options key d = Ok d) /\
  (forall d, get_boolean options key d = Ok d) /\
  get_int_option options key = Ok None /\ get_string_option options key = Ok None /\
  get_span_option options key = Ok None.
Proof.
  intros o k H. apply opt_get_absent in H.
  unfold get_int, get_int_option, get_string, get_string_option, get_span_option, get_boolean, rmap, rbind.
  rewrite H. auto 8.
Qed.
Lemma options_order : forall o1 o2 : Options,
  (forall k, filter (fun kv => String.eqb (fst kv) k) o1
             = filter (fun kv => String.eqb (fst kv) k) o2) ->
  addtotals_options o1 = addtotals_options o2 /\ bin_options o1 = bin_options o2 /\
  collect_options o1 = collect_options o2 /\ datamodel_options o1 = datamodel_options o2 /\
  dedup_options o1 = dedup_options o2 /\ format_options o1 = format_options o2 /\
  inputlookup_options o1 = inputlookup_options o2 /\ join_options o1 = join_options o2 /\
  makeresults_options o1 = makeresults_options o2 /\ toprare_options o1 = toprare_options o2 /\
  rex_options o1 = rex_options o2 /\ stats_options o1 = stats_options o2 /\
  streamstats_options o1 = streamstats_options o2 /\ tstats_options o1 = tstats_options o2.
Proof.
  intros o1 o2 H. pose proof (opt_get_reorder o1 o2 H) as G.
  unfold addtotals_options, bin_options, collect_options, datamodel_options, dedup_options,
    format_options, inputlookup_options, join_options, makeresults_options, toprare_options,
    rex_options, stats_options, streamstats_options, tstats_options.
  unfold get_int, get_int_option, get_string, get_string_option, get_span_option, get_boolean,
    get_string_option, get_int_option.
  rewrite !G. repeat split; reflexivity.
Qed.
