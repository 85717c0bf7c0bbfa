(** What tstats reads (C69). *)
From Coq Require Import Lia.
From Verif Require Import Str SplAst Nom Lexer Parser CmdParser ParserFacts ParserTotal ParserFuel.
From Verif Require Import SpecText SpecExpr SpecSpell LexFacts TokenFacts NameFacts ExprFacts LogicFacts EvalFacts WhereFacts SpellFacts SpellOptions SpellMore SpellBodies SpellForms SpellTails.

(** *** Reserved words are no names *)
Lemma same_letters : forall w k, same_word w k -> all_chars letter k -> all_chars letter w.
Proof.
  intros w k H. induction H as [|c d s t Hl H IH]; intro Hk; [ exact I | ]. destruct Hk as [Hd Hk]. split; [ | auto ].
  unfold letter, same_letter in *. destruct Hl as [-> |Hl]; lia.
Qed.
Lemma kw_token : forall k w b y, In k ["as"; "from"; "where"; "by"]%string -> same_word w k -> blanks b ->
  token (w ++ b ++ y) = PErr /\ field (w ++ b ++ y) = PErr.
Proof.
  intros k w b y Hk Hw Hb.
  assert (all_chars letter w /\ w <> EmptyString) as [Hl Hne].
  { split.
    - apply (same_letters w k Hw). cbn in Hk. repeat (destruct Hk as [<-|Hk]; [ unfold letter; cbn; lia | ]). destruct Hk.
    - intros ->. inversion Hw; subst. cbn in Hk. repeat (destruct Hk as [Hk|Hk]; [ discriminate | ]). destruct Hk. }
  assert (T : token (w ++ b ++ y) = PErr).
  { change token with (token_of tok_specials). rewrite token_of_read; auto.
    - destruct (is_not_reserved_word w) eqn:E; [ | reflexivity ]. exfalso. apply not_reserved in E. apply E.
      apply same_word_lower in Hw. cbn in Hk.
      destruct Hk as [<-|[<-|[<-|[<-|[]]]]]; [ exists "AS"%string | exists "FROM"%string | exists "WHERE"%string | exists "BY"%string ];
        (split; [ unfold spl_reserved; cbn; tauto | apply same_word_lower; exact Hw ]).
    - clear - Hl. induction w as [|c w IH]; [ reflexivity | ]. destruct Hl as [Hc Hl]. cbn [sforall].
      rewrite IH by auto. rewrite andb_true_r. apply name_char_tok. now left.
    - destruct (blanks_head b Hb) as (c & r & -> & _). cbn [append].
      destruct Hb as [_ [Hb _]]. apply is_space_spec in Hb. destruct (space_char c Hb) as [-> |[-> |[-> | ->]]]; split; reflexivity. }
  split; auto. destruct w as [|c w]; [ congruence | ]. destruct Hl as [Hc _].
  assert (Q : forall x, ~ letter x -> tag (String x "") (String c w ++ b ++ y) = PErr) by (intros x Hx; now apply letter_tag_err).
  assert (D : double_quoted (String c w ++ b ++ y) = PErr).
  { unfold double_quoted, delimited, p_or, p_bind, dq. now rewrite !Q by (apply not_letter_code; cbn; lia). }
  unfold field. rewrite or_err.
  - unfold single_quoted, delimited, p_bind, sq. now rewrite !Q by (apply not_letter_code; cbn; lia).
  - unfold field_fmt, recognize, separated_list1, p_bind, p_or, token_not_t_f, verify, p_bind. now rewrite T, D.
Qed.
Lemma length_same : forall w k, same_word w k -> String.length w = String.length k.
Proof. intros w k H. induction H; cbn; auto. Qed.
Lemma count_ident : forall w, same_word w "count" -> plain_ident w.
Proof.
  intros w Hw. pose proof (same_letters w _ Hw ltac:(unfold letter; cbn; lia)) as Hl.
  assert (String.length w = 5) as Hn by (pose proof (length_same w _ Hw) as X; exact X).
  split; [ | split ].
  - destruct w as [|c w]; [ discriminate | ]. destruct Hl as [Hc Hl]. split; [ now left | ].
    clear - Hl. induction w as [|d w IH]; [ exact I | ]. destruct Hl. split; [ now left | auto ].
  - intros (k & Hk & Hs). apply same_word_lower in Hw. apply same_word_lower in Hs. rewrite Hw in Hs. unfold spl_reserved in Hk.
    cbn in Hk. repeat (destruct Hk as [<-|Hk]; [ discriminate | ]). destruct Hk.
  - split; intros ->; discriminate.
Qed.

(** *** What comes after the aggregations *)
Definition ts_words : list string := ["from"; "where"; "by"]%string.
Definition kw_text (x : string) : Prop :=
  exists k b1 w b2 y, x = (b1 ++ w ++ b2 ++ y)%string /\ In k ts_words /\ blanks b1 /\ same_word w k /\ blanks b2.
Definition ts_final (x : string) : Prop := after_cmd x \/ kw_text x.
Lemma ts_word : forall k, In k ts_words -> all_chars letter k /\ k <> EmptyString /\ In k ["as"; "from"; "where"; "by"]%string.
Proof. intros k H. cbn in H. destruct H as [<-|[<-|[<-|[]]]]; unfold letter; cbn; repeat split; try lia; try discriminate; tauto. Qed.
Lemma kw_stops : forall k w x, In k ts_words -> same_word w k -> stops is_space (w ++ x).
Proof. intros k w x Hk Hw. destruct (ts_word k Hk) as (A & B & _). now apply (SpellFacts.word_stops k). Qed.
Lemma kw_head : forall k w x, In k ts_words -> same_word w k -> exists c r, (w ++ x)%string = String c r /\ letter c.
Proof.
  intros k w x Hk Hw. destruct (ts_word k Hk) as (A & B & _). pose proof (same_letters w k Hw A) as L.
  destruct Hw as [|c d s t Hl Hw]; [ congruence | ]. destruct L as [L _]. cbn. eauto.
Qed.
Lemma kw_skip : forall k b1 w b2 y, In k ts_words -> blanks b1 -> same_word w k -> skip (b1 ++ w ++ b2 ++ y) = (w ++ b2 ++ y)%string.
Proof. intros k b1 w b2 y Hk H1 Hw. apply skip_spaces; [ now apply blanks_spaces | now apply (kw_stops k) ]. Qed.
Lemma kw_ms1 : forall k b1 w b2 y, In k ts_words -> blanks b1 -> same_word w k -> multispace1 (b1 ++ w ++ b2 ++ y) = POk (w ++ b2 ++ y)%string b1.
Proof. intros k b1 w b2 y Hk H1 Hw. apply blanks_read; auto. now apply (kw_stops k). Qed.
Lemma final_tok : forall x, ts_final x -> tok_end lit_specials x /\ tag "(" x = PErr.
Proof.
  intros x [H|(k & b1 & w & b2 & y & -> & Hk & H1 & Hw & H2)].
  - split; [ now apply after_ends | ]. destruct (after_cmd_term x H) as [_ A]. destruct x as [|c x]; [ reflexivity | ].
    apply tag1_err. destruct (Ascii.eqb_spec "(" c); congruence.
  - split; [ now apply blanks_tok | ]. destruct (blanks_head b1 H1) as (c & r & -> & _ & Hc).
    destruct Hc as [-> |[-> |[-> | ->]]]; reflexivity.
Qed.
Lemma final_no_option : forall x, ts_final x -> no_option x.
Proof.
  intros x [H|(k & b1 & w & b2 & y & -> & Hk & H1 & Hw & H2)]; [ now apply after_no_option | ].
  apply letter_no_option; auto. now apply (kw_head k).
Qed.
(** After white space: nothing more, or one of the words *)
Lemma final_ms1 : forall A (p : Parser A) x, ts_final x -> (forall tail, cmd_tail tail -> p tail = PErr) ->
  (forall k w b y, In k ts_words -> same_word w k -> blanks b -> p (w ++ b ++ y)%string = PErr) ->
  multispace1 x = PErr \/ exists r u, multispace1 x = POk r u /\ String.length r < String.length x /\ p r = PErr.
Proof.
  intros A p x [H|(k & b1 & w & b2 & y & -> & Hk & H1 & Hw & H2)] Ht Hp.
  - pose proof (after_tail x H) as T. pose proof (span_parts is_space x) as E. unfold skip in T.
    unfold multispace1, take_while1. destruct (span is_space x) as [a r] eqn:S1. cbn [fst snd] in *.
    destruct a as [|c a]; [ now left | right ]. exists r, (String c a). repeat split; auto. rewrite E, length_append. cbn. lia.
  - right. exists (w ++ b2 ++ y)%string, b1. split; [ now apply (kw_ms1 k) | ]. split; [ | now apply (Hp k) ].
    rewrite (length_append b1). destruct b1; [ destruct H1; congruence | cbn; lia ].
Qed.

(** *** One aggregation *)
Definition alias_p : Parser (option string) := opt (preceded (delimited multispace1 (tag_no_case "AS") multispace1) token).
Definition count_arg : Parser (option string) :=
  opt (delimited multispace1
         (verify field (fun f => negb (String.eqb (lower f) "from" || String.eqb (lower f) "where" || String.eqb (lower f) "by")))
         (multispace1 <|> eof)).
(** Another aggregation *)
Definition ts_start (x : string) : Prop := exists w y, x = (w ++ y)%string /\ plain_ident w /\ tok_end lit_specials y.
Definition ts_next (bare : Prop) (x : string) : Prop :=
  exists b t, x = (b ++ t)%string /\ blanks b /\ ts_start t /\ (bare -> exists f y, plain_ident f /\ t = (f ++ "(" ++ y)%string).
Lemma as_not_ident : forall w y, plain_ident w -> tok_end lit_specials y ->
  match tag_no_case "AS" (w ++ y)%string with POk r _ => multispace1 r = PErr | PErr => True | _ => False end.
Proof.
  intros w y Hw Hy. destruct (ident_chars w Hw) as [Hne Hc]. unfold tag_no_case.
  destruct (strip_prefix_nc "AS" (w ++ y)) as [r|] eqn:E; [ | exact I ].
  destruct w as [|c1 w]; [ congruence | ]. cbn [append strip_prefix_nc] in E. change (lower_c "A") with "a"%char in E. change (lower_c "S") with "s"%char in E. destruct (Ascii.eqb_spec "a" (lower_c c1)) as [E1|]; [ | discriminate ].
  destruct w as [|c2 w].
  - exfalso. cbn [append strip_prefix_nc] in E. destruct y as [|d y]; [ discriminate | ]. destruct (Ascii.eqb_spec "s" (lower_c d)) as [E2|]; [ | discriminate ].
    destruct Hy as [Hy _].
    assert (d = "s"%char \/ d = "S"%char) as [-> | ->] by (clear - E2; destruct d as [[][][][][][][][]]; cbn in E2; try discriminate; auto); discriminate.
  - cbn [append strip_prefix_nc] in E. destruct (Ascii.eqb_spec "s" (lower_c c2)) as [E2|]; [ | discriminate ]. injection E as <-.
    cbn [append]. destruct w as [|c3 w].
    + exfalso. destruct Hw as (_ & Hr & _). apply Hr. exists "AS"%string. split; [ unfold spl_reserved; cbn; tauto | ].
      apply same_word_lower. cbn. now rewrite <- E1, <- E2.
    + apply ms1_err. destruct Hc as (_ & _ & Hc & _). cbn. now apply name_char_facts.
Qed.
Lemma alias_none : forall x, ts_final x \/ (exists b, ts_next b x) -> alias_p x = POk x None.
Proof.
  intros x Hx. unfold alias_p, opt, preceded, delimited, p_bind.
  destruct Hx as [H|(bare & b & t & -> & Hb & (w & y & -> & Hw & Hy) & _)].
  - destruct (final_ms1 _ (tag_no_case "AS") x H) as [-> |(r & u & -> & _ & ->)]; auto; [ by_tail | ].
    intros k w b y Hk Hw Hb. apply (clash_err "AS" k); auto. cbn in Hk. destruct Hk as [<-|[<-|[<-|[]]]]; reflexivity.
  - rewrite blanks_read by (auto; solve [ apply ident_stops; auto ]). pose proof (as_not_ident w y Hw Hy) as N.
    destruct (tag_no_case "AS" (w ++ y)) as [r a| | |]; [ now rewrite N | reflexivity | destruct N | destruct N ].
Qed.
Lemma count_arg_none : forall x, ts_final x \/ (exists b, ts_next b x /\ b) \/ (exists b1 w b2 y, x = (b1 ++ w ++ b2 ++ y)%string /\ blanks b1 /\ same_word w "as" /\ blanks b2) ->
  count_arg x = POk x None.
Proof.
  intros x Hx. unfold count_arg, opt, delimited. unfold p_bind at 1.
  set (v := verify field _).
  assert (V : forall s, field s = PErr -> v s = PErr) by (intros s H; unfold v, verify, p_bind; now rewrite H).
  destruct Hx as [H|[(bare & (b & t & -> & Hb & _ & Hf) & Hbare)|(b1 & w & b2 & y & -> & H1 & Hw & H2)]].
  - destruct (final_ms1 _ v x H) as [-> |(r & u & -> & _ & Hr)]; auto.
    + intros t Ht. apply V. revert t Ht. by_tail.
    + intros k w b y Hk Hw Hb. apply V. destruct (ts_word k Hk) as (_ & _ & K). now apply (kw_token k).
    + unfold p_bind. now rewrite Hr.
  - destruct (Hf Hbare) as (f & y & Hp & ->). rewrite blanks_read by (auto; solve [ apply ident_stops; auto ]).
    unfold v, verify, p_bind. rewrite field_ident by (auto; split; reflexivity). destruct (negb _); reflexivity.
  - rewrite blanks_read; auto.
    + unfold p_bind. rewrite V; auto. apply (kw_token "as"); auto. cbn. tauto.
    + apply (SpellFacts.word_stops "as"); auto; [ unfold letter; cbn; lia | discriminate ].
Qed.
Lemma alias_read : forall new u rest, as_part new u -> ts_final rest \/ (exists b, ts_next b rest) -> alias_p (u ++ rest) = POk rest new.
Proof.
  intros new u rest [[-> ->]|(n & b1 & w & b2 & Hn & H1 & Hw & H2 & -> & ->)] Hr; [ now apply alias_none | ].
  assert (tok_end lit_specials rest) as Ht.
  { destruct Hr as [Hr|(b & b0 & t & -> & Hb & _)]; [ now apply final_tok | now apply blanks_tok ]. }
  unfold alias_p, opt, preceded, delimited, p_bind. rewrite !append_assoc_s. rewrite blanks_read; auto.
  - rewrite (tag_nc_read "AS") by (clear - Hw; apply same_word_lower; apply same_word_lower in Hw; exact Hw).
    rewrite blanks_read by (auto; solve [ apply ident_stops; auto ]). unfold p_ret. now rewrite token_ident.
  - apply (SpellFacts.word_stops "as"); auto; [ unfold letter; cbn; lia | discriminate ].
Qed.
Lemma next_tok : forall b x, ts_next b x -> tok_end lit_specials x /\ tag "(" x = PErr.
Proof.
  intros b x (b0 & t & -> & Hb & _). split; [ now apply blanks_tok | ]. destruct (blanks_head b0 Hb) as (c & r & -> & _ & Hc).
  destruct Hc as [-> |[-> |[-> | ->]]]; reflexivity.
Qed.
Lemma as_tok : forall new u rest, as_part new u -> tok_end lit_specials rest /\ tag "(" rest = PErr -> tok_end lit_specials (u ++ rest) /\ tag "(" (u ++ rest) = PErr.
Proof.
  intros new u rest [[-> ->]|(n & b1 & w & b2 & Hn & H1 & Hw & H2 & -> & ->)] Hr; [ exact Hr | ]. rewrite !append_assoc_s.
  split; [ now apply blanks_tok | ]. destruct (blanks_head b1 H1) as (c & r & -> & _ & Hc).
  destruct Hc as [-> |[-> |[-> | ->]]]; reflexivity.
Qed.
Lemma item_read : forall e s rest, tstats_item e s -> ts_final rest \/ ts_next (same_word s "count") rest ->
  tstats_function (s ++ rest) = POk rest e.
Proof.
  intros e s rest (f & args & h & new & u & Hh & Hu & -> & ->) Hr.
  assert (Hr' : ts_final rest \/ exists b, ts_next b rest) by (destruct Hr; eauto).
  assert (Hk : tok_end lit_specials rest /\ tag "(" rest = PErr) by (destruct Hr as [Hr|Hr]; [ now apply final_tok | now apply next_tok in Hr ]).
  unfold tstats_function. fold alias_p. unfold p_bind at 1. rewrite append_assoc_s.
  assert ((tstats_call <|> tstats_count) (h ++ u ++ rest)%string = POk (u ++ rest)%string (ECall f args)) as ->.
  2:{ unfold p_bind. rewrite (alias_read new) by auto. unfold p_ret. now destruct new. }
  destruct Hh as [(Hf & x & Hx & -> & ->)|(-> & -> & Hw)].
  - apply or_ok. rewrite !append_assoc_s. unfold tstats_call, delimited, p_bind.
    rewrite token_ident by (auto; split; reflexivity).
    change (("(" ++ x ++ ")" ++ u ++ rest)%string) with (String "(" (x ++ ")" ++ u ++ rest)). rewrite tag1_read. rewrite field_ident by (auto; split; reflexivity).
    change ((")" ++ u ++ rest)%string) with (String ")" (u ++ rest)). rewrite tag1_read. reflexivity.
  - destruct (as_tok new u rest Hu Hk) as [K1 K2]. rewrite or_err.
    + unfold tstats_count. fold count_arg. unfold preceded, p_bind. rewrite (tag_nc_read "count") by auto.
      rewrite count_arg_none; [ reflexivity | ]. destruct Hu as [[-> ->]|(n & b1 & w & b2 & Hn & H1 & Hw1 & H2 & -> & ->)].
      * destruct Hr as [Hr|Hr]; [ now left | right; left ]. eexists. split; [ exact Hr | ]. now rewrite append_nil_r.
      * right; right. rewrite !append_assoc_s. exists b1, w, b2, (n ++ rest)%string. auto.
    + unfold tstats_call, delimited, p_bind. rewrite token_ident by (auto; now apply count_ident). now rewrite K2.
Qed.

(** *** The aggregations *)
Lemma item_start : forall e s x, tstats_item e s -> (ts_final x \/ exists b, ts_next b x) ->
  exists w y, (s ++ x)%string = (w ++ y)%string /\ plain_ident w /\ no_option y.
Proof.
  intros e s x (f & args & h & new & u & Hh & Hu & -> & ->) Hx. rewrite append_assoc_s.
  destruct Hh as [(Hf & y & Hy & -> & ->)|(-> & -> & Hw)].
  - exists f, (("(" ++ y ++ ")") ++ u ++ x)%string. rewrite append_assoc_s. split; auto. split; auto. split; [ split; reflexivity | reflexivity ].
  - exists h, (u ++ x)%string. split; auto. split; [ now apply count_ident | ].
    destruct Hu as [[-> ->]|(n & b1 & w & b2 & Hn & H1 & Hw1 & H2 & -> & ->)].
    + destruct Hx as [Hx|(b & b0 & t & -> & Hb & (w & y & -> & Hp & Hy) & _)]; [ now apply final_no_option | ].
      cbn [append]. split; [ now apply blanks_tok | ]. rewrite skip_spaces; [ | now apply blanks_spaces | solve [ apply ident_stops; auto ] ].
      destruct (ident_head w Hp) as (c & r & -> & Hc). apply tag1_err. apply head_not; auto; [ apply not_letter_code; cbn; lia | discriminate ].
    + rewrite !append_assoc_s. apply letter_no_option; auto. apply (word_head "as"); auto; [ unfold letter; cbn; lia | discriminate ].
Qed.
Lemma list_start : forall l s x, tstats_list l s -> ts_final x ->
  exists w y, (s ++ x)%string = (w ++ y)%string /\ plain_ident w /\ no_option y.
Proof.
  intros l s x H. induction H as [e s Hi|e s b l t Hi Hb Hl IH Hc]; intro Hx; [ apply (item_start e); auto | ].
  rewrite !append_assoc_s. apply (item_start e); auto. right. exists False. exists b, (t ++ x)%string. split; auto. split; auto.
  split; [ | tauto ]. destruct (IH Hx) as (w & y & E & Hw & Hy & _). exists w, y. auto.
Qed.
Lemma list_goes : forall l s, tstats_list l s -> forall rest, ts_final rest ->
  exists r a l', l = a :: l' /\ tstats_function (s ++ rest) = POk r a /\ String.length r <= String.length (s ++ rest) /\
    forall fuel, String.length r < fuel -> sep_go multispace1 tstats_function fuel r = POk rest l'.
Proof.
  intros l s H. induction H as [e s Hi|e s b l t Hi Hb Hl IH Hc]; intros rest Hr.
  - exists rest, e, []. split; auto. split; [ apply item_read; auto | ]. split; [ rewrite length_append; lia | ].
    intros [|fuel] Hf; [ lia | ]. cbn [sep_go].
    destruct (final_ms1 _ tstats_function rest Hr) as [-> |(r & u & -> & Hlen & ->)]; auto.
    + by_tail.
    + intros k w b y Hk Hw Hb. destruct (ts_word k Hk) as (_ & _ & K). destruct (kw_token k w b y K Hw Hb) as [T _].
      unfold tstats_function, tstats_call, tstats_count, p_or, preceded, p_bind. rewrite T. rewrite (clash_err "count" k); auto.
      cbn in Hk. destruct Hk as [<-|[<-|[<-|[]]]]; reflexivity.
    + match goal with |- context [Nat.eqb ?x ?y] => destruct (Nat.eqb_spec x y); [ lia | reflexivity ] end.
  - destruct (IH rest Hr) as (r & a & l' & -> & E1 & E2 & E3). destruct (list_start _ t rest Hl Hr) as (w & y & E & Hw & Hy & _).
    exists (b ++ t ++ rest)%string, e, (a :: l'). rewrite !append_assoc_s. split; auto. split.
    { apply item_read; auto. right. exists b, (t ++ rest)%string. split; auto. split; auto. split.
      - exists w, y. auto.
      - intro B. destruct (Hc B) as (f & z & Hf & ->). exists f, (z ++ rest)%string. now rewrite !append_assoc_s. }
    split; [ rewrite (length_append s); lia | ]. intros [|fuel] Hf; [ lia | ]. cbn [sep_go].
    assert (String.length (t ++ rest) < String.length (b ++ t ++ rest)) as Hlen.
    { rewrite (length_append b). destruct b; [ destruct Hb; congruence | cbn; lia ]. }
    rewrite blanks_read; [ | exact Hb | rewrite E; solve [ apply ident_stops; auto ] ].
    match goal with |- context [Nat.eqb ?x ?y] => destruct (Nat.eqb_spec x y); [ lia | ] end.
    rewrite E1, E3 by lia. reflexivity.
Qed.
Lemma list_read : forall l s rest, tstats_list l s -> ts_final rest -> space_separated_list1 tstats_function (s ++ rest) = POk rest l.
Proof.
  intros l s rest H Hr. destruct (list_goes l s H rest Hr) as (r & a & l' & -> & E1 & _ & E2).
  unfold space_separated_list1, separated_list1, p_bind. rewrite E1, E2 by lia. reflexivity.
Qed.

(** *** Names with dots *)
Definition dot_end (x : string) : Prop := tok_end tok_specials x /\ tag "." x = PErr.
Lemma dotted_listed : forall n, field_name n -> exists l, listed (fun b => b = "."%string) (fun a s => field_word a /\ s = a) l n.
Proof.
  intros n H. induction H as [w H|w n H Hn [l IH]]; [ exists [w] | exists (w :: l) ]; constructor; auto.
Qed.
Lemma dotted_read : forall n rest, dotted_item n n -> dot_end rest -> dotted_name (n ++ rest) = POk rest n.
Proof.
  intros n rest [Hn _] Hr. destruct (dotted_listed n Hn) as [l Hl].
  destruct (listed_reads (fun b => b = "."%string) (fun a s => field_word a /\ s = a) (fun _ => token) string (tag ".") (fun x => x) dot_end (fun _ => True))
    with (l := l) (s := n) (rest := rest) as [[m Hm] _]; auto.
  - intros b s -> _. exists "."%string. cbn. split; [ reflexivity | lia ].
  - intros a s x [Ha ->] Hx. apply reads_const. apply token_word; auto.
    destruct Hx as [[Hx _]|(b & t & -> & _ & ->)]; auto. split; reflexivity.
  - intros x [_ Hx]. exists 0. intros m _. now left.
  - unfold dotted_name, recognize. rewrite (Hm m) by lia. now rewrite consumed_app.
Qed.
Lemma dotted_stops : forall n x, dotted_item n n -> stops is_space (n ++ x).
Proof. intros n x [H _]. solve [ apply ident_stops; auto ]. Qed.

(** *** FROM *)
Definition node_p : Parser string :=
  ws (preceded (ws (tag_no_case "where")) (ws (preceded (tag_no_case "nodename=") dotted_name))).
Definition from_rest (x : string) : Prop :=
  tok_end lit_specials x /\ tag_no_case "from" (skip x) = PErr /\ node_p (skip x) = PErr.
Lemma lit_dot : forall x, tok_end lit_specials x -> dot_end x.
Proof.
  intros [|c x] H; [ split; [ exact I | reflexivity ] | ]. destruct H as [H1 H2]. split; [ split; auto | ].
  - clear - H1. destruct c as [[][][][][][][][]]; cbn in *; congruence.
  - apply tag1_err. destruct (Ascii.eqb_spec "." c) as [<-|]; [ discriminate | reflexivity ].
Qed.
Lemma from_read : forall model node f x, from_part model node f -> from_rest x ->
  ws (opt tstats_from) (f ++ x) = POk (skip x) (match model with None => None | Some d => Some (d, node) end).
Proof.
  intros model node f x Hf (X1 & X2 & X3). destruct Hf as [(-> & -> & ->)|(b1 & w1 & b2 & w2 & b3 & d & u & H1 & Hw1 & H2 & Hw2 & H3 & Hd & -> & -> & Hu)].
  - cbn [append]. rewrite (ws_ok _ _ _ (skip x) None); [ now rewrite skip_skip | ].
    unfold opt, tstats_from, preceded, p_bind. rewrite ws_err; auto. now rewrite skip_skip.
  - rewrite !append_assoc_s.
    assert (S1 : stops is_space (w1 ++ b2 ++ w2 ++ b3 ++ d ++ u ++ x)) by (apply (kw_stops "from"); auto; cbn; tauto).
    assert (S2 : stops is_space (w2 ++ b3 ++ d ++ u ++ x)).
    { destruct (key_head "datamodel=" w2 (b3 ++ d ++ u ++ x)%string Hw2) as (c & r & -> & Hc & _); [ unfold letter; cbn; lia | ].
      cbn. apply name_char_facts. now left. }
    assert (S3 : stops is_space (d ++ u ++ x)) by now apply dotted_stops.
    assert (U : tok_end lit_specials (u ++ x) /\ opt node_p (skip (u ++ x)) = POk (skip x) node).
    { destruct Hu as [(-> & ->)|(b4 & w4 & b5 & w5 & n & H4 & Hw4 & H5 & Hw5 & Hn & -> & ->)].
      - cbn [append]. split; auto. unfold opt. now rewrite X3.
      - rewrite !append_assoc_s. split; [ now apply blanks_tok | ].
        assert (S5 : stops is_space (w5 ++ n ++ x)).
        { destruct (key_head "nodename=" w5 (n ++ x)%string Hw5) as (c & r & -> & Hc & _); [ unfold letter; cbn; lia | ].
          cbn. apply name_char_facts. now left. }
        assert (S4 : stops is_space (w4 ++ b5 ++ w5 ++ n ++ x)) by (apply (kw_stops "where"); auto; cbn; tauto).
        rewrite skip_spaces; [ | now apply blanks_spaces | exact S4 ].
        unfold opt, node_p. rewrite (ws_ok _ _ _ (skip x) n); [ now rewrite skip_skip | ]. rewrite skip_stops by exact S4.
        unfold preceded at 1, p_bind. rewrite (ws_ok _ _ _ (b5 ++ w5 ++ n ++ x)%string w4) by (rewrite skip_stops by exact S4; now apply tag_nc_read).
        rewrite skip_spaces; [ | now apply blanks_spaces | exact S5 ]. apply ws_ok. rewrite skip_stops by exact S5.
        unfold preceded, p_bind. rewrite tag_nc_read by auto. apply dotted_read; auto. now apply lit_dot. }
    destruct U as [U1 U2].
    rewrite (ws_ok _ _ _ (skip x) (Some (d, node))); [ now rewrite skip_skip | ].
    rewrite skip_spaces; [ | now apply blanks_spaces | exact S1 ].
    unfold opt, tstats_from. fold node_p. unfold preceded at 1. unfold p_bind.
    rewrite (ws_ok _ _ _ (b2 ++ w2 ++ b3 ++ d ++ u ++ x)%string w1) by (rewrite skip_stops by exact S1; now apply tag_nc_read).
    rewrite skip_spaces; [ | now apply blanks_spaces | exact S2 ].
    unfold pair_, p_bind. rewrite (ws_ok _ _ _ (u ++ x)%string d).
    + now rewrite U2.
    + rewrite skip_stops by exact S2. unfold preceded, p_bind.
      rewrite (ws_ok _ _ _ (b3 ++ d ++ u ++ x)%string w2) by (rewrite skip_stops by exact S2; now apply tag_nc_read).
      rewrite skip_spaces by auto. apply dotted_read; auto. now apply lit_dot.
Qed.

(** *** WHERE *)
Lemma by_rest_end : forall A (item : A -> string -> Prop) by_ u rest, maybe_by item by_ u -> after_cmd rest -> cond_end (u ++ rest) /\ after_term (u ++ rest).
Proof.
  intros A item by_ u rest [[_ ->]|(fs & _ & b1 & w & b2 & v & H1 & Hw & H2 & _ & ->)] Hr.
  - split; [ now apply cmd_cond_end | now apply after_cmd_term ].
  - rewrite !append_assoc_s. split; [ | now apply blanks_after ].
    assert (Ht : forall t, clash t "by" = true -> tag_no_case t (w ++ b2 ++ v ++ rest) = PErr) by (intros t Ht; now apply (clash_err t "by")).
    split.
    + apply group_end_by; [ now apply blanks_spaces | now apply by_stops | now apply Ht | ].
      intro R. apply (reserved_not_term R "BY"); [ cbn; tauto | apply same_word_lower; apply same_word_lower in Hw; exact Hw | ].
      destruct H2 as [Hne H2]. destruct b2 as [|c b2]; [ congruence | ]. destruct H2. cbn. now left.
    + apply WhereFacts.ws_spaces; [ now apply blanks_spaces | now apply by_stops | now apply Ht ].
Qed.
Lemma where_read : forall e g x, where_part e g -> cond_end x -> after_term x -> tag_no_case "where" (skip x) = PErr ->
  reads (fun R => ws (opt (tstats_where R))) (skip (g ++ x)) (skip x) e.
Proof.
  intros e g x Hg He Ht Hx. destruct Hg as [(-> & ->)|(b1 & w & b2 & c & u & H1 & Hw & H2 & Hc & Hs & _ & -> & ->)].
  - cbn [append]. exists 0. intros m _. rewrite (ws_ok _ _ _ (skip x) None); [ now rewrite skip_skip | ].
    unfold opt, tstats_where, preceded, p_bind. rewrite ws_err; auto; now rewrite !skip_skip.
  - rewrite !append_assoc_s. assert (S2 : stops is_space (u ++ x)) by now apply (cond_spelled_stops c).
    assert (S1 : stops is_space (w ++ b2 ++ u ++ x)) by (apply (kw_stops "where"); auto; cbn; tauto).
    rewrite skip_spaces; [ | now apply blanks_spaces | exact S1 ].
    destruct (cond_spelled_reads c u x Hc Hs (or_introl Ht) He) as [n Hn]. exists n. intros m Hm.
    rewrite (ws_ok _ _ _ (skip x) (Some (cond_meaning c))); [ now rewrite skip_skip | ]. rewrite skip_stops by exact S1.
    unfold opt, tstats_where, preceded. unfold p_bind.
    rewrite (ws_ok _ _ _ (b2 ++ u ++ x)%string w) by (rewrite skip_stops by exact S1; now apply tag_nc_read).
    rewrite skip_spaces; [ | now apply blanks_spaces | exact S2 ].
    rewrite (ws_ok _ _ _ x (cond_meaning c)); auto. rewrite skip_stops by exact S2. apply or_ok. now apply Hn.
Qed.
Lemma where_from_rest : forall e g A (item : A -> string -> Prop) by_ u rest, where_part e g -> maybe_by item by_ u -> after_cmd rest -> from_rest (g ++ u ++ rest).
Proof.
  intros e g A item by_ u rest Hg Hby Hr.
  assert (B : from_rest (u ++ rest)).
  { destruct Hby as [[_ ->]|(fs & _ & b1 & w & b2 & v & H1 & Hw & H2 & _ & ->)].
    - cbn [append]. split; [ now apply after_ends | ]. pose proof (after_tail rest Hr) as T. revert T. generalize (skip rest).
      intros t T. destruct t as [|c t]; [ split; reflexivity | ]. destruct T as [-> | ->]; split; reflexivity.
    - rewrite !append_assoc_s. split; [ now apply blanks_tok | ]. rewrite by_skip by auto. split; [ now apply by_tag_err | ].
      unfold node_p. apply ws_err. rewrite skip_stops by now apply by_stops. unfold preceded, p_bind. rewrite ws_err; auto.
      rewrite skip_stops by now apply by_stops. now apply by_tag_err. }
  destruct Hg as [(-> & ->)|(b1 & w & b2 & c & s & H1 & Hw & H2 & Hc & Hs & Hn & -> & ->)]; [ exact B | ].
  rewrite !append_assoc_s. split; [ now apply blanks_tok | ]. rewrite (kw_skip "where") by (auto; cbn; tauto).
  split; [ now apply (clash_err "from" "where") | ].
  assert (S1 : stops is_space (w ++ b2 ++ s ++ u ++ rest)) by (apply (kw_stops "where"); auto; cbn; tauto).
  assert (S2 : stops is_space (s ++ u ++ rest)) by now apply (cond_spelled_stops c).
  unfold node_p. apply ws_err. rewrite skip_stops by exact S1. unfold preceded at 1, p_bind.
  rewrite (ws_ok _ _ _ (b2 ++ s ++ u ++ rest)%string w) by (rewrite skip_stops by exact S1; now apply tag_nc_read).
  rewrite skip_spaces; [ | now apply blanks_spaces | exact S2 ]. apply ws_err. rewrite skip_stops by exact S2.
  unfold preceded, p_bind. unfold tag_no_case at 1. destruct (strip_prefix_nc "nodename=" (s ++ u ++ rest)) as [r|] eqn:E; [ | reflexivity ].
  exfalso. apply Hn. apply (strip_eq_inv _ _ (u ++ rest)%string r); auto; [ unfold letter; cbn; repeat split; auto; left; lia | ].
  destruct Hby as [[_ ->]|(fs & _ & b1' & w' & b2' & v & H1' & Hw' & H2' & _ & ->)].
  - apply after_head_end. exact Hr.
  - rewrite !append_assoc_s. destruct (blanks_head b1' H1') as (d & r' & -> & _ & Hd). cbn [append]. unfold letter.
    destruct Hd as [-> |[-> |[-> | ->]]]; cbn; split; try lia; discriminate.
Qed.

(** *** The command *)
Lemma ts_rest_final : forall model node f e g A (item : A -> string -> Prop) by_ u rest, from_part model node f -> where_part e g -> maybe_by item by_ u -> after_cmd rest ->
  ts_final (f ++ g ++ u ++ rest).
Proof.
  intros model node f e g A item by_ u rest Hf Hg Hby Hr.
  destruct Hf as [(_ & _ & ->)|(b1 & w1 & b2 & w2 & b3 & d & v & H1 & Hw1 & H2 & Hw2 & H3 & Hd & -> & -> & Hu)].
  2:{ right. exists "from"%string, b1, w1, b2. rewrite !append_assoc_s. eexists. split; [ reflexivity | ]. split; [ cbn; tauto | auto ]. }
  destruct Hg as [(_ & ->)|(b1 & w & b2 & c & s & H1 & Hw & H2 & Hc & Hs & Hn & -> & ->)].
  2:{ right. exists "where"%string, b1, w, b2. rewrite !append_assoc_s. eexists. split; [ reflexivity | ]. split; [ cbn; tauto | auto ]. }
  destruct Hby as [[_ ->]|(fs & _ & b1' & w' & b2' & v & H1' & Hw' & H2' & _ & ->)]; [ now left | ].
  right. exists "by"%string, b1', w', b2'. rewrite !append_assoc_s. eexists. split; [ reflexivity | ]. split; [ cbn; tauto | auto ].
Qed.
Lemma ts_by_read : forall by_ u rest, maybe_by by_item by_ u -> after_cmd rest ->
  exists v, ws (opt tstats_by) (skip (u ++ rest)) = POk (skip rest) v /\ or_default (None, None) v = (by_, None).
Proof.
  intros by_ u rest Hby Hr.
  destruct Hby as [[-> ->]|(fs & -> & b1 & w & b2 & v & H1 & Hw & H2 & Hv & ->)].
  - exists None. split; auto. cbn [append]. rewrite (ws_ok _ _ _ (skip rest) None); [ now rewrite skip_skip | ].
    unfold opt, tstats_by, preceded, p_bind. rewrite ws_err; [ now rewrite !skip_skip | ]. rewrite !skip_skip. pose proof (after_tail rest Hr) as T. revert T. generalize (skip rest). by_tail.
  - exists (Some (Some fs, None)). split; auto. rewrite !append_assoc_s. rewrite by_skip by auto.
    pose proof (bys_stop fs v rest Hv) as S2. assert (S1 : stops is_space (w ++ b2 ++ v ++ rest)) by now apply by_stops.
    apply ws_ok. rewrite skip_stops by exact S1. unfold opt, tstats_by, preceded, p_bind.
    rewrite (ws_ok _ _ _ (b2 ++ v ++ rest)%string w) by (rewrite skip_stops by exact S1; now apply tag_nc_read).
    rewrite skip_spaces; [ | now apply blanks_spaces | exact S2 ].
    rewrite (or_ok _ _ _ _ rest (Some fs, None)); auto. unfold p_map, p_bind. now rewrite (bys_read fs).
Qed.
Lemma tstats_body : forall o a l s model node f e g by_ u t c, listed0 blanks option_item o a -> tstats_list l s -> from_part model node f ->
  where_part e g -> maybe_by by_item by_ u -> beside a (s ++ f ++ g ++ u) t -> tstats_says o c ->
  reads_body p_tstats (CTStats c l model node e by_ None) t.
Proof.
  intros o a l s model node f e g by_ u t c Ho Hl Hf Hg Hby Ht (prestats & local & app & summaries & buckets & old & chunk & fill & O1 & O2 & O3 & O4 & O5 & O6 & O7 & O8 & ->).
  assert (Hopt : tstats_options o = Ok (mkTStatsOpts prestats local app summaries buckets old chunk fill)) by (unfold tstats_options; says; reflexivity).
  assert (Hb : forall y, begins ((s ++ f ++ g ++ u) ++ y)).
  { intro y. rewrite append_assoc_s. assert (X : exists n r z, s = (String n r) /\ begins (String n z)).
    { destruct (list_start l s EmptyString Hl (or_introl after_nil)) as (w & z & E & Hw & _). rewrite append_nil_r in E.
      destruct (ident_head w Hw) as (c & r & -> & _). exists c, (r ++ z)%string, EmptyString. split; auto.
      pose proof (ident_begins _ EmptyString Hw) as B. cbn in B. exact B. }
    destruct X as (n & r & z & -> & B). exact B. }
  split; [ intro y; apply begins_stops; eapply beside_begins; eauto | ]. intros rest Hr. exists (skip rest). split; auto.
  pose proof (ts_rest_final _ _ _ _ _ _ _ _ _ rest Hf Hg Hby Hr) as Hfin.
  destruct (by_rest_end _ _ _ _ rest Hby Hr) as [He Hat].
  assert (Hw : tag_no_case "where" (skip (u ++ rest)) = PErr).
  { destruct Hby as [[_ ->]|(fs & _ & b1 & w & b2 & v & H1 & Hw & H2 & _ & ->)].
    - cbn [append]. pose proof (after_tail rest Hr) as T. revert T. generalize (skip rest). by_tail.
    - rewrite !append_assoc_s. rewrite by_skip by auto. now apply by_tag_err. }
  destruct (where_read e g (u ++ rest)%string Hg He Hat Hw) as [n Hn].
  destruct (ts_by_read by_ u rest Hby Hr) as (v & Ev & Dv).
  exists n. intros m Hm. unfold p_tstats. unfold p_bind at 1.
  rewrite (opts_first _ tstats_options o a (s ++ f ++ g ++ u)%string t rest _ Ho Ht Hopt).
  - rewrite !append_assoc_s. unfold p_bind at 1. rewrite (list_read l s) by auto. unfold p_bind at 1.
    rewrite (from_read model node f) by (auto; eapply where_from_rest; eauto). unfold p_bind at 1. rewrite (Hn m Hm).
    unfold p_bind at 1. rewrite Ev. unfold p_ret. rewrite Dv.
    destruct model as [d|]; [ reflexivity | ]. destruct Hf as [(_ & -> & _)|(? & ? & ? & ? & ? & ? & ? & _ & _ & _ & _ & _ & _ & X & _)]; [ reflexivity | discriminate ].
  - apply begins_full. exact Hb.
  - now apply begins_stops.
  - rewrite !append_assoc_s. destruct (list_start l s _ Hl Hfin) as (w & z & -> & Hp & Hz). solve [ apply word_no_key; auto ].
Qed.
