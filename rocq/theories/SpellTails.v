(** What head with a condition and flags and further commands read (C69). *)
From Coq Require Import Lia.
From Verif Require Import Str SplAst Nom Lexer Parser CmdParser ParserFacts ParserTotal ParserFuel.
From Verif Require Import SpecText SpecExpr SpecSpell LexFacts TokenFacts NameFacts ExprFacts LogicFacts EvalFacts SpellFacts SpellOptions SpellMore SpellBodies SpellForms.

(** *** head *)
Lemma skip_app : forall b y, spaces b -> skip (b ++ y) = skip y.
Proof.
  induction b as [|c b IH]; intros y Hb; [ reflexivity | ]. destruct Hb as [Hc Hb]. cbn [append]. rewrite <- (IH y Hb).
  unfold skip. cbn [span]. rewrite (proj2 (is_space_spec c) Hc). now destruct (span is_space (b ++ y)).
Qed.
Lemma key_head : forall k w x, same_word w k -> match k with String c _ => letter c | EmptyString => False end ->
  exists c r, (w ++ x)%string = String c r /\ letter c /\ match k with String d _ => lower_c c = lower_c d | EmptyString => False end.
Proof.
  intros k w x H Hk. destruct H as [|c d s t Hl H]; [ destruct Hk | ]. cbn [append]. exists c, (s ++ x)%string. split; auto. split.
  - unfold letter, same_letter in *. destruct Hl as [-> |Hl]; lia.
  - now apply lower_c_same.
Qed.
Lemma head_word_err : forall c r d k, lower_c c <> lower_c d -> tag_no_case (String d k) (String c r) = PErr.
Proof. intros c r d k H. unfold tag_no_case. cbn. destruct (Ascii.eqb_spec (lower_c d) (lower_c c)); [ congruence | reflexivity ]. Qed.
Lemma short_word : forall c c' d k b y, lower_c c' = lower_c c -> letter d -> blanks b -> tag_no_case (String c (String d k)) (String c' (b ++ y)) = PErr.
Proof.
  intros c c' d k b y Hc Hd Hb. destruct (blanks_head b Hb) as (e & r & -> & _ & He). unfold tag_no_case. cbn. rewrite Hc, Ascii.eqb_refl.
  destruct (Ascii.eqb_spec (lower_c d) (lower_c e)) as [E|]; [ exfalso | reflexivity ].
  apply lower_c_same in E. unfold letter, same_letter in *. destruct He as [-> |[-> |[-> | ->]]]; cbn in E; destruct E as [-> |E]; cbn in *; lia.
Qed.
Lemma letter_word : forall w c, same_word w (String c "") -> exists d, w = String d "" /\ lower_c d = lower_c c.
Proof.
  intros w c H. inversion H as [|d c' s t Hl Hs]; subst. inversion Hs; subst. exists d. split; auto. now apply lower_c_same.
Qed.
Lemma truth_read : forall x v b y, truth_word x v -> blanks b -> p_bool (v ++ b ++ y) = POk (b ++ y)%string x.
Proof.
  intros x v b y Hv Hb. unfold p_bool, terminated, p_bind.
  assert (P : (peek (eof <|> multispace1 <|> recognize (one_of "().:"))) (b ++ y)%string = POk (b ++ y)%string (fst (span is_space (b ++ y)))).
  { destruct (blanks_head b Hb) as (d & r & -> & _ & Hd). unfold peek, eof, p_or, multispace1, take_while1. cbn [append span].
    assert (is_space d = true) as -> by (destruct Hd as [-> |[-> |[-> | ->]]]; reflexivity). now destruct (span is_space (r ++ y)). }
  set (p := p_map (fun _ => true) (tag_no_case "true") <|> _).
  assert (p (v ++ b ++ y)%string = POk (b ++ y)%string x) as ->; [ | now rewrite P ]. subst p.
  assert (M : forall A (a : A) k s r c, tag_no_case k s = POk r c -> p_map (fun _ : string => a) (tag_no_case k) s = POk r a).
  { intros A a k s r c E. unfold p_map, p_bind. now rewrite E. }
  assert (N : forall A (a : A) k s, tag_no_case k s = PErr -> p_map (fun _ : string => a) (tag_no_case k) s = PErr).
  { intros A a k s E. unfold p_map, p_bind. now rewrite E. }
  assert (Q : forall s d k, (exists c r, s = String c r /\ lower_c c <> lower_c d) -> tag_no_case (String d k) s = PErr).
  { intros s d k (c & r & -> & H). now apply head_word_err. }
  destruct x; destruct Hv as [Hv|Hv].
  - destruct (letter_word v "t"%char Hv) as (d & -> & Hd). cbn [append]. rewrite or_err.
    + apply or_ok. eapply M. apply (tag_nc_read "t" (String d "") (b ++ y)%string Hv).
    + apply N, short_word; auto. unfold letter. cbn. lia.
  - apply or_ok. eapply M. now apply tag_nc_read.
  - destruct (letter_word v "f"%char Hv) as (d & -> & Hd). cbn [append].
    rewrite or_err by (apply N, Q; eexists _, _; split; [ reflexivity | rewrite Hd; discriminate ]).
    rewrite or_err by (apply N, Q; eexists _, _; split; [ reflexivity | rewrite Hd; discriminate ]).
    rewrite or_err; [ | apply N ].
    + eapply M. apply (tag_nc_read "f" (String d "") (b ++ y)%string Hv).
    + apply short_word; auto. unfold letter. cbn. lia.
  - destruct (key_head "false" v (b ++ y) Hv) as (c & r & E & _ & Hc); [ unfold letter; cbn; lia | ].
    rewrite or_err by (apply N, Q; exists c, r; split; [ exact E | rewrite Hc; discriminate ]).
    rewrite or_err by (apply N, Q; exists c, r; split; [ exact E | rewrite Hc; discriminate ]).
    apply or_ok. eapply M. now apply tag_nc_read.
Qed.
Lemma flag_read : forall key x p y, flag_part key x p -> match key with String c _ => letter c | EmptyString => False end ->
  tag_no_case key (skip y) = PErr ->
  exists v, ws (opt (preceded (ws (tag_no_case key)) p_bool)) (p ++ y) = POk (skip y) v /\ or_default false v = x.
Proof.
  intros key x p y [[-> ->]|(w & b1 & v & b2 & Hw & H1 & Hv & H2 & ->)] Hk Hy.
  - exists None. split; auto. cbn [append]. rewrite (ws_ok _ _ _ (skip y) None); [ now rewrite skip_skip | ].
    unfold opt, preceded, p_bind. rewrite ws_err; auto. now rewrite skip_skip.
  - exists (Some x). split; auto. rewrite !append_assoc_s.
    assert (stops is_space (w ++ b1 ++ v ++ b2 ++ y)) as St.
    { destruct (key_head key w (b1 ++ v ++ b2 ++ y)%string Hw Hk) as (c & r & -> & Hc & _). cbn. apply name_char_facts. now left. }
    assert (stops is_space (v ++ b2 ++ y)) as Sv.
    { assert (exists c r, (v ++ b2 ++ y)%string = String c r /\ letter c) as (c & r & -> & Hc).
      { destruct x; destruct Hv as [Hv|Hv]; destruct (key_head _ v (b2 ++ y)%string Hv) as (c & r & E & Hc & _); try (unfold letter; cbn; lia); eauto. }
      cbn. apply name_char_facts. now left. }
    rewrite (ws_ok _ _ _ (b2 ++ y)%string (Some x)); [ now rewrite skip_app by now apply blanks_spaces | ].
    rewrite skip_stops by exact St. unfold opt, preceded, p_bind.
    rewrite (ws_ok _ _ _ (b1 ++ v ++ b2 ++ y)%string w) by (rewrite skip_stops by exact St; now apply tag_nc_read).
    rewrite skip_spaces by auto. now rewrite (truth_read x).
Qed.
Lemma flag_head : forall key x p y d, flag_part key x p -> match key with String c _ => letter c /\ lower_c c <> lower_c d | EmptyString => False end ->
  (exists c r, (p ++ y)%string = String c r /\ letter c /\ lower_c c <> lower_c d) \/ p = EmptyString.
Proof.
  intros key x p y d [[_ ->]|(w & b1 & v & b2 & Hw & H1 & Hv & H2 & ->)] Hk; auto. left.
  rewrite append_assoc_s. destruct (key_head key w ((b1 ++ v ++ b2) ++ y)%string Hw) as (c & r & -> & Hc & Hd); [ destruct key; tauto | ].
  exists c, r. split; auto. split; auto. destruct key; [ destruct Hd | ]. destruct Hk. congruence.
Qed.
Lemma strip_eq_inv : forall k s x r, all_chars (fun c => letter c \/ c = "="%char) k ->
  match x with String c _ => ~ letter c /\ c <> "="%char | EmptyString => True end -> strip_prefix_nc k (s ++ x) = Some r -> starts_word k s.
Proof.
  induction k as [|d k IH]; intros s x r Hk Hx H.
  - exists EmptyString, s. split; auto. constructor.
  - destruct Hk as [Hd Hk]. destruct s as [|c s].
    + exfalso. cbn in H. destruct x as [|c x]; [ discriminate | ]. destruct (Ascii.eqb_spec (lower_c d) (lower_c c)) as [E|]; [ | discriminate ].
      destruct Hx as [H1 H2]. apply lower_c_same in E. unfold letter, same_letter in *. destruct Hd as [Hd| ->]; destruct E as [<-|E]; auto; cbn in *; lia.
    + cbn in H. destruct (Ascii.eqb_spec (lower_c d) (lower_c c)) as [E|]; [ | discriminate ].
      destruct (IH s x r Hk Hx H) as (a & b & -> & Ha). exists (String c a), b. split; auto. constructor; auto. apply lower_c_same. auto.
Qed.
Definition head_end (rest : string) : Prop := closed rest /\ op9 rest = PErr /\ tok_end lit_specials rest /\
  match rest with String c _ => ~ letter c /\ c <> "="%char | EmptyString => True end.
Lemma head_part_read : forall e s rest, head_part e s -> head_end rest ->
  reads (fun R => ws (p_map eint (p_int <|> preceded (ws (tag_no_case "limit=")) p_int) <|> expr R)) (s ++ rest) (skip rest) e
  /\ stops is_space (s ++ rest).
Proof.
  intros e s rest He (C1 & C2 & Te & Hx). destruct He as [(n & Hn & ->)|(t & Ht & Hw & -> & Hh & Hl)].
  - assert (stops is_space (s ++ rest) /\ (p_int <|> preceded (ws (tag_no_case "limit=")) p_int) (s ++ rest)%string = POk rest n) as [St E].
    { destruct Hn as [[Hn ->]|(w & b & u & Hw & Hb & [Hn ->] & ->)].
      - split; [ apply decimal_stops | ]. apply or_ok. now apply count_read.
      - rewrite !append_assoc_s. destruct (key_head "limit=" w (b ++ decimal n ++ rest)%string Hw) as (c & r & E & Hc & _); [ unfold letter; cbn; lia | ].
        assert (stops is_space (w ++ b ++ decimal n ++ rest)) as St by (rewrite E; cbn; apply name_char_facts; now left).
        split; [ exact St | ]. rewrite or_err by (rewrite E; apply no_int; now left). unfold preceded, p_bind.
        rewrite (ws_ok _ _ _ (b ++ decimal n ++ rest)%string w) by (rewrite skip_stops by exact St; now apply tag_nc_read).
        rewrite skip_spaces by (auto; apply decimal_stops). now rewrite count_read. }
    split; auto. exists 0. intros m _. apply ws_ok. rewrite skip_stops by exact St. apply or_ok. unfold p_map, p_bind. now rewrite E.
  - pose proof (written_reads 9 t s Hw Ht) as E. pose proof (et_stops _ _ _ E rest) as St. split; auto.
    destruct (ex_reads _ _ E rest C1 C2) as [n H]. exists n. intros m Hm. apply ws_ok. rewrite skip_stops by exact St.
    rewrite or_err; [ now apply H | ]. unfold p_map. unfold p_bind at 1. destruct s as [|c s]; [ destruct Hh | ].
    rewrite or_err.
    + unfold preceded, p_bind. rewrite ws_err; auto. rewrite skip_stops by exact St. unfold tag_no_case.
      destruct (strip_prefix_nc "limit=" (String c s ++ rest)) as [r|] eqn:X; auto. exfalso. apply Hl.
      apply (strip_eq_inv _ _ rest r); auto. unfold letter. cbn. repeat split; auto; left; lia.
    + cbn [append]. destruct Hh as [Hh|[Hh| ->]]; [ apply no_int; auto | apply no_int; auto | reflexivity ].
Qed.
Lemma word_end : forall b k w x, blanks b -> same_word w k -> match k with String c _ => letter c /\ lower_c c <> "a"%char /\ lower_c c <> "o"%char /\ lower_c c <> "i"%char | EmptyString => False end ->
  head_end (b ++ w ++ x).
Proof.
  intros b k w x Hb Hw Hk. destruct (key_head k w x Hw) as (c & r & E & Hc & Hd); [ destruct k; tauto | ].
  destruct k as [|d k]; [ destruct Hd | ]. destruct Hk as (_ & K1 & K2 & K3). rewrite <- Hd in *.
  assert (forall z k', lower_c c <> lower_c z -> ~ starts_word (String z k') (w ++ x)) as N.
  { intros z k' Hz (a & y & Ea & Ha). inversion Ha as [|c' z' s1 s2 Hl]; subst. rewrite E in Ea. injection Ea as <- _. apply Hz. now apply lower_c_same. }
  destruct (term_closed b (w ++ x) EmptyString Hb I) as (A1 & A2 & A3); rewrite ?append_nil_r in *.
  - exists c, r. split; auto. now left.
  - now apply N.
  - now apply N.
  - intros (a & b' & y & Ea & Ha & _). inversion Ha as [|c' z' s1 s2 Hl]; subst. rewrite E in Ea. injection Ea as <- _. apply K3.
    apply lower_c_same in Hl. exact Hl.
  - split; auto. split; auto. split; auto. destruct (blanks_head b Hb) as (e & r' & -> & _ & He). cbn [append].
    unfold letter. destruct He as [-> |[-> |[-> | ->]]]; cbn; split; try lia; discriminate.
Qed.
Lemma after_head_end : forall rest, after_cmd rest -> head_end rest.
Proof.
  intros rest H. destruct (after_closed rest H) as [C1 C2]. split; auto. split; auto. split; [ now apply after_ends | ].
  destruct H as (b & tail & -> & Hb & Ht). destruct b as [|c b]; cbn [append].
  - unfold letter. destruct tail as [|c tail]; auto. destruct Ht as [-> | ->]; cbn; split; try lia; discriminate.
  - unfold letter. apply andb_true_iff in Hb. destruct Hb as [Hb _]. destruct (space_char c Hb) as [-> |[-> |[-> | ->]]]; cbn; split; try lia; discriminate.
Qed.
Lemma head_part_stops : forall e s x, head_part e s -> stops is_space (s ++ x) /\ s <> EmptyString.
Proof.
  intros e s x [(n & [[_ ->]|(w & b & u & Hw & Hb & _ & ->)] & _)|(t & Ht & Hw & _ & Hh & _)].
  - split; [ apply decimal_stops | ]. pose proof (decimal_numeral n) as (m & d & -> & Hd & _). destruct (numeral_head m d Hd) as (c & r & -> & _). discriminate.
  - rewrite !append_assoc_s. destruct (key_head "limit=" w (b ++ u ++ x)%string Hw) as (c & r & E & Hc & _); [ unfold letter; cbn; lia | ].
    split; [ rewrite E; cbn; apply name_char_facts; now left | ]. inversion Hw; discriminate.
  - split; [ apply (et_stops _ _ _ (written_reads 9 t s Hw Ht)) | destruct s; [ destruct Hh | discriminate ] ].
Qed.
Lemma head_full_body : forall e s keep u null v t, head_part e s -> flag_part "keeplast=" keep u -> flag_part "null=" null v -> beside s (u ++ v) t ->
  reads_body p_head (CHead e keep null) t.
Proof.
  intros e s keep u null v t He Hu Hv Ht. split.
  { intro x. destruct (head_part_stops e s x He) as [_ Hn]. destruct Ht as [[-> _]|[[_ ->]|(_ & _ & k & _ & ->)]]; [ congruence | | rewrite append_assoc_s ]; now apply (head_part_stops e). }
  intros rest Hr. exists (skip rest). split; [ now right | ].
  assert (exists y, (t ++ rest)%string = (s ++ y)%string /\ head_end y /\ skip y = skip (u ++ v ++ rest)) as (y & -> & Hy & Sy).
  { destruct (head_part_stops e s "" He) as [_ Hn]. destruct Ht as [[-> _]|[[E ->]|(_ & Hne & k & Hk & ->)]]; [ congruence | | ].
    - exists rest. split; auto. split; [ now apply after_head_end | ]. destruct u; [ | discriminate ]. cbn in E. now rewrite E.
    - exists (k ++ u ++ v ++ rest)%string. rewrite !append_assoc_s. split; auto. split; [ | apply skip_app; now apply blanks_spaces ].
      destruct Hu as [[_ ->]|(w & b1 & z & b2 & Hw & _ & _ & _ & ->)].
      + destruct Hv as [[_ ->]|(w & b1 & z & b2 & Hw & _ & _ & _ & ->)]; [ now elim Hne | ]. rewrite !append_assoc_s.
        cbn [append]. apply (word_end k "null="); auto. unfold letter. cbn. split; [ lia | split; [ discriminate | split; discriminate ] ].
      + rewrite !append_assoc_s. apply (word_end k "keeplast="); auto. unfold letter. cbn. split; [ lia | split; [ discriminate | split; discriminate ] ]. }
  destruct (head_part_read e s y He Hy) as [[n H] _]. exists n. intros m Hm. unfold p_head. unfold p_bind at 1. rewrite (H m Hm), Sy.
  pose proof (after_tail rest Hr) as Htl.
  assert (W : forall A (p : Parser A) z, ws p (skip z) = ws p z).
  { intros A p z. unfold ws, delimited, p_bind. rewrite !ms0_eq. cbn [fst snd]. fold (skip z) (skip (skip z)). now rewrite skip_skip. }
  destruct (flag_read "keeplast=" keep u (v ++ rest)%string Hu) as (k1 & E1 & D1).
  { unfold letter. cbn. lia. }
  { destruct (flag_head "null=" null v rest "k"%char Hv) as [(c & r & E & Hc & Hd)| ->].
    - unfold letter. cbn. split; [ lia | discriminate ].
    - rewrite E. rewrite skip_stops by (cbn; apply name_char_facts; now left). now apply head_word_err.
    - cbn [append]. revert Htl. generalize (skip rest). by_tail. }
  destruct (flag_read "null=" null v rest Hv) as (k2 & E2 & D2).
  { unfold letter. cbn. lia. }
  { revert Htl. generalize (skip rest). by_tail. }
  unfold p_bind at 1. rewrite W, E1. unfold p_bind at 1. rewrite W, E2, D1, D2. reflexivity.
Qed.

(** *** sort *)
Lemma sort_full_body : forall n a l s d u, sort_count n a -> listed (around ",") sort_item l s -> desc_part d u ->
  reads_body p_sort (CSort l n d) (a ++ s ++ u).
Proof.
  intros n a l s d u Ha H Hu.
  assert (St : forall x, stops is_space (s ++ x)) by (intro x; apply begins_stops; revert H; apply listed_begins; exact sort_begins).
  assert (Sl : forall x, stops is_space x -> stops is_space (a ++ x)).
  { intros x Hx. destruct Ha as [[_ ->]|(v & b & Hv & _ & ->)]; [ exact Hx | ]. rewrite append_assoc_s.
    apply (head_part_stops (ELeaf (LConstant (KInt n)))). left. exists n. auto. }
  split; [ intro x; rewrite !append_assoc_s; apply Sl, St | ]. intros rest Hr.
  assert (F : keys_final (u ++ rest) /\ no_eq (u ++ rest) /\ exists v r, opt (ws (tag_no_case "desc")) (u ++ rest)%string = POk r v /\
    (r = rest \/ r = skip rest) /\ match v with Some _ => true | None => false end = d).
  { destruct Hu as [[-> ->]|(b & w & Hb & Hw & -> & ->)].
    - destruct (after_closed rest Hr) as [C1 C2]. cbn [append]. split; [ split; auto; split; auto; now apply comma_end | ]. split; [ now apply after_no_eq | ].
      exists None, rest. split; [ now apply desc_none | auto ].
    - rewrite append_assoc_s. assert (K : letter "d" /\ lower_c "d" <> "a"%char /\ lower_c "d" <> "o"%char /\ lower_c "d" <> "i"%char).
      { unfold letter. cbn. split; [ lia | split; [ discriminate | split; discriminate ] ]. }
      destruct (word_end b "desc" w rest Hb Hw K) as (C1 & C2 & _ & _).
      destruct (key_head "desc" w rest Hw (proj1 K)) as (c & r & E & Hc & _).
      assert (Sw : stops is_space (w ++ rest)) by (rewrite E; cbn; apply name_char_facts; now left).
      assert (skip (b ++ w ++ rest) = (w ++ rest)%string) as S1 by (apply skip_spaces; auto; now apply blanks_spaces).
      split; [ split; auto; split; auto | split ].
      + apply ws_err. rewrite S1, E. apply tag1_err. destruct (Ascii.eqb_spec ","%char c) as [<-|]; auto. unfold letter in Hc. cbn in Hc. lia.
      + destruct (blanks_head b Hb) as (e & r' & -> & _ & He). apply space_no_eq. left. destruct He as [-> |[-> |[-> | ->]]]; reflexivity.
      + exists (Some w), (skip rest). split; [ | auto ]. unfold opt. rewrite (ws_ok _ _ _ rest w); auto. rewrite S1. now apply tag_nc_read. }
  destruct F as (F1 & F2 & v & r & E1 & Er & Ev). exists r. split; auto.
  destruct (keys_read l s (u ++ rest)%string H F1) as [n' Hn']. exists n'. intros m Hm. rewrite !append_assoc_s. unfold p_sort. unfold p_bind at 1.
  assert (exists c, opt (preceded (opt (ws (tag_no_case "limit="))) (ws p_int)) (a ++ s ++ u ++ rest)%string = POk (s ++ u ++ rest)%string c /\ or_default 10000%Z c = n) as (c & -> & Hc).
  { destruct Ha as [[-> ->]|(z & b & Hz & Hb & ->)].
    - exists None. split; auto. cbn [append]. now apply (limit_err l).
    - exists (Some n). split; auto. rewrite !append_assoc_s.
      assert (P : forall k, (0 <= n < 2 ^ 63)%Z -> spaces k -> ws p_int (k ++ decimal n ++ b ++ s ++ u ++ rest) = POk (s ++ u ++ rest)%string n).
      { intros k Hn Hk. rewrite (ws_ok _ _ _ (b ++ s ++ u ++ rest)%string n).
        - now rewrite skip_spaces by (auto; now apply blanks_spaces).
        - rewrite skip_spaces by (auto; apply decimal_stops). apply count_read; auto. now apply blanks_tok. }
      unfold opt at 1, preceded. unfold p_bind at 1. destruct Hz as [[Hn ->]|(w & b' & u' & Hw & Hb' & [Hn ->] & ->)].
      + assert (opt (ws (tag_no_case "limit=")) (decimal n ++ b ++ s ++ u ++ rest)%string = POk (decimal n ++ b ++ s ++ u ++ rest)%string None) as ->.
        { unfold opt. rewrite ws_err; [ reflexivity | ]. rewrite skip_stops by apply decimal_stops.
          destruct (decimal_numeral n) as (m' & d' & -> & Hd & _). destruct (numeral_chars m' d' (b ++ s ++ u ++ rest)%string Hd) as (c & r' & -> & Hc).
          apply kw_head_err; [ unfold letter; cbn; lia | now apply numeral_head_facts ]. }
        pose proof (P EmptyString Hn I) as P0. cbn [append] in P0. now rewrite P0.
      + rewrite !append_assoc_s. destruct (key_head "limit=" w (b' ++ decimal n ++ b ++ s ++ u ++ rest)%string Hw) as (c & r' & E & Hc & _); [ unfold letter; cbn; lia | ].
        unfold opt. rewrite (ws_ok _ _ _ (b' ++ decimal n ++ b ++ s ++ u ++ rest)%string w).
        2:{ rewrite skip_stops; [ now apply tag_nc_read | ]. rewrite E. cbn. apply name_char_facts. now left. }
        rewrite skip_spaces by (auto; apply decimal_stops). pose proof (P EmptyString Hn I) as P0. cbn [append] in P0. now rewrite P0. }
  unfold p_bind at 1. rewrite (Hn' m Hm). unfold p_bind at 1. rewrite E1. unfold p_ret. now rewrite Hc, Ev.
Qed.

(** *** datamodel *)
Lemma after_start : forall rest, after_cmd rest -> rest = EmptyString \/
  exists r, rest = String " " r \/ rest = String (ascii_of_nat 9) r \/ rest = String (ascii_of_nat 10) r \/ rest = String (ascii_of_nat 13) r \/ rest = String "|" r \/ rest = String "]" r.
Proof.
  intros rest (b & tail & -> & Hb & Ht). destruct b as [|c b]; cbn [append].
  - destruct tail as [|c tail]; auto. right. exists tail. destruct Ht as [-> | ->]; tauto.
  - right. exists (b ++ tail)%string. apply andb_true_iff in Hb. destruct Hb as [Hb _]. destruct (space_char c Hb) as [-> |[-> |[-> | ->]]]; tauto.
Qed.
Ltac by_start_of Hr := let r := fresh in destruct (after_start _ Hr) as [-> |(r & [-> |[-> |[-> |[-> |[-> | ->]]]]])]; reflexivity.
Definition mode_part (mode : option string) (u : string) : Prop := mode = None /\ u = EmptyString \/ In u mode_words /\ mode = Some u.
Definition p_mode : Parser (option string) := opt (tag_no_case "search" <|> tag_no_case "flat" <|> tag_no_case "acceleration_search").
Lemma search_token : forall rest, tok_end tok_specials rest -> token_of tok_specials ("search" ++ rest) = PErr.
Proof. intros rest Hr. rewrite token_of_read; [ reflexivity | discriminate | reflexivity | auto ]. Qed.
Lemma lit_tok : forall rest, tok_end lit_specials rest -> tok_end tok_specials rest.
Proof.
  intros [|c r]; cbn; auto. intros [H1 H2]. split; auto. unfold tok_char in *. apply orb_false_iff in H1. destruct H1 as [H1 ->]. rewrite orb_false_r.
  destruct (has_char c tok_specials) eqn:E; auto. exfalso. revert H1. unfold has_char, sexists in *. cbn in *.
  destruct c as [[] [] [] [] [] [] [] []]; cbn in *; congruence.
Qed.
Lemma mode_word_err : forall u rest, In u mode_words -> tok_end lit_specials rest -> field_not_keyword (u ++ rest) = PErr.
Proof.
  intros u rest H Hr. unfold field_not_keyword, verify, p_bind. destruct H as [<-|H].
  - assert (field ("search" ++ rest) = PErr) as ->; [ | reflexivity ]. unfold field.
    rewrite or_err; [ reflexivity | ]. unfold field_fmt, recognize, separated_list1, p_bind. rewrite or_err; [ reflexivity | ].
    unfold token_not_t_f, verify, p_bind. change token with (token_of tok_specials). rewrite search_token; auto. now apply lit_tok.
  - assert (plain_ident u) as Hu by (destruct H as [<-|[<-|[]]]; now apply ident_by).
    rewrite field_ident by auto. destruct H as [<-|[<-|[]]]; reflexivity.
Qed.
Lemma mode_read : forall mode u rest x, mode_part mode u -> after_cmd rest -> x = (u ++ rest)%string \/ u = EmptyString /\ x = skip rest ->
  field_not_keyword (skip x) = PErr /\ exists r, (r = rest \/ r = skip rest) /\ p_mode x = POk r mode.
Proof.
  intros mode u rest x Hm Hr Hx. pose proof (after_tail rest Hr) as Ht. destruct Hm as [[-> ->]|[Hu ->]].
  - assert (skip x = skip rest) as E by (destruct Hx as [-> |[_ ->]]; [ reflexivity | apply skip_skip ]). split.
    + rewrite E. unfold field_not_keyword, verify, p_bind. now rewrite (proj2 (after_field rest Hr)).
    + exists x. split; [ destruct Hx as [-> |[_ ->]]; auto | ]. unfold p_mode, opt.
      destruct Hx as [-> |[_ ->]]; [ | revert Ht; generalize (skip rest); by_tail ].
      cbn [append]. clear E Ht. by_start_of Hr.
  - assert (x = (u ++ rest)%string) as -> by (destruct Hx as [-> |[-> _]]; [ reflexivity | ]; repeat (destruct Hu as [Hu|Hu]; [ discriminate | ]); destruct Hu).
    assert (stops is_space (u ++ rest)) as St by (repeat (destruct Hu as [<-|Hu]; [ reflexivity | ]); destruct Hu).
    rewrite skip_stops by exact St. split; [ apply mode_word_err; auto; now apply after_ends | ].
    exists rest. split; auto. unfold p_mode, opt.
    assert (same_word u u) as Hs by (clear; induction u; constructor; auto; now left).
    destruct Hu as [<-|[<-|[<-|[]]]].
    + now rewrite (or_ok _ _ _ _ _ _ (tag_nc_read _ _ rest Hs)).
    + rewrite or_err by reflexivity. now rewrite (or_ok _ _ _ _ _ _ (tag_nc_read _ _ rest Hs)).
    + rewrite or_err by reflexivity. rewrite or_err by reflexivity. now rewrite (tag_nc_read _ _ rest Hs).
Qed.
Lemma opt_none : forall A (p : Parser A) x, p (skip x) = PErr -> opt (ws p) x = POk x None.
Proof. intros A p x H. unfold opt. now rewrite ws_err. Qed.
Lemma name_read : forall n x, field_name n -> ~ In n mode_words -> tok_end lit_specials x -> opt (ws field_not_keyword) (n ++ x) = POk (skip x) (Some n).
Proof.
  intros n x Hn Hm Hx. unfold opt. rewrite (ws_ok _ _ _ x n); auto. rewrite skip_stops by solve [ apply ident_stops; auto ].
  unfold field_not_keyword, verify, p_bind. rewrite field_ident by auto.
  destruct (String.eqb_spec n "search"); [ exfalso; apply Hm; subst; cbn; tauto | ].
  destruct (String.eqb_spec n "flat"); [ exfalso; apply Hm; subst; cbn; tauto | ].
  destruct (String.eqb_spec n "acceleration_search"); [ exfalso; apply Hm; subst; cbn; tauto | ]. reflexivity.
Qed.
(** What follows the names: the keyword after white space, or nothing *)
Definition mode_text (u rest y : string) : Prop := u = EmptyString /\ y = rest \/ exists k, blanks k /\ u <> EmptyString /\ y = (k ++ u ++ rest)%string.
Lemma mode_text_facts : forall mode u rest y, mode_part mode u -> after_cmd rest -> mode_text u rest y ->
  tok_end lit_specials y /\ (skip y = (u ++ rest)%string \/ u = EmptyString /\ skip y = skip rest).
Proof.
  intros mode u rest y Hm Hr [[-> ->]|(k & Hk & Hu & ->)]; [ split; auto; now apply after_ends | ].
  split; [ now apply blanks_tok | ]. left. apply skip_spaces; [ now apply blanks_spaces | ].
  destruct Hm as [[_ ->]|[Hi _]]; [ congruence | ]. repeat (destruct Hi as [<-|Hi]; [ reflexivity | ]). destruct Hi.
Qed.
Definition p_names : Parser (option string * option string * option string) :=
  P: name <- opt (ws field_not_keyword); P: dataset <- opt (ws field_not_keyword); P: mode <- p_mode; p_ret (name, dataset, mode).
Lemma names_none : forall mode u rest x, mode_part mode u -> after_cmd rest -> x = (u ++ rest)%string \/ u = EmptyString /\ x = skip rest ->
  exists r, (r = rest \/ r = skip rest) /\ p_names x = POk r (None, None, mode).
Proof.
  intros mode u rest x Hm Hr Hx. destruct (mode_read mode u rest x Hm Hr Hx) as (E & r & Er & Em). exists r. split; auto.
  unfold p_names, p_bind. now rewrite !opt_none, Em by auto.
Qed.
Lemma names_some : forall ns s mode u rest y, listed blanks name_item ns s -> length ns <= 2 -> Forall (fun n => ~ In n mode_words) ns ->
  mode_part mode u -> after_cmd rest -> mode_text u rest y ->
  exists r, (r = rest \/ r = skip rest) /\ p_names (s ++ y) = POk r (nth_error ns 0, nth_error ns 1, mode).
Proof.
  intros ns s mode u rest y Hs Hl Hf Hm Hr Hy. destruct (mode_text_facts mode u rest y Hm Hr Hy) as [Ty Sy].
  destruct (mode_read mode u rest (skip y) Hm Hr Sy) as (E & r & Er & Em).
  inversion Hs as [n s1 [Hn ->]|n s1 b l v [Hn ->] Hb Hv]; subst; inversion Hf; subst.
  - exists r. split; auto. unfold p_names, p_bind. rewrite name_read by auto. rewrite opt_none by exact E. now rewrite Em.
  - inversion Hv as [n2 s2 [Hn2 ->]|n2 s2 b2 l2 v2 _ _ Hv2]; subst.
    + exists r. split; auto. rewrite !append_assoc_s. unfold p_names, p_bind. rewrite name_read by (auto; now apply blanks_tok).
      rewrite skip_spaces by first [ now apply blanks_spaces | solve [ apply ident_stops; auto ] ].
      match goal with H : Forall _ [_] |- _ => inversion H; subst end. rewrite name_read by auto. now rewrite Em.
    + destruct Hv2; cbn in Hl; lia.
Qed.
Lemma mode_no_key : forall mode u rest, mode_part mode u -> u <> EmptyString -> after_cmd rest -> no_key (u ++ rest).
Proof.
  intros mode u rest [[_ ->]|[Hu _]] Hn Hr; [ congruence | ]. pose proof (after_ends rest Hr) as Te. destruct Hu as [<-|Hu].
  - unfold no_key, field_and_constant, separated_pair, p_bind. change token with (token_of tok_specials). rewrite search_token; auto. now apply lit_tok.
  - apply word_no_key; [ destruct Hu as [<-|[<-|[]]]; apply ident_field; now apply ident_by | now apply after_no_option ].
Qed.
Lemma datamodel_body : forall o a ns s mode u t' t c, listed0 blanks option_item o a -> listed0 blanks name_item ns s -> length ns <= 2 ->
  Forall (fun n => ~ In n mode_words) ns -> mode_part mode u -> beside s u t' -> beside a t' t ->
  datamodel_says o (nth_error ns 0) (nth_error ns 1) mode c -> reads_body0 (fun _ => p_datamodel) (CDataModel c) t.
Proof.
  intros o a ns s mode u t' t c Ho Hs Hl Hf Hm Ht' Ht (st & ol & su & H1 & H2 & H3 & ->).
  assert (Hopt : datamodel_options o = Ok (mkDataModel None None None st ol su)) by (unfold datamodel_options; says; reflexivity).
  assert (P : forall x r r' na da mo, match_options datamodel_options x = POk r (mkDataModel None None None st ol su) -> p_names r = POk r' (na, da, mo) ->
    p_datamodel x = POk r' (CDataModel (mkDataModel na da mo st ol su))).
  { intros x r r' na da mo E1 E2. unfold p_datamodel. fold p_mode. unfold p_bind at 1. rewrite E1. unfold p_names in E2. unfold p_bind in E2 |- *.
    destruct (opt (ws field_not_keyword) r) as [r1 n1| | |]; try discriminate. destruct (opt (ws field_not_keyword) r1) as [r2 n2| | |]; try discriminate.
    destruct (p_mode r2) as [r3 n3| | |]; try discriminate. unfold p_ret in *. injection E2 as <- <- <- <-. reflexivity. }
  assert (Hu : u = EmptyString \/ u <> EmptyString) by (destruct u; [ now left | right; discriminate ]).
  assert (Su : forall x, u <> EmptyString -> begins (u ++ x)).
  { intros x Hn. destruct Hm as [[_ ->]|[Hm _]]; [ congruence | ]. repeat (destruct Hm as [<-|Hm]; [ split; [ reflexivity | discriminate ] | ]). destruct Hm. }
  destruct Hs as [[-> ->]|Hs].
  - assert (t' = u) as -> by (destruct Ht' as [[_ ->]|[[-> ->]|(H & _)]]; auto; congruence).
    destruct Hu as [-> |Hu].
    + apply beside_left in Ht. subst t. split; [ eapply options_stop; eauto | ]. intros rest Hr.
      destruct (opts_only _ datamodel_options o a rest _ Ho Hopt (after_ends rest Hr) (after_no_key rest Hr)) as (r & E & Er).
      destruct (names_none mode EmptyString rest r Hm Hr) as (r' & Er' & E'); [ destruct Er as [-> | ->]; auto | ].
      exists r'. split; auto. apply reads_const. now apply (P _ r).
    + apply body_body0. split; [ intro x; apply begins_stops; eapply beside_begins; eauto | ]. intros rest Hr.
      destruct (names_none mode u rest (u ++ rest) Hm Hr) as (r' & Er' & E'); auto.
      exists r'. split; auto. apply reads_const. apply (P _ (u ++ rest)%string); auto.
      apply (opts_first _ datamodel_options o a u t rest _ Ho Ht Hopt); auto; [ now apply begins_stops, Su | now apply (mode_no_key mode) ].
  - pose proof (fun x => blank_names_begin ns s x Hs) as Hb. pose proof (begins_full s Hb) as Hne. apply body_body0.
    assert (Hb' : forall x, begins (t' ++ x)).
    { intro x. destruct Ht' as [[-> ->]|[[-> ->]|(_ & _ & k & _ & ->)]]; rewrite ?append_assoc_s; auto; congruence. }
    split; [ intro x; apply begins_stops; eapply beside_begins; eauto | ]. intros rest Hr.
    assert (exists y, (t' ++ rest)%string = (s ++ y)%string /\ mode_text u rest y) as (y & Ey & Hy).
    { destruct Ht' as [[-> _]|[[-> ->]|(_ & Hn & k & Hk & ->)]]; [ congruence | | ].
      - exists rest. split; auto. now left.
      - exists (k ++ u ++ rest)%string. rewrite !append_assoc_s. split; auto. right. eauto. }
    destruct (names_some ns s mode u rest y Hs Hl Hf Hm Hr Hy) as (r' & Er' & E'). exists r'. split; auto. apply reads_const.
    apply (P _ (t' ++ rest)%string); [ | now rewrite Ey ].
    apply (opts_first _ datamodel_options o a t' t rest _ Ho Ht Hopt); [ now apply begins_full | now apply begins_stops | ].
    rewrite Ey. apply (names_no_key ns); [ now apply listed_gap | ]. destruct (mode_text_facts mode u rest y Hm Hr Hy) as [Ty Sy]. split; auto.
    destruct Sy as [-> |[_ ->]]; [ | now apply after_no_option ].
    destruct Hm as [[_ ->]|[Hm _]]; [ | repeat (destruct Hm as [<-|Hm]; [ reflexivity | ]); destruct Hm ].
    destruct Hy as [[_ ->]|(k & _ & H & _)]; [ | congruence ]. cbn [append].
    by_start_of Hr.
Qed.

(** *** format *)
Definition text_item (x u : string) : Prop := plain_string x /\ u = in_quotes x.
Lemma texts_stop : forall d s x, listed spaces text_item d s -> stops is_space (s ++ x).
Proof. intros d s x H. destruct H as [y s1 [_ ->]|y s1 b l v [_ ->] _ _]; reflexivity. Qed.
Lemma one_text : forall x b y, plain_string x -> spaces b -> ws double_quoted (in_quotes x ++ b ++ y) = POk (skip y) x.
Proof. intros x b y Hx Hb. rewrite (ws_ok _ _ _ (b ++ y)%string x); [ now rewrite skip_app | ]. now apply text_read. Qed.
Lemma format_read : forall d s rest, listed spaces text_item d s -> length d = 6 -> exists a1 a2 a3 a4 a5 a6, d = [a1; a2; a3; a4; a5; a6] /\
  format_delimiters (s ++ rest) = POk (skip rest) (a1, a2, a3, a4, a5, a6).
Proof.
  intros d s rest H Hl. unfold format_delimiters, p_bind.
  assert (F : forall x s' l, listed spaces text_item (x :: l) s' ->
    (l = [] /\ ws double_quoted (s' ++ rest) = POk (skip rest) x) \/ exists s'', listed spaces text_item l s'' /\ ws double_quoted (s' ++ rest) = POk (s'' ++ rest)%string x).
  { intros x s' l Hs. inversion Hs as [y s1 [Hy ->]|y s1 b l' v [Hy ->] Hb Hv]; subst.
    - left. split; auto. apply (one_text x EmptyString rest Hy I).
    - right. exists v. split; auto. rewrite !append_assoc_s. rewrite one_text by auto. f_equal. apply skip_stops. eapply texts_stop; eauto. }
  destruct d as [|a1 [|a2 [|a3 [|a4 [|a5 [|a6 [|a7 d]]]]]]]; try discriminate Hl.
  do 6 eexists. split; [ reflexivity | ].
  do 5 (destruct (F _ _ _ H) as [[X _]|(s' & H' & E)]; [ discriminate X | ]; rewrite E; clear E H; rename H' into H; clear s; rename s' into s).
  destruct (F _ _ _ H) as [[_ E]|(s' & H' & E)]; [ now rewrite E | inversion H' ].
Qed.
Lemma format_body : forall o a d s t c, listed0 blanks option_item o a ->
  d = ["("; "("; "AND"; ")"; "OR"; ")"]%string /\ s = EmptyString \/ length d = 6 /\ listed spaces text_item d s ->
  beside a s t -> format_says o d c -> reads_body0 (fun _ => p_format) (CFormat c) t.
Proof.
  intros o a d s t c Ho Hd Ht (mvsep & mx & a1 & a2 & a3 & a4 & a5 & a6 & H1 & H2 & Ed & ->).
  assert (Hf : format_options o = Ok (mvsep, mx)) by (unfold format_options; says; reflexivity).
  destruct Hd as [[Hd ->]|[Hl Hs]].
  - apply beside_left in Ht. subst t. split; [ eapply options_stop; eauto | ]. intros rest Hr.
    destruct (opts_only _ format_options o a rest _ Ho Hf (after_ends rest Hr) (after_no_key rest Hr)) as (r & E & Er).
    exists r. split; auto. apply reads_const. unfold p_format, p_bind. rewrite E.
    assert (format_delimiters r = PErr) as Xe.
    { unfold format_delimiters, p_bind. rewrite ws_err; auto. assert (skip r = skip rest) as -> by (destruct Er as [-> | ->]; auto using skip_skip).
      pose proof (after_tail rest Hr) as Htl. revert Htl. generalize (skip rest). by_tail. }
    unfold opt. rewrite Xe. rewrite Hd in Ed. injection Ed as <- <- <- <- <- <-. reflexivity.
  - apply body_body0. assert (Hb : forall x, begins (s ++ x)).
    { intro x. destruct Hs as [y s1 [_ ->]|y s1 b l v [_ ->] _ _]; (split; [ reflexivity | discriminate ]). }
    split; [ intro x; apply begins_stops; eapply beside_begins; eauto | ]. intros rest Hr. exists (skip rest). split; auto. apply reads_const.
    unfold p_format, p_bind. rewrite (opts_first _ format_options o a s t rest _ Ho Ht Hf); [ | now apply begins_full | now apply begins_stops | ].
    + destruct (format_read d s rest Hs Hl) as (b1 & b2 & b3 & b4 & b5 & b6 & Ed' & E). unfold opt. rewrite E. rewrite Ed' in Ed. injection Ed as <- <- <- <- <- <-. reflexivity.
    + destruct Hs as [y s1 [_ ->]|y s1 b l v [_ ->] _ _]; reflexivity.
Qed.
