(** Written where conditions, in any layout and letter case, are read back (C09, C26, C69). *)
From Coq Require Import Lia.
From Verif Require Import Str SplAst Nom Lexer Parser CmdParser ParserFacts ParserTotal ParserFuel.
From Verif Require Import SpecText SpecExpr SpecSpell LexFacts TokenFacts NameFacts ExprFacts EvalFacts LogicFacts SpellFacts.

Scheme term_spells_mut := Induction for term_spells Sort Prop
  with group_spells_mut := Induction for group_spells Sort Prop
  with cond_spells_mut := Induction for cond_spells Sort Prop.
Combined Scheme spells_mut from term_spells_mut, group_spells_mut, cond_spells_mut.

(** ** Lists with separators *)
Section Chain.
Variables (it : Recs -> Parser Expr) (sp : Parser string).
Definition chain (s rest : string) (l : list Expr) : Prop :=
  exists n, forall m, n <= m -> exists r e l', l = e :: l' /\ it (level m) (s ++ rest)%string = POk r e /\
    String.length r <= String.length (s ++ rest) /\ forall f, String.length r < f -> sep_go sp (it (level m)) f r = POk rest l'.
Lemma chain_one : forall s rest e, reads it (s ++ rest) rest e ->
  (forall R fuel, 0 < fuel -> sep_go sp (it R) fuel rest = POk rest []) -> chain s rest [e].
Proof.
  intros s rest e [n H] Hs. exists n. intros m Hm. exists rest, e, []. split; [ reflexivity | ]. split; [ now apply H | ].
  split; [ rewrite length_append; lia | ]. intros f Hf. apply Hs. lia.
Qed.
Lemma chain_more : forall s b u rest e l v, reads it (s ++ b ++ u ++ rest) (b ++ u ++ rest) e ->
  sp (b ++ u ++ rest) = POk (u ++ rest)%string v -> b <> EmptyString -> chain u rest l -> chain (s ++ b ++ u) rest (e :: l).
Proof.
  intros s b u rest e l v [n H] Hs Hb [n' H']. exists (max n n'). intros m Hm.
  destruct (H' m ltac:(lia)) as (r & e' & l' & -> & E & L & G).
  exists (b ++ u ++ rest)%string, e, (e' :: l'). split; [ reflexivity | ]. rewrite !append_assoc_s. split; [ apply H; lia | ].
  assert (String.length b <> 0) by (destruct b; [ congruence | discriminate ]).
  split; [ rewrite !length_append; lia | ]. intros [|f] Hf; [ lia | ]. cbn [sep_go]. rewrite Hs.
  rewrite !length_append in *. match goal with |- context [Nat.eqb ?x ?y] => destruct (Nat.eqb_spec x y); [ lia | ] end.
  rewrite E, G by lia. reflexivity.
Qed.
Lemma chain_done : forall s rest l, chain s rest l -> reads (fun R => separated_list1 sp (it R)) (s ++ rest) rest l.
Proof.
  intros s rest l [n H]. exists n. intros m Hm. destruct (H m Hm) as (r & e & l' & -> & E & L & G).
  unfold separated_list1, p_bind. rewrite E, G by lia. reflexivity.
Qed.
End Chain.

(** ** What may follow *)
Definition group_end (rest : string) : Prop :=
  forall R fuel, 0 < fuel -> sep_go and_sep (logical_expression_term R) fuel rest = POk rest [].
Definition cond_end (rest : string) : Prop := group_end rest /\ ws (tag_no_case "OR") rest = PErr.
Definition tight_end (s rest : string) : Prop := after_term rest \/ closes s.

Lemma spaces_sforall : forall b, spaces b -> sforall is_space b = true.
Proof. exact tight_space. Qed.
Lemma ms1 : forall c b y, spaces (String c b) -> stops is_space y -> multispace1 (String c b ++ y) = POk y (String c b).
Proof.
  intros c b y Hb Hy. apply spaces_sforall in Hb. unfold multispace1, take_while1. rewrite span_app by auto. rewrite span_stops by auto.
  cbn. now rewrite append_nil_r.
Qed.
Lemma ms1_err : forall y, stops is_space y -> multispace1 y = PErr.
Proof. intros y Hy. unfold multispace1, take_while1. rewrite span_stops by auto. reflexivity. Qed.
Lemma ws_spaces : forall A (p : Parser A) b y, spaces b -> stops is_space y -> p y = PErr -> ws p (b ++ y) = PErr.
Proof.
  intros A p b y Hb Hy Hp. unfold ws, delimited, p_bind. rewrite ms0_eq.
  change (snd (span is_space (b ++ y))) with (skip (b ++ y)). rewrite skip_blanks by (auto using spaces_sforall). now rewrite Hp.
Qed.
Lemma group_end_by : forall b y, spaces b -> stops is_space y -> tag_no_case "AND" y = PErr ->
  (forall R, logical_expression_term R y = PErr) -> group_end (b ++ y).
Proof.
  intros b y Hb Hy Ha Ht R [|fuel] Hf; [ lia | ]. cbn [sep_go]. unfold and_sep. rewrite or_err.
  2:{ now apply ws_spaces. }
  destruct b as [|c b].
  - cbn [append]. now rewrite ms1_err.
  - rewrite ms1 by auto. rewrite Ht.
    match goal with |- context [Nat.eqb ?x ?y] => destruct (Nat.eqb_spec x y) as [X|] end; [ | reflexivity ].
    rewrite length_append in X. cbn in X. lia.
Qed.
Lemma cmd_cond_end : forall rest, after_cmd rest -> cond_end rest.
Proof.
  intros rest (b & tail & -> & Hb & Ht).
  assert (Hs : spaces b).
  { clear - Hb. induction b as [|c b IH]; [ exact I | ]. apply andb_true_iff in Hb. split; [ now apply is_space_spec | now apply IH ]. }
  assert (tag_no_case "AND" tail = PErr /\ tag_no_case "OR" tail = PErr) as [A O].
  { destruct tail as [|c tail]; [ split; reflexivity | ]. destruct Ht as [-> | ->]; split; reflexivity. }
  split; [ apply group_end_by; auto; [ now apply tail_stops | intro; now apply tail_not_term ] | ].
  apply ws_spaces; auto. now apply tail_stops.
Qed.
Lemma paren_cond_end : forall b x, spaces b -> cond_end (b ++ String ")" x).
Proof. intros b x Hb. split; [ apply group_end_by; auto; reflexivity | now apply ws_spaces ]. Qed.

Definition kw_end (z : string) : Prop := match z with String c _ => white c \/ c = "("%char | EmptyString => False end.
Lemma kw_end_tok : forall z, kw_end z -> tok_end tok_specials z.
Proof.
  intros [|c z] H; [ destruct H | ]. cbn in H. destruct H as [H| ->]; [ | split; reflexivity ].
  apply is_space_spec in H. destruct (space_char c H) as [-> |[-> |[-> | ->]]]; split; reflexivity.
Qed.
Lemma reserved_not_term : forall R k w z, In k ["OR"; "BY"]%string -> same_word w k -> kw_end z ->
  logical_expression_term R (w ++ z) = PErr.
Proof.
  intros R k w z Hk Hw Hz.
  assert (In w ["or"; "oR"; "Or"; "OR"; "by"; "bY"; "By"; "BY"]%string) as W.
  { apply same_word_lower in Hw.
    assert (X : forall c d, lower_c c = d -> c = d \/ c = upper_c d) by (intros c d <-; destruct c as [[][][][][][][][]]; cbn; auto).
    destruct Hk as [<-|[<-|[]]]; destruct w as [|c1 [|c2 [|c3 w]]]; try discriminate; cbn in Hw; injection Hw as H1 H2;
      destruct (X _ _ H1) as [-> | ->]; destruct (X _ _ H2) as [-> | ->]; cbn; tauto. }
  assert (T : token (w ++ z) = PErr).
  { change token with (token_of tok_specials). pose proof (kw_end_tok z Hz) as Z.
    rewrite token_of_read.
    - cbn in W. repeat (destruct W as [<-|W]; [ reflexivity | ]). destruct W.
    - cbn in W. repeat (destruct W as [<-|W]; [ discriminate | ]). destruct W.
    - cbn in W. repeat (destruct W as [<-|W]; [ reflexivity | ]). destruct W.
    - exact Z. }
  assert (F : field (w ++ z) = PErr).
  { unfold field. rewrite or_err.
    - cbn in W. repeat (destruct W as [<-|W]; [ reflexivity | ]). destruct W.
    - unfold field_fmt, recognize, separated_list1, p_bind, p_or, token_not_t_f, verify, p_bind. rewrite T.
      cbn in W. repeat (destruct W as [<-|W]; [ reflexivity | ]). destruct W. }
  unfold logical_expression_term.
  assert (C : call R (w ++ z) = PErr) by (unfold call, p_bind; now rewrite T).
  assert (K : comparison_expression R (w ++ z) = PErr).
  { unfold comparison_expression. rewrite or_err by (unfold p_bind; now rewrite F). unfold field_in, separated_pair, p_bind. now rewrite F. }
  rewrite or_err. 2:{ cbn in W. repeat (destruct W as [<-|W]; [ reflexivity | ]). destruct W. }
  rewrite or_err. 2:{ cbn in W. repeat (destruct W as [<-|W]; [ reflexivity | ]). destruct W. }
  rewrite or_err. 2:{ cbn in W. repeat (destruct W as [<-|W]; [ reflexivity | ]). destruct W. }
  rewrite or_err by exact C. rewrite or_err by exact K.
  cbn in W. repeat (destruct W as [<-|W]; [ reflexivity | ]). destruct W.
Qed.

(** ** Comparisons *)
Lemma blanks_spaces : forall b, blanks b -> spaces b.
Proof. intros b [_ H]. exact H. Qed.
Lemma white_space : forall c, white c -> c = " "%char \/ c = ascii_of_nat 9 \/ c = ascii_of_nat 13 \/ c = ascii_of_nat 10.
Proof. intros c H. apply space_char, is_space_spec, H. Qed.
(** What comes after the name: white space or an operator *)
Definition op_head (x : string) : Prop :=
  match x with String c _ => white c \/ In c ["="; "!"; "<"; ">"]%char | EmptyString => False end.
Ltac op_cases H := destruct H as [H|H]; [ destruct (white_space _ H) as [-> |[-> |[-> | ->]]] | destruct H as [<-|[<-|[<-|[<-|[]]]]] ].
Lemma op_tok : forall x, op_head x -> tok_end lit_specials x.
Proof. intros [|c x] H; [ destruct H | ]. cbn in H. op_cases H; split; reflexivity. Qed.
Lemma op_letter : forall x, op_head x -> match x with EmptyString => True | String c _ => ~ letter c end.
Proof. intros [|c x] H; [ destruct H | ]. cbn in H. unfold letter. op_cases H; cbn; lia. Qed.
Lemma op_paren : forall x, op_head x -> match x with EmptyString => True | String c _ => c <> "("%char end.
Proof. intros [|c x] H; [ destruct H | ]. cbn in H. op_cases H; discriminate. Qed.
Lemma blanks_op : forall b y, blanks b -> op_head (b ++ y).
Proof. intros [|c b] y [H1 H2]; [ congruence | ]. cbn. left. apply H2. Qed.
Lemma spaces_op : forall b o y, spaces b -> op_head (b ++ cmp_text o ++ y).
Proof. intros [|c b] o y H; [ destruct o; cbn; tauto | cbn; left; apply H ]. Qed.

Definition no_letter (x : string) : Prop := match x with EmptyString => True | String c _ => ~ letter c end.
Lemma eq_err : forall k w x, all_chars letter k -> all_chars fchar w -> no_letter x ->
  ~ (same_word w k /\ match x with String c _ => c = "="%char | EmptyString => False end) -> tag_no_case (k ++ "=") (w ++ x) = PErr.
Proof.
  intros k w x Hk Hw Hx Hn. unfold tag_no_case.
  assert (strip_prefix_nc (k ++ "=") (w ++ x) = None) as ->; [ | reflexivity ].
  assert (E0 : forall c, lower_c "="%char = lower_c c -> c = "="%char).
  { intros c E. apply lower_c_same in E. destruct E as [<-|E]; auto. cbn in E. lia. }
  revert w Hw Hn. induction k as [|a k IH]; intros w Hw Hn.
  - destruct w as [|c w].
    + destruct x as [|c x]; [ reflexivity | ]. cbn [append strip_prefix_nc]. destruct (Ascii.eqb_spec (lower_c "="%char) (lower_c c)) as [E|]; auto.
      apply E0 in E. elim Hn. split; [ constructor | exact E ].
    + destruct Hw as [Hc _]. cbn [append strip_prefix_nc]. destruct (Ascii.eqb_spec (lower_c "="%char) (lower_c c)) as [E|]; auto.
      apply E0 in E. subst c. exfalso. now apply (fchar_neq "="%char) in Hc; [ | nl | unfold digit; cbn; lia | cbn; intuition discriminate ].
  - destruct Hk as [Ha Hk]. destruct w as [|c w]; cbn [append strip_prefix_nc].
    + pose proof Hx as L. destruct x as [|c x]; [ reflexivity | ].
      destruct (Ascii.eqb_spec (lower_c a) (lower_c c)) as [E|]; auto. apply lower_c_same in E. exfalso. apply L.
      unfold letter, same_letter in *. destruct E as [<-|[E|E]]; lia.
    + destruct (Ascii.eqb_spec (lower_c a) (lower_c c)) as [E|]; auto. apply IH; [ auto | apply Hw | ]. intros [S X]. apply Hn.
      split; auto. constructor; auto. apply lower_c_same. now symmetry.
Qed.
Lemma time_opts_err : forall w x, all_chars fchar w -> no_letter x ->
  match x with String c _ => c <> "="%char | EmptyString => False end \/ ~ is_time_modifier w -> time_opts (w ++ x) = PErr.
Proof.
  intros w x Hw Hx Hn.
  assert (K : forall k, In k time_modifiers -> all_chars letter k -> tag_no_case (k ++ "=") (w ++ x) = PErr).
  { intros k Hk Hl. apply eq_err; auto. intros [S X]. destruct Hn as [Hn|Hn].
    - destruct x as [|c x]; auto.
    - apply Hn. exists k. auto. }
  assert (K0 : tag_no_case "timeformat=" (w ++ x) = PErr) by (apply (K "timeformat"%string); [ cbn; tauto | unfold letter; cbn; lia ]).
  assert (K1 : tag_no_case "starttime=" (w ++ x) = PErr) by (apply (K "starttime"%string); [ cbn; tauto | unfold letter; cbn; lia ]).
  assert (K2 : tag_no_case "endtime=" (w ++ x) = PErr) by (apply (K "endtime"%string); [ cbn; tauto | unfold letter; cbn; lia ]).
  assert (K3 : tag_no_case "earliest=" (w ++ x) = PErr) by (apply (K "earliest"%string); [ cbn; tauto | unfold letter; cbn; lia ]).
  assert (K4 : tag_no_case "latest=" (w ++ x) = PErr) by (apply (K "latest"%string); [ cbn; tauto | unfold letter; cbn; lia ]).
  unfold time_opts, time_format, p_map, opt, preceded, p_bind. rewrite K0. unfold p_ret at 1.
  unfold space_separated_list1, separated_list1, p_bind, time_modifier, p_map, preceded, p_bind, p_or.
  now rewrite K1, K2, K3, K4.
Qed.
Lemma time_opts_none : forall w x, all_chars fchar w -> op_head x ->
  match x with String c _ => white c | EmptyString => False end \/ ~ is_time_modifier w -> time_opts (w ++ x) = PErr.
Proof.
  intros w x Hw Hx Hn. apply time_opts_err; auto; [ now apply op_letter | ]. destruct Hn as [Hn|Hn]; [ left | now right ].
  destruct x as [|c x]; auto. intros ->. unfold white in Hn. cbn in Hn. lia.
Qed.
Lemma not_err : forall w x, field_name w -> ~ starts_with_not w -> no_letter x -> ws (tag_no_case "NOT") (w ++ x) = PErr.
Proof.
  intros w x Hw Hn Hx. unfold ws, delimited, p_bind. rewrite ms0_eq, span_stops.
  2:{ destruct (fname_chars w Hw) as [Hne Hc]. destruct w as [|c w]; [ congruence | ].
      destruct Hc as [Hc _]. cbn. now apply fchar_facts. }
  cbn [fst snd]. unfold tag_no_case.
  destruct (kw_prefix "NOT" w x ltac:(unfold letter; cbn; lia)) as [->|(y & z & E & Hy & _)]; auto.
  exfalso. apply Hn. exists y, z. auto.
Qed.
Definition value_head (y : string) : Prop := match y with String c _ => c <> "="%char | EmptyString => True end.
Lemma value_starts : forall v y, value_wf v -> stops is_space (value_text v ++ y) /\ value_head (value_text v ++ y).
Proof.
  intros [z|s|w] y Hv; cbn [value_text]; [ | split; [ reflexivity | discriminate ] | ].
  2:{ destruct Hv as [Hv _]. destruct (fname_chars w Hv) as [Hne Hc]. destruct w as [|c w]; [ congruence | ]. destruct Hc as [Hc _]. split.
      - cbn. now apply fchar_facts.
      - cbn. fneq. }
  destruct (decimal_numeral z) as (m & d & -> & Hd & _).
  destruct (numeral_chars m d y Hd) as (c & r & -> & Hh). split; [ cbn; now apply numeral_head_facts | ].
  intros ->. destruct Hh; discriminate.
Qed.
Lemma cmp_read : forall b1 o b2 y, spaces b1 -> spaces b2 -> stops is_space y -> value_head y ->
  ws comparison_operator (b1 ++ cmp_text o ++ b2 ++ y) = POk y (cmp_text o).
Proof.
  intros b1 o b2 y H1 H2 Hy Hv.
  assert (V : value_head (b2 ++ y)).
  { destruct b2 as [|c b2]; [ exact Hv | ]. intros ->. destruct H2 as [H2 _]. unfold white in H2. cbn in H2. lia. }
  assert (comparison_operator (cmp_text o ++ (b2 ++ y)) = POk (b2 ++ y)%string (cmp_text o)) as E.
  { generalize dependent (b2 ++ y)%string. intros x V. destruct x as [|c x].
    - destruct o; reflexivity.
    - assert (Q : Ascii.eqb "="%char (lower_c c) = false).
      { destruct (Ascii.eqb_spec "="%char (lower_c c)) as [Q|]; auto. exfalso. apply V.
        change "="%char with (lower_c "="%char) in Q. apply lower_c_same in Q. destruct Q as [<-|Q]; auto. cbn in Q. lia. }
      destruct o; unfold comparison_operator, p_map, p_bind, p_or, tag_no_case; cbn -[consumed Ascii.eqb lower_c]; change (lower_c "="%char) with "="%char; rewrite ?Q; reflexivity. }
  assert (S : stops is_space (cmp_text o ++ b2 ++ y)) by (destruct o; reflexivity).
  rewrite (ws_ok _ _ _ (b2 ++ y)%string (cmp_text o)).
  - rewrite skip_blanks; auto using spaces_sforall.
  - now rewrite skip_blanks by auto using spaces_sforall.
Qed.
(** Calls *)
Lemma call_written : forall n args ss rest, writes_args args ss -> wf (TCall n args) ->
  reads call ((n ++ "(" ++ commas ss ++ ")") ++ rest) rest (meaning (TCall n args)).
Proof.
  intros n args ss rest W (Hn & _ & Ha). apply wf_args in Ha.
  assert (exists l, Forall (fun p => expression (fst p) (snd p)) l /\ map fst l = ss /\ map snd l = map meaning args) as (l & F & <- & E2).
  { clear Hn n rest. induction W as [|t s ts ss W _ IH]; [ exists []; repeat split; constructor | ]. inversion Ha; subst.
    destruct (IH H2) as (l & F & E1 & E2). exists ((s, meaning t) :: l). repeat split; [ constructor; auto; now apply (written_reads 9 t) | cbn; congruence .. ]. }
  destruct (paren_args l rest F) as [k H]. exists k. intros m Hm. cbn [meaning]. rewrite <- E2. rewrite !append_assoc_s.
  unfold call, p_bind. rewrite token_ident; [ | auto | split; reflexivity ].
  now rewrite (H m Hm).
Qed.
Lemma call_term : forall n args ss rest, writes_args args ss -> term_wf (TmCall n args) ->
  reads logical_expression_term ((n ++ "(" ++ commas ss ++ ")") ++ rest) rest (term_meaning (TmCall n args)).
Proof.
  intros n args ss rest W [Hw Hn]. destruct (call_written n args ss rest W Hw) as [k H]. exists k. intros m Hm.
  pose proof (H m Hm) as C. cbn [term_meaning]. revert C. rewrite !append_assoc_s. intro C.
  destruct Hw as (Hi & _). assert (Hf : field_name n) by now apply ident_field.
  destruct (fname_chars n Hf) as [_ Hc].
  assert (L : no_letter ("(" ++ commas ss ++ ")" ++ rest)) by (cbn; unfold letter; cbn; lia).
  unfold logical_expression_term. rewrite or_err.
  2:{ apply paren_err. destruct (ident_head n Hf) as (c & r & -> & Hh). cbn [append].
      intros ->. destruct Hh as [Hh|]; [ | discriminate ]. unfold letter in Hh. cbn in Hh. lia. }
  rewrite or_err by (unfold p_map, preceded, p_bind; now rewrite not_err).
  rewrite or_err by (unfold p_bind; rewrite time_opts_err; auto; left; discriminate).
  now apply or_ok.
Qed.
Lemma cmp_term_by : forall f o vt ve b1 b2 rest R, field_name f -> ~ starts_with_not f ->
  stops is_space (vt ++ rest) -> value_head (vt ++ rest) -> (call R <|> p_map econst literal) (vt ++ rest)%string = POk rest ve ->
  spaces b1 -> spaces b2 -> blanks b1 \/ ~ is_time_modifier f ->
  logical_expression_term R ((f ++ b1 ++ cmp_text o ++ b2 ++ vt) ++ rest) = POk rest (EBinary (ELeaf (LConstant (KField f))) (cmp_text o) ve).
Proof.
  intros f o vt ve b1 b2 rest R Hf Hn Hs Hd Hv H1 H2 Ht.
  destruct (fname_chars f Hf) as [_ Hc]. rewrite !append_assoc_s.
  assert (O : op_head (b1 ++ cmp_text o ++ b2 ++ vt ++ rest)) by now apply spaces_op.
  assert (Ht' : match (b1 ++ cmp_text o ++ b2 ++ vt ++ rest)%string with String c _ => white c | EmptyString => False end \/ ~ is_time_modifier f).
  { destruct Ht as [Ht|Ht]; [ left | now right ]. destruct Ht as [Hne _]. destruct b1 as [|c b1]; [ congruence | apply H1 ]. }
  pose proof (cmp_read b1 o b2 (vt ++ rest) H1 H2 Hs Hd) as C.
  set (x := (b1 ++ cmp_text o ++ b2 ++ vt ++ rest)%string) in *. clearbody x.
  unfold logical_expression_term.
  rewrite or_err.
  2:{ apply paren_err. destruct (ident_head f Hf) as (c & r & -> & Hh). cbn [append].
      intros ->. destruct Hh as [Hh|]; [ | discriminate ]. unfold letter in Hh. cbn in Hh. lia. }
  rewrite or_err by (unfold p_map, preceded, p_bind; rewrite not_err; auto; now apply op_letter).
  rewrite or_err by (unfold p_bind; now rewrite time_opts_none).
  rewrite or_err by (apply token_then_err; auto using op_tok; intros; unfold p_bind; rewrite paren_err; auto; try discriminate; exact (op_paren x O)).
  apply or_ok. unfold comparison_expression. apply or_ok. unfold p_bind at 1. rewrite field_ident by auto using op_tok.
  unfold p_bind at 1. rewrite C. unfold p_bind. rewrite Hv. reflexivity.
Qed.
Lemma cmp_term : forall f o v b1 b2 rest R, term_wf (TmCmp f o v) -> spaces b1 -> spaces b2 -> blanks b1 \/ ~ is_time_modifier f -> after_term rest ->
  logical_expression_term R ((f ++ b1 ++ cmp_text o ++ b2 ++ value_text v) ++ rest) = POk rest (term_meaning (TmCmp f o v)).
Proof.
  intros f o v b1 b2 rest R (Hf & Hn & Hv) H1 H2 Ht Hr. destruct (value_starts v rest Hv). apply cmp_term_by; auto. now apply value_reads.
Qed.

(** ** Lists of values *)
Lemma value_begins : forall v x, ~ is_word v -> begins (value_text v ++ x).
Proof.
  intros [z|s|w] x Hw; cbn [value_text]; [ | split; [ reflexivity | discriminate ] | now destruct Hw ].
  destruct (decimal_numeral z) as (m & d & -> & Hd & _).
  destruct (numeral_chars m d x Hd) as (c & r & -> & Hh). split; [ now apply numeral_head_facts | ].
  intros ->. destruct Hh; discriminate.
Qed.
Definition value_const (v : Value) : Constant := match v with VInt z => KInt z | VStr s | VWord s => KStr s end.
Definition list_value (v : Value) : Prop := value_wf v /\ ~ is_word v.
Lemma value_constant : forall v x, list_value v -> tok_end lit_specials x -> constant (value_text v ++ x) = POk x (value_const v).
Proof.
  intros [z|s|w] x [Hv Hw] Hx; cbn [value_text]; [ | now apply constant_string | now destruct Hw ].
  rewrite constant_decimal by exact Hx. cbn in Hv. unfold int64_nonmin in Hv. destruct (Z.leb_spec (Z.abs z) (2 ^ 63 - 1)); [ reflexivity | lia ].
Qed.
Lemma listed_map : forall A B (f : A -> B) sep (item : A -> string -> Prop) (item' : B -> string -> Prop) l s,
  (forall a u, In a l -> item a u -> item' (f a) u) -> listed sep item l s -> listed sep item' (map f l) s.
Proof.
  intros A B f sep item item' l s H L. induction L; cbn [map]; [ apply L_one | apply L_more ]; auto; [ apply H; auto; now left | apply H; auto; now left | ].
  apply IHL. intros a' u Ha. apply H. now right.
Qed.
Lemma values_read : forall vs s b x, Forall list_value vs -> listed gap (fun v u => u = value_text v) vs s -> spaces b ->
  comma_or_space_separated_list0 constant (s ++ b ++ String ")" x) = POk (b ++ String ")" x)%string (map value_const vs).
Proof.
  intros vs s b x W L Hb.
  assert (L' : listed gap (fun k u => exists v, list_value v /\ u = value_text v /\ k = value_const v) (map value_const vs) s).
  { eapply listed_map; [ | exact L ]. intros a u Ha ->. exists a. rewrite Forall_forall in W. auto. }
  destruct (listed_reads gap (fun k u => exists v, list_value v /\ u = value_text v /\ k = value_const v) (fun _ => constant) string comma_or_space_sep
    (fun x => x) (fun y => exists b x, spaces b /\ y = (b ++ String ")" x)%string) begins) with (l := map value_const vs) (s := s) (rest := (b ++ String ")" x)%string)
    as [_ [n H]]; auto.
  - intros k u y (v & [_ Hv] & -> & _) _. now apply value_begins.
  - intros c u Hc Hu. now apply gap_read.
  - intros k u y (v & Hv & -> & ->) Hf. apply reads_const. apply value_constant; auto.
    destruct Hf as [(c & z & Hc & ->)|(c & z & Hc & _ & ->)]; [ apply spaces_then_tok; auto; split; reflexivity | now apply gap_tok ].
  - intros y (c & z & Hc & ->). exists 0. intros m _. apply gap_end; rewrite skip_blanks by (auto using spaces_sforall; reflexivity); reflexivity.
  - exists b, x. auto.
  - exact (H n ltac:(lia)).
Qed.
Lemma in_term : forall f vs b w b0 b1 s b2 rest R, term_wf (TmIn f vs) -> blanks b -> same_word w "IN" -> spaces b0 -> spaces b1 -> spaces b2 ->
  listed gap (fun v u => u = value_text v) vs s ->
  logical_expression_term R ((f ++ b ++ w ++ b0 ++ "(" ++ b1 ++ s ++ b2 ++ ")") ++ rest) = POk rest (term_meaning (TmIn f vs)).
Proof.
  intros f vs b w b0 b1 s b2 rest R (Hf & Hn & Hne & Hv) Hb Hw H0 H1 H2 L. cbn [term_meaning].
  destruct (fname_chars f Hf) as [_ Hc]. rewrite !append_assoc_s.
  assert (O : op_head (b ++ w ++ b0 ++ "(" ++ b1 ++ s ++ b2 ++ ")" ++ rest)) by now apply blanks_op.
  assert (Ht : match (b ++ w ++ b0 ++ "(" ++ b1 ++ s ++ b2 ++ ")" ++ rest)%string with String c _ => white c | EmptyString => False end).
  { destruct Hb as [Hb1 Hb2]. destruct b as [|c b]; [ congruence | apply Hb2 ]. }
  assert (Wh : exists c r, w = String c r /\ (c = "i"%char \/ c = "I"%char)).
  { apply same_word_lower in Hw. destruct w as [|c w]; [ discriminate | ]. cbn in Hw. injection Hw as Hw _. exists c, w. split; auto.
    revert Hw. clear. destruct c as [[][][][][][][][]]; cbn; intro H; try discriminate; auto. }
  assert (Ws : forall y, stops is_space (w ++ y)) by (intro y; destruct Wh as (c & r & -> & [-> | ->]); reflexivity).
  assert (C : ws comparison_operator (b ++ w ++ b0 ++ "(" ++ b1 ++ s ++ b2 ++ ")" ++ rest) = PErr).
  { apply ws_err. rewrite skip_spaces; auto using blanks_spaces. destruct Wh as (c & r & -> & [-> | ->]); reflexivity. }
  assert (I : ws (tag_no_case "IN") (b ++ w ++ b0 ++ "(" ++ b1 ++ s ++ b2 ++ ")" ++ rest) = POk ("(" ++ b1 ++ s ++ b2 ++ ")" ++ rest)%string w).
  { rewrite (ws_ok _ _ _ (b0 ++ "(" ++ b1 ++ s ++ b2 ++ ")" ++ rest)%string w).
    - rewrite skip_spaces; auto. reflexivity.
    - rewrite skip_spaces; auto using blanks_spaces. now apply tag_nc_read. }
  assert (P : parenthesized (comma_or_space_separated_list0 constant) ("(" ++ b1 ++ s ++ b2 ++ ")" ++ rest) = POk rest (map value_const vs)).
  { unfold parenthesized, delimited, p_bind, ws_right, terminated, p_bind.
    change (tag "(" ("(" ++ b1 ++ s ++ b2 ++ ")" ++ rest)) with (POk (b1 ++ s ++ b2 ++ ")" ++ rest)%string "("%string). cbn iota beta.
    rewrite ms0_eq. change (snd (span is_space (b1 ++ s ++ b2 ++ ")" ++ rest))) with (skip (b1 ++ s ++ b2 ++ ")" ++ rest)).
    rewrite skip_spaces; auto.
    2:{ destruct L; subst; rewrite ?append_assoc_s; apply begins_stops, value_begins; inversion Hv as [|? ? [_ X] _]; exact X. }
    unfold p_ret at 1. change (")" ++ rest)%string with (String ")" rest). rewrite (values_read vs) by auto.
    unfold ws_left, preceded, p_bind. rewrite ms0_eq. change (snd (span is_space (b2 ++ String ")" rest))) with (skip (b2 ++ String ")" rest)).
    rewrite skip_spaces; auto. reflexivity. }
  set (x := (b ++ w ++ b0 ++ "(" ++ b1 ++ s ++ b2 ++ ")" ++ rest)%string) in *. clearbody x.
  unfold logical_expression_term.
  rewrite or_err.
  2:{ apply paren_err. destruct (ident_head f Hf) as (c & r & -> & Hh). cbn [append].
      intros ->. destruct Hh as [Hh|]; [ | discriminate ]. unfold letter in Hh. cbn in Hh. lia. }
  rewrite or_err by (unfold p_map, preceded, p_bind; rewrite not_err; auto; now apply op_letter).
  rewrite or_err by (unfold p_bind; rewrite time_opts_none; auto).
  rewrite or_err by (apply token_then_err; auto using op_tok; intros; unfold p_bind; rewrite paren_err; auto; try discriminate; exact (op_paren x O)).
  apply or_ok. unfold comparison_expression. rewrite or_err.
  2:{ unfold p_bind at 1. rewrite field_ident by auto using op_tok. unfold p_bind at 1. now rewrite C. }
  unfold field_in, separated_pair, p_bind. rewrite field_ident by auto using op_tok. rewrite I, P. cbn. rewrite map_map. reflexivity.
Qed.

(** ** Conditions *)
Lemma closes_app : forall a u, closes (a ++ u) -> u <> EmptyString -> closes u.
Proof.
  induction a as [|c a IH]; intros u [x E] Hu; [ now exists x | ]. destruct x as [|d x]; cbn [append] in E; injection E as E1 E2.
  - destruct a; [ now subst | discriminate ].
  - apply IH; auto. now exists x.
Qed.
Lemma tight_app : forall a u rest, tight_end (a ++ u) rest -> u <> EmptyString -> tight_end u rest.
Proof. intros a u rest [H|H] Hu; [ now left | right; now apply (closes_app a) ]. Qed.
Lemma value_closes : forall v, value_wf v -> ~ closes (value_text v).
Proof.
  intros [z|s|w] Hv [x E]; cbn [value_text] in E.
  - destruct (decimal_numeral z) as (m & d & E' & Hd & _). rewrite E' in E.
    assert (A : all_chars (fun c => c <> ")"%char) (numeral m d)).
    { destruct Hd as [_ Hd]. assert (all_chars (fun c => c <> ")"%char) d).
      { clear - Hd. induction d as [|c d IH]; [ exact I | ]. cbn in Hd. apply andb_true_iff in Hd. split; [ intros ->; destruct Hd; discriminate | now apply IH ]. }
      unfold numeral. destruct m; [ split; [ discriminate | auto ] | auto ]. }
    rewrite E in A. clear - A. induction x as [|c x IH]; cbn in A; [ now destruct A | apply IH, A ].
  - unfold in_quotes in E. assert (C : closes (String (ascii_of_nat 34) s ++ String (ascii_of_nat 34) EmptyString)) by (exists x; exact E).
    apply closes_app in C; [ | discriminate ]. destruct C as [[|c y] C]; [ discriminate | destruct y; discriminate ].
  - destruct Hv as [Hv _]. destruct (fname_chars w Hv) as [_ Hc]. subst w. clear Hv.
    induction x as [|c x IH]; cbn in Hc; [ | now apply IH ]. destruct Hc as [Hc _]. revert Hc. change (fchar ")" -> False). intro Hc.
    assert (X : ")"%char <> ")"%char) by fneq. now apply X.
Qed.
Lemma value_ne : forall v, value_wf v -> value_text v <> EmptyString.
Proof.
  intros v Hv E. pose proof (value_starts v "=" Hv) as [_ H]. rewrite E in H. now apply H.
Qed.

Lemma not_begins : forall s, opens s -> exists x, s = String "(" x.
Proof. intros [|c x] H; [ destruct H | ]. cbn in H. subst. eauto. Qed.
(** A condition begins with a word that ends, or with a parenthesis *)
Definition head_split (s : string) : Prop :=
  (forall x, stops is_space (s ++ x)) /\
  exists w y, s = (w ++ y)%string /\ match y with String c _ => ~ letter c | EmptyString => False end.
Lemma head_more : forall s b, head_split s -> head_split (s ++ b).
Proof.
  intros s b [H1 (w & y & -> & Hy)]. split.
  - intro x. rewrite append_assoc_s. apply H1.
  - exists w, (y ++ b)%string. split; [ now rewrite append_assoc_s | ]. destruct y; [ destruct Hy | exact Hy ].
Qed.
Lemma head_ne : forall s, head_split s -> s <> EmptyString.
Proof. intros s [_ (w & y & -> & Hy)] E. destruct w; [ destruct y; [ destruct Hy | discriminate ] | discriminate ]. Qed.
Lemma word_stops : forall k w x, same_word w k -> match k with String c _ => ~ white c /\ letter c | EmptyString => False end -> stops is_space (w ++ x).
Proof.
  intros k w x Hw Hk. destruct Hw as [|c d s t S _]; [ destruct Hk | ]. cbn. apply is_space_false. destruct Hk as [Hk Hl]. intro X. apply Hk.
  unfold white, letter, same_letter in *. destruct S as [<-|[S|S]]; auto; cbn in *; lia.
Qed.
Lemma gap_end_word : forall b s, blanks b \/ spaces b /\ opens s -> forall x, kw_end (b ++ s ++ x).
Proof.
  intros b s [H|[H1 H2]] x.
  - destruct H as [Hne H]. destruct b; [ congruence | ]. cbn. left. apply H.
  - destruct b; [ destruct (not_begins s H2) as [y ->]; cbn; auto | cbn; left; apply H1 ].
Qed.
Lemma kw_end_letter : forall z, kw_end z -> match z with String c _ => ~ letter c | EmptyString => False end.
Proof. intros [|c z] H; [ exact H | ]. cbn in H. unfold letter. destruct H as [H| ->]; [ destruct (white_space c H) as [-> |[-> |[-> | ->]]] | ]; cbn; lia. Qed.
Lemma heads :
  (forall t s, term_spells t s -> term_wf t -> head_split s) /\
  (forall g s, group_spells g s -> Forall term_wf g -> head_split s) /\
  (forall c s, cond_spells c s -> Forall group_wf c -> head_split s).
Proof.
  apply spells_mut.
  - intros f o v b1 b2 H1 H2 _ (Hf & _). destruct (fname_chars f Hf) as [Hne Hc]. split.
    + intro x. destruct f as [|c f]; [ congruence | ]. cbn. apply fchar_facts, Hc.
    + exists f, (b1 ++ cmp_text o ++ b2 ++ value_text v)%string. split; [ reflexivity | ].
      pose proof (spaces_op b1 o (b2 ++ value_text v) H1) as O. pose proof (op_letter _ O) as L.
      destruct (b1 ++ cmp_text o ++ b2 ++ value_text v)%string; [ destruct O | exact L ].
  - intros f vs b w b0 b1 s b2 Hb _ _ _ _ _ (Hf & _). destruct (fname_chars f Hf) as [Hne Hc]. split.
    + intro x. destruct f as [|c f]; [ congruence | ]. cbn. apply fchar_facts, Hc.
    + exists f. eexists. split; [ reflexivity | ]. pose proof (blanks_op b (w ++ b0 ++ "(" ++ b1 ++ s ++ b2 ++ ")") Hb) as O.
      pose proof (op_letter _ O) as L. destruct (b ++ w ++ b0 ++ "(" ++ b1 ++ s ++ b2 ++ ")")%string; [ destruct O | exact L ].
  - intros t w b s Hw Hb _ _ H. split.
    + intro x. rewrite append_assoc_s. apply (word_stops "NOT"); [ exact Hw | unfold white, letter; cbn; lia ].
    + exists w, (b ++ s)%string. split; [ reflexivity | ]. pose proof (gap_end_word b s Hb EmptyString) as W. rewrite append_nil_r in W.
      now apply kw_end_letter.
  - intros n args ss _ [(Hi & _) _]. assert (Hf : field_name n) by now apply ident_field. destruct (fname_chars n Hf) as [Hne Hc]. split.
    + intro x. destruct n as [|c n]; [ congruence | ]. cbn. apply fchar_facts, Hc.
    + exists n. eexists. split; [ reflexivity | ]. cbn. unfold letter. cbn. lia.
  - intros f o n args b1 b2 ss H1 H2 _ _ (Hf & _). destruct (fname_chars f Hf) as [Hne Hc]. split.
    + intro x. destruct f as [|c f]; [ congruence | ]. cbn. apply fchar_facts, Hc.
    + exists f, (b1 ++ cmp_text o ++ b2 ++ n ++ "(" ++ commas ss ++ ")")%string. split; [ reflexivity | ].
      pose proof (spaces_op b1 o (b2 ++ n ++ "(" ++ commas ss ++ ")") H1) as O. pose proof (op_letter _ O) as L.
      destruct (b1 ++ cmp_text o ++ b2 ++ n ++ "(" ++ commas ss ++ ")")%string; [ destruct O | exact L ].
  - intros c b1 s b2 _ _ _ _ _. split; [ reflexivity | ]. exists EmptyString. eexists. split; [ reflexivity | ]. cbn. unfold letter. cbn. lia.
  - intros t s _ IH H. inversion H. auto.
  - intros t s b g u _ IH _ _ _ H. inversion H. apply head_more. auto.
  - intros t s b g u _ IH _ _ _ _ H. inversion H. apply head_more. auto.
  - intros g s _ IH H. inversion H as [|? ? [_ W] _]. auto.
  - intros g s b c u _ IH _ _ _ H. inversion H as [|? ? [_ W] _]. apply head_more. auto.
Qed.
Lemma kw_sep : forall k s b u x, keyword_between k s b u -> match k with String c _ => ~ white c /\ letter c | EmptyString => False end ->
  (forall y, stops is_space (u ++ y)) ->
  exists v, ws (tag_no_case k) (b ++ u ++ x) = POk (u ++ x)%string v.
Proof.
  intros k s b u x (b1 & w & b2 & H1 & Hw & H2 & ->) Hk Hu. exists w. rewrite !append_assoc_s.
  assert (spaces b1) as S1 by (destruct H1 as [H1|[H1 _]]; auto using blanks_spaces).
  assert (spaces b2) as S2 by (destruct H2 as [H2|[H2 _]]; auto using blanks_spaces).
  rewrite (ws_ok _ _ _ (b2 ++ u ++ x)%string w).
  - rewrite skip_blanks; auto using spaces_sforall.
  - rewrite skip_blanks; [ now apply tag_nc_read | auto using spaces_sforall | now apply (word_stops k) ].
Qed.
Lemma kw_ne : forall k s b u, keyword_between k s b u -> k <> EmptyString -> b <> EmptyString.
Proof.
  intros k s b u (b1 & w & b2 & _ & Hw & _ & ->) Hk E. destruct b1; [ | discriminate ]. destruct Hw; [ congruence | discriminate ].
Qed.
Lemma blanks_after : forall b x, blanks b -> after_term (b ++ x).
Proof.
  intros [|c b] x [Hne H]; [ congruence | ]. destruct H as [H _]. cbn [append].
  destruct (white_space c H) as [-> |[-> |[-> | ->]]]; repeat split; discriminate.
Qed.
Lemma kw_tight : forall k s b u x, keyword_between k s b u -> tight_end s (b ++ x).
Proof.
  intros k s b u x (b1 & w & b2 & H1 & _ & _ & ->). destruct H1 as [H1|[_ H1]]; [ left | now right ].
  rewrite !append_assoc_s. now apply blanks_after.
Qed.
Lemma or_ends_group : forall s b u x, keyword_between "OR" s b u -> group_end (b ++ u ++ x).
Proof.
  intros s b u x (b1 & w & b2 & H1 & Hw & H2 & ->). rewrite !append_assoc_s.
  assert (spaces b1) as S1 by (destruct H1 as [H1|[H1 _]]; auto using blanks_spaces).
  apply group_end_by; auto.
  - apply (word_stops "OR"); [ exact Hw | unfold white, letter; cbn; lia ].
  - apply same_word_lower in Hw. destruct w as [|c w]; [ discriminate | ]. cbn in Hw. injection Hw as Hc _.
    unfold tag_no_case. cbn [append strip_prefix_nc]. rewrite Hc. reflexivity.
  - intro R. apply (reserved_not_term R "OR"); [ cbn; tauto | exact Hw | now apply gap_end_word ].
Qed.
Lemma no_and : forall u x, head_split u -> ~ starts_word "AND" u -> tag_no_case "AND" (u ++ x) = PErr.
Proof.
  intros u x [_ (w & y & -> & Hy)] Hn. rewrite append_assoc_s. unfold tag_no_case.
  destruct (kw_prefix "AND" w (y ++ x) ltac:(unfold letter; cbn; lia)) as [->|(a & z & E & Ha & _)]; auto.
  - destruct y; [ destruct Hy | exact Hy ].
  - exfalso. apply Hn. exists a, (z ++ y)%string. split; [ | exact Ha ]. rewrite E. now rewrite append_assoc_s.
Qed.

Lemma spelled_reads :
  (forall t s, term_spells t s -> term_wf t -> forall rest, tight_end s rest -> reads logical_expression_term (s ++ rest) rest (term_meaning t)) /\
  (forall g s, group_spells g s -> Forall term_wf g -> forall rest, tight_end s rest -> group_end rest ->
     chain logical_expression_term and_sep s rest (map term_meaning g)) /\
  (forall c s, cond_spells c s -> Forall group_wf c -> forall rest, tight_end s rest -> cond_end rest ->
     chain logical_expression_group (ws (tag_no_case "OR")) s rest (map group_meaning c)).
Proof.
  destruct heads as (HT & HG & HC).
  assert (GR : forall g s rest, g <> [] -> chain logical_expression_term and_sep s rest (map term_meaning g) ->
            reads logical_expression_group (s ++ rest) rest (group_meaning g)).
  { intros [|t g] s rest Hne H; [ congruence | ]. apply chain_done in H. destruct H as [n H]. exists n. intros m Hm.
    unfold logical_expression_group, p_bind. fold and_sep. now rewrite (H m Hm). }
  apply spells_mut.
  - intros f o v b1 b2 H1 H2 Ht W rest Hr. exists 0. intros m _. apply cmp_term; auto. destruct Hr as [Hr|Hr]; auto.
    exfalso. apply (value_closes v (proj2 (proj2 W))). apply (closes_app (f ++ b1 ++ cmp_text o ++ b2)); [ now rewrite !append_assoc_s | apply value_ne, W ].
  - intros f vs b w b0 b1 s b2 Hb Hw H0 H1 H2 L W rest _. exists 0. intros m _. now apply in_term.
  - intros t w b s Hw Hb Ts IH W rest Hr. cbn [term_wf] in W. pose proof (HT _ _ Ts W) as Hd.
    assert (tight_end s rest) as Hr'.
    { apply (tight_app (w ++ b)); [ now rewrite append_assoc_s | now apply head_ne ]. }
    destruct (reads_down _ logical_expression_term r_lterm _ _ _ (fun R => eq_refl) (IH W rest Hr')) as [n Hn].
    exists n. intros m Hm. unfold logical_expression_term. cbn [term_meaning]. rewrite !append_assoc_s.
    rewrite or_err.
    2:{ apply paren_err. pose proof Hw as Hw'. apply same_word_lower in Hw'. destruct w as [|c w]; [ discriminate | ]. cbn in Hw'. injection Hw' as Hc _.
        cbn. intros ->. discriminate. }
    apply or_ok. unfold p_map, preceded, p_bind.
    assert (ws (tag_no_case "NOT") (w ++ b ++ s ++ rest)%string = POk (s ++ rest)%string w) as ->.
    { assert (spaces b) as S2 by (destruct Hb as [H2|[H2 _]]; auto using blanks_spaces).
      rewrite (ws_ok _ _ _ (b ++ s ++ rest)%string w).
      - rewrite skip_blanks; [ reflexivity | auto using spaces_sforall | apply Hd ].
      - rewrite skip_stops; [ now apply tag_nc_read | ]. apply (word_stops "NOT"); [ exact Hw | unfold white, letter; cbn; lia ]. }
    now rewrite (Hn m Hm).
  - intros n args ss Hs W rest _. now apply call_term.
  - intros f o n args b1 b2 ss H1 H2 Ht Hs (Hf & Hn & W) rest _. destruct (call_written n args ss rest Hs W) as [k H].
    exists k. intros m Hm. cbn [term_meaning]. assert (Fn : field_name n) by (apply ident_field, W). destruct (fname_chars n Fn) as [Hne Hc].
    apply cmp_term_by; auto.
    + rewrite append_assoc_s. destruct n as [|c n]; [ congruence | ]. cbn. apply fchar_facts, Hc.
    + rewrite append_assoc_s. destruct n as [|c n]; [ congruence | ]. destruct Hc as [Hc _]. cbn. fneq.
    + apply or_ok. now apply H.
  - intros c b1 s b2 H1 H2 Cs IH W rest _. destruct (paren_wf c W) as [Hne Hw]. pose proof (HC _ _ Cs Hw) as Hd.
    assert (tight_end s (b2 ++ String ")" rest)) as Ht.
    { left. destruct b2 as [|d b2]; [ repeat split; reflexivity || discriminate | apply blanks_after; split; [ discriminate | exact H2 ] ]. }
    assert (reads logical_expression (s ++ b2 ++ String ")" rest) (b2 ++ String ")" rest) (cond_meaning c)) as Rd.
    { pose proof (chain_done _ _ _ _ _ (IH Hw _ Ht (paren_cond_end b2 rest H2))) as [n Hn]. exists n. intros m Hm.
      unfold logical_expression, p_bind. rewrite (Hn m Hm). destruct c; [ congruence | reflexivity ]. }
    destruct (reads_down _ logical_expression r_lexpr _ _ _ (fun R => eq_refl) Rd) as [n Hn].
    exists n. intros m Hm. unfold logical_expression_term. apply or_ok.
    change (term_meaning (TmParen c)) with (cond_meaning c). rewrite !append_assoc_s.
    unfold parenthesized, delimited, p_bind, ws_right, terminated, p_bind.
    change (tag "(" ("(" ++ b1 ++ s ++ b2 ++ ")" ++ rest)) with (POk (b1 ++ s ++ b2 ++ ")" ++ rest)%string "("%string). cbn iota beta.
    rewrite ms0_eq. change (snd (span is_space (b1 ++ s ++ b2 ++ ")" ++ rest))) with (skip (b1 ++ s ++ b2 ++ ")" ++ rest)).
    rewrite skip_blanks; [ | auto using spaces_sforall | apply Hd ].
    unfold p_ret at 1. change (")" ++ rest)%string with (String ")" rest). rewrite (Hn m Hm).
    unfold ws_left, preceded, p_bind. rewrite ms0_eq. change (snd (span is_space (b2 ++ String ")" rest))) with (skip (b2 ++ String ")" rest)).
    rewrite skip_blanks; [ reflexivity | auto using spaces_sforall | reflexivity ].
  - intros t s Ts IH W rest Hr He. inversion W; subst. cbn [map]. apply chain_one; [ now apply IH | exact He ].
  - intros t s b g u Ts IH K Gs IG W rest Hr He. inversion W as [|? ? W1 W2]; subst. pose proof (HG _ _ Gs W2) as Hd. cbn [map].
    destruct (kw_sep _ _ _ _ rest K ltac:(unfold white, letter; cbn; lia) (proj1 Hd)) as [v E].
    eapply chain_more.
    + apply IH; auto. now apply (kw_tight "AND" _ _ u).
    + unfold and_sep. apply or_ok. exact E.
    + now apply (kw_ne "AND" s b u).
    + apply IG; auto. apply (tight_app (s ++ b)); [ now rewrite append_assoc_s | now apply head_ne ].
  - intros t s b g u Ts IH K N Gs IG W rest Hr He. inversion W as [|? ? W1 W2]; subst. pose proof (HG _ _ Gs W2) as Hd. cbn [map].
    eapply chain_more.
    + apply IH; auto. left. now apply blanks_after.
    + unfold and_sep. rewrite or_err.
      * destruct K as [Hne K]. destruct b; [ congruence | ]. apply ms1; [ exact K | apply Hd ].
      * apply ws_spaces; [ now apply blanks_spaces | apply Hd | now apply no_and ].
    + apply K.
    + apply IG; auto. apply (tight_app (s ++ b)); [ now rewrite append_assoc_s | now apply head_ne ].
  - intros g s Gs IH W rest Hr [He Ho]. inversion W as [|? ? [Wn W1] _]; subst. cbn [map]. apply chain_one.
    + apply GR; auto.
    + intros R [|fuel] Hf; [ lia | ]. cbn [sep_go]. now rewrite Ho.
  - intros g s b c u Gs IH K Cs IC W rest Hr He. inversion W as [|? ? [Wn W1] W2]; subst. pose proof (HC _ _ Cs W2) as Hd. cbn [map].
    destruct (kw_sep _ _ _ _ rest K ltac:(unfold white, letter; cbn; lia) (proj1 Hd)) as [v E].
    eapply chain_more.
    + apply GR; auto. apply IH; auto; [ now apply (kw_tight "OR" _ _ u) | now apply (or_ends_group s b u) ].
    + exact E.
    + now apply (kw_ne "OR" s b u).
    + apply IC; auto. apply (tight_app (s ++ b)); [ now rewrite append_assoc_s | now apply head_ne ].
Qed.
Lemma cond_spelled_reads : forall c s rest, cond_wf c -> cond_spells c s -> tight_end s rest -> cond_end rest ->
  reads logical_expression (s ++ rest) rest (cond_meaning c).
Proof.
  intros c s rest W Cs Ht He. destruct (paren_wf c W) as [Hne Hw].
  destruct (chain_done _ _ _ _ _ (proj2 (proj2 spelled_reads) c s Cs Hw rest Ht He)) as [n Hn]. exists n. intros m Hm.
  unfold logical_expression, p_bind. rewrite (Hn m Hm). destruct c; [ congruence | reflexivity ].
Qed.
Lemma cond_spelled_stops : forall c s x, cond_wf c -> cond_spells c s -> stops is_space (s ++ x).
Proof. intros c s x W Cs. destruct (paren_wf c W) as [_ Hw]. apply (proj2 (proj2 heads) c s Cs Hw). Qed.

(** ** One way to write each condition *)
Fixpoint seps (sep : string) (l : list string) : string :=
  match l with [] => EmptyString | x :: l' => (sep ++ x ++ seps sep l')%string end.
Lemma joined_text_cons : forall sep x l, joined_text sep (x :: l) = (x ++ seps sep l)%string.
Proof.
  intros sep x l. cbn [joined_text joined]. revert x. induction l as [|y l IH]; intro x; cbn [fold_left seps].
  - now rewrite append_nil_r.
  - rewrite IH. now rewrite !append_assoc_s.
Qed.
Lemma joined_cons2 : forall sep x y l, joined_text sep (x :: y :: l) = (x ++ sep ++ joined_text sep (y :: l))%string.
Proof. intros. now rewrite !joined_text_cons. Qed.
Lemma one_blank : blanks " ".
Proof. split; [ discriminate | ]. split; [ now left | exact I ]. Qed.
Lemma keyword_written : forall k s u, keyword_between k s (" " ++ k ++ " ") u.
Proof.
  intros k s u. exists " "%string, k, " "%string. split; [ left; exact one_blank | ]. split; [ now apply same_word_lower | ].
  split; [ left; exact one_blank | reflexivity ].
Qed.
Definition written (t : Term) : Prop := term_wf t -> term_spells t (term_text t).
Lemma group_written : forall g, g <> [] -> Forall term_wf g -> Forall written g -> group_spells g (joined_text " AND " (map term_text g)).
Proof.
  intros g Hne W H. induction H as [|t g Ht Hg IH]; [ congruence | ]. inversion W as [|? ? W1 W2]; subst.
  destruct g as [|u g]; [ apply G_one; auto | ]. cbn [map]. rewrite joined_cons2. apply G_and; auto.
  - apply (keyword_written "AND").
  - apply IH; [ discriminate | auto ].
Qed.
Lemma groups_written : forall c, c <> [] -> Forall group_wf c -> Forall (Forall written) c -> cond_spells c (cond_text c).
Proof.
  intros c Hne W H. induction H as [|g c Hg Hc IH]; [ congruence | ]. inversion W as [|? ? [W0 W1] W2]; subst. unfold cond_text in *.
  destruct c as [|h c]; [ apply C_one, group_written; auto | ]. cbn [map] in *. rewrite joined_cons2. apply C_or; auto.
  - now apply group_written.
  - apply (keyword_written "OR").
  - apply IH; [ discriminate | auto ].
Qed.
Lemma args_show : forall l, writes_args l (map show l).
Proof. induction l as [|t l IH]; constructor; auto. apply EvalFacts.show_writes. Qed.
Lemma term_written : forall t, written t.
Proof.
  induction t as [f o v|f vs|t IH|c IH|n args|f o n args] using term_induction; intro W.
  - apply T_cmp; [ apply one_blank | apply one_blank | left; apply one_blank ].
  - cbn [term_text]. change (" IN (" ++ joined_text ", " (map value_text vs) ++ ")")%string
      with (" " ++ "IN" ++ " " ++ "(" ++ "" ++ joined_text ", " (map value_text vs) ++ "" ++ ")")%string.
    apply T_in; try exact I; [ apply one_blank | now apply same_word_lower | apply one_blank | ].
    destruct W as (_ & _ & Hne & _). induction vs as [|v vs IH]; [ congruence | ]. destruct vs as [|u vs]; [ now apply L_one | ].
    cbn [map]. rewrite joined_cons2. apply L_more; [ reflexivity | | apply IH; discriminate ].
    right. exists EmptyString, " "%string. split; [ exact I | ]. split; [ apply one_blank | reflexivity ].
  - change (term_text (TmNot t)) with ("NOT" ++ " " ++ term_text t)%string. apply T_not; [ now apply same_word_lower | left; apply one_blank | now apply IH ].
  - change (term_text (TmParen c)) with ("(" ++ "" ++ cond_text c ++ "" ++ ")")%string. apply T_paren; try exact I.
    destruct (paren_wf c W). now apply groups_written.
  - cbn [term_text show]. apply T_call, args_show.
  - cbn [term_text show]. apply T_cmp_call; [ apply one_blank | apply one_blank | left; apply one_blank | apply args_show ].
Qed.
Lemma cond_written : forall c, cond_wf c -> cond_spells c (cond_text c).
Proof.
  intros c W. destruct (paren_wf c W) as [Hne Hw]. apply groups_written; auto.
  clear. induction c as [|g c IH]; constructor; auto. clear. induction g; constructor; auto. apply term_written.
Qed.

(** ** The command *)
Lemma where_body : forall c s, cond_wf c -> cond_spells c s -> reads_body p_where (CWhere (cond_meaning c)) s.
Proof.
  intros c s H Cs. split; [ intro x; now apply (cond_spelled_stops c) | ]. intros rest Hr. exists rest. split; [ now left | ].
  destruct (cond_spelled_reads c s rest H Cs (or_introl (after_cmd_term rest Hr)) (cmd_cond_end rest Hr)) as [n Hn].
  exists n. intros m Hm. unfold p_where, p_map, p_bind. now rewrite Hn.
Qed.
Lemma where_command : forall R s r e, stops is_space s -> logical_expression R s = POk r e -> command R ("where " ++ s) = POk r (CWhere e).
Proof.
  intros R s r e Hs H. unfold command. repeat rewrite or_err by reflexivity. apply or_ok.
  unfold cmd, preceded, p_bind.
  assert (match_name "where" ("where " ++ s) = POk s tt) as ->.
  { unfold match_name, match_word, p_bind.
    change ("where " ++ s)%string with ("where" ++ String " " s)%string.
    rewrite (tag_nc_read "where" "where") by now apply same_word_lower.
    unfold p_or, multispace1, take_while1. cbn [span]. change (is_space " ") with true. cbn iota.
    rewrite span_stops; [ reflexivity | exact Hs ]. }
  unfold p_where, p_map, p_bind. now rewrite H.
Qed.
Lemma where_reads : forall s e, stops is_space s -> reads logical_expression s EmptyString e -> parse ("where " ++ s) = Some (Ok [CWhere e]).
Proof.
  intros s e Hs [n Hn]. apply parse_command; [ | reflexivity | discriminate ]. exists n. intros m Hm.
  apply where_command; auto.
Qed.
Lemma one_term : forall s e, reads logical_expression_term s EmptyString e -> reads logical_expression s EmptyString e.
Proof.
  intros s e H. destruct (cmd_cond_end _ after_nil) as [Ge Oe].
  assert (G : reads logical_expression_group s EmptyString e).
  { assert (C : chain logical_expression_term and_sep s EmptyString [e]) by (apply chain_one; [ now rewrite append_nil_r | exact Ge ]).
    apply chain_done in C. rewrite append_nil_r in C. destruct C as [n C]. exists n. intros m Hm. unfold logical_expression_group, p_bind. fold and_sep. now rewrite (C m Hm). }
  assert (C : chain logical_expression_group (ws (tag_no_case "OR")) s EmptyString [e]).
  { apply chain_one; [ now rewrite append_nil_r | ]. intros R [|fuel] Hf; [ lia | ]. cbn [sep_go]. now rewrite Oe. }
  apply chain_done in C. rewrite append_nil_r in C. destruct C as [n C]. exists n. intros m Hm. unfold logical_expression, p_bind. now rewrite (C m Hm).
Qed.
Lemma parse_where : forall c s, cond_wf c -> cond_spells c s -> parse ("where " ++ s) = Some (Ok [CWhere (cond_meaning c)]).
Proof.
  intros c s H Cs. apply where_reads.
  - rewrite <- (append_nil_r s). now apply (cond_spelled_stops c).
  - pose proof (cond_spelled_reads c s EmptyString H Cs (or_introl (after_cmd_term _ after_nil)) (cmd_cond_end _ after_nil)) as R. now rewrite append_nil_r in R.
Qed.
(** Something is left after the command *)
Lemma parse_leaves : forall s r c, reads command s r c ->
  stops is_space s -> match s with String d _ => d <> "|"%char | _ => True end ->
  match skip r with String d _ => d <> "|"%char | EmptyString => False end -> parse s = Some Err.
Proof.
  intros s r c [n H] Hs Hp Hr.
  set (m := S (max n (String.length s))).
  assert (parse_with m s = Some Err) as E.
  { unfold parse_with, pipeline, preceded, p_bind.
    assert (opt (ws (tag "|")) s = POk s None) as ->.
    { unfold opt, ws, delimited, p_bind. rewrite ms0_eq, span_stops by auto. cbn [fst snd].
      destruct s as [|d s]; [ reflexivity | ]. rewrite tag1_err; auto.
      destruct (Ascii.eqb_spec "|"%char d); congruence. }
    unfold all_consuming, p_bind.
    assert (separated_list0 (ws (tag "|")) (command (level m)) (skip s) = POk r [c]) as E2.
    { rewrite skip_stops by auto. unfold separated_list0. rewrite H by (subst m; lia).
      assert (ws (tag "|") r = PErr) as T.
      { apply ws_err. destruct (skip r) as [|d x]; [ reflexivity | ]. apply tag1_err. destruct (Ascii.eqb_spec "|"%char d); congruence. }
      cbn [sep_go]. now rewrite T. }
    rewrite (ws_ok _ _ _ _ _ E2). destruct (skip r); [ destruct Hr | reflexivity ]. }
  rewrite <- E. symmetry. apply parse_fuel. subst m. lia.
Qed.
(** A condition is over where an operator follows it *)
Definition op_char (k : ascii) : Prop := In k ["+"; "="; "!"; "<"; ">"]%char.
Lemma op_not_term : forall R k x, op_char k -> logical_expression_term R (String k x) = PErr.
Proof. intros R k x H. unfold op_char in H. repeat (destruct H as [<-|H]; [ reflexivity | ]). destruct H. Qed.
Lemma where_rest : forall c s b k x, cond_wf c -> cond_spells c s -> blanks b \/ spaces b /\ closes s -> op_char k ->
  parse ("where " ++ s ++ b ++ String k x) = Some Err.
Proof.
  intros c s b k x W Cs Hb Hk.
  assert (Sb : spaces b) by (destruct Hb as [Hb|[Hb _]]; auto using blanks_spaces).
  assert (Sk : stops is_space (String k x)) by (unfold op_char in Hk; repeat (destruct Hk as [<-|Hk]; [ reflexivity | ]); destruct Hk).
  assert (T : tight_end s (b ++ String k x)) by (destruct Hb as [Hb|[_ Hb]]; [ left; now apply blanks_after | now right ]).
  assert (E : cond_end (b ++ String k x)).
  { split; [ apply group_end_by; auto; [ | intro; now apply op_not_term ] | apply ws_spaces; auto ];
      unfold op_char in Hk; repeat (destruct Hk as [<-|Hk]; [ reflexivity | ]); destruct Hk. }
  destruct (cond_spelled_reads c s _ W Cs T E) as [n Hn].
  apply (parse_leaves _ (b ++ String k x)%string (CWhere (cond_meaning c))).
  - exists n. intros m Hm. apply where_command; [ now apply (cond_spelled_stops c) | now apply Hn ].
  - reflexivity.
  - discriminate.
  - rewrite skip_blanks by auto using spaces_sforall. unfold op_char in Hk. repeat (destruct Hk as [<-|Hk]; [ discriminate | ]). destruct Hk.
Qed.
(** Two empty strings are read as one string with what is between them *)
Lemma skip_quoted : forall m, well_quoted false m -> exists b m', m = (b ++ m')%string /\ spaces b /\ well_quoted false m' /\ stops is_space m'.
Proof.
  induction m as [|c m IH]; intro H; [ exists EmptyString, EmptyString; repeat split; exact I | ].
  destruct (is_space c) eqn:E.
  - apply is_space_spec in E. destruct H as [_ H].
    assert (B : negb false && Nat.eqb (nat_of_ascii c) 92 = false) by (destruct (white_space c E) as [-> |[-> |[-> | ->]]]; reflexivity).
    rewrite B in H. destruct (IH H) as (b & m' & -> & Hb & Hq & Hs). exists (String c b), m'. repeat split; auto.
  - exists EmptyString, (String c m). repeat split; auto; apply H.
Qed.
Lemma twice_quoted : forall m rest, well_quoted false m -> double_quoted (in_quotes (in_quotes m) ++ rest) = POk rest (in_quotes m).
Proof.
  intros m rest H. rewrite in_quotes_eq. rewrite in_quotes_eq. cbn [append]. unfold double_quoted. apply or_ok.
  unfold delimited at 1, p_bind at 1.
  change (tag dq (String dquote (String dquote (m ++ String dquote (String dquote rest))))) with (POk (String dquote (m ++ String dquote (String dquote rest))) dq). cbn iota beta.
  assert (R : recognize (P: _ <- tag dq; P: _ <- quoted_content dquote; tag dq) (String dquote (m ++ String dquote (String dquote rest)))
    = POk (String dquote rest) (in_quotes m)).
  { unfold recognize, p_bind. change (tag dq (String dquote (m ++ String dquote (String dquote rest)))) with (POk (m ++ String dquote (String dquote rest))%string dq). cbn iota beta.
    destruct (skip_quoted m H) as (b & m' & E & Hb & Hq & Hs).
    assert (Q : quoted_content dquote (m ++ String dquote (String dquote rest)) = POk (String dquote (String dquote rest)) m').
    { rewrite E, append_assoc_s. unfold quoted_content. rewrite LexFacts.ws_skip by now apply spaces_sforall. now apply quoted_content_plain. }
    rewrite Q. change (tag dq (String dquote (String dquote rest))) with (POk (String dquote rest) dq). cbn iota beta.
    replace (String dquote (m ++ String dquote (String dquote rest))) with (in_quotes m ++ String dquote rest)%string by now rewrite in_quotes_eq.
    now rewrite consumed_app. }
  unfold p_bind in R |- *. rewrite R. reflexivity.
Qed.
Lemma literal_twice : forall m rest, well_quoted false m -> has_char "*"%char m = false -> literal (in_quotes (in_quotes m) ++ rest) = POk rest (KStr (in_quotes m)).
Proof.
  intros m rest H Hstar. unfold literal, map_parser, p_bind.
  assert (literal_text (in_quotes (in_quotes m) ++ rest) = POk rest (in_quotes (in_quotes m))) as ->.
  { unfold literal_text, recognize. rewrite (or_ok _ _ _ _ _ _ (twice_quoted m rest H)). now rewrite consumed_app. }
  assert (literal_value (in_quotes (in_quotes m)) = POk EmptyString (KStr (in_quotes m))) as ->; [ | reflexivity ].
  assert (word_start dquote) as W by (repeat split; reflexivity).
  pose proof (twice_quoted m EmptyString H) as Ed. rewrite append_nil_r in Ed.
  unfold literal_value.
  rewrite (or_err _ (p_map KIPv4CIDR _)) by (apply ac_err; now apply ws_ipv4).
  rewrite (or_err _ (p_map KStr (all_consuming ipv4_addr))) by (apply ac_err; now apply ws_ipv4).
  rewrite (or_err _ (p_map KStr (all_consuming ipv6_addr))) by (apply ac_err; now apply ws_ipv6).
  rewrite (or_err _ (p_map KWildcard _)).
  2:{ apply ac_err. unfold wildcard, verify, p_bind. rewrite (or_ok _ _ _ _ _ _ Ed).
      assert (has_char "*"%char (in_quotes m) = false) as ->; [ | reflexivity ].
      rewrite <- (append_nil_r (in_quotes m)), in_quotes_eq. unfold has_char, sexists in *. rewrite negb_false_iff in *.
      cbn [sforall]. rewrite sforall_app, Hstar. reflexivity. }
  apply or_ok, ac_ok. exact Ed.
Qed.
Lemma empty_strings : forall f m, field_name f -> ~ starts_with_not f -> ~ is_time_modifier f -> well_quoted false m -> has_char "*"%char m = false ->
  parse ("where " ++ f ++ "=" ++ in_quotes "" ++ m ++ in_quotes "") = Some (Ok [CWhere (EBinary (ELeaf (LConstant (KField f))) "=" (ELeaf (LConstant (KStr (in_quotes m)))))]).
Proof.
  intros f m Hf Hn Ht Hm Hs.
  replace (in_quotes "" ++ m ++ in_quotes "")%string with (in_quotes (in_quotes m)).
  2:{ rewrite <- (append_nil_r (in_quotes (in_quotes m))). rewrite in_quotes_eq, in_quotes_eq. reflexivity. }
  apply where_reads.
  - destruct (fname_chars f Hf) as [Hne Hc]. destruct f as [|c f]; [ congruence | ]. cbn. apply fchar_facts, Hc.
  - apply one_term. exists 0. intros k _. rewrite <- (append_nil_r (f ++ _)).
    change (f ++ "=" ++ in_quotes (in_quotes m))%string with (f ++ "" ++ cmp_text CEq ++ "" ++ in_quotes (in_quotes m))%string.
    apply (cmp_term_by f CEq); auto; try exact I; [ reflexivity | discriminate | ].
    rewrite or_err by reflexivity. unfold p_map, p_bind. rewrite literal_twice by auto. reflexivity.
Qed.
(** The word NOT need not be separated from what follows *)
Lemma glued_not : forall w t s, same_word w "NOT" -> term_wf t -> term_spells t s ->
  parse ("where " ++ w ++ s) = Some (Ok [CWhere (EUnary "NOT" (term_meaning t))]).
Proof.
  intros w t s Hw W Ts. apply where_reads; [ apply (word_stops "NOT"); [ exact Hw | unfold white, letter; cbn; lia ] | ]. apply one_term.
  pose proof (proj1 spelled_reads t s Ts W EmptyString (or_introl (after_cmd_term _ after_nil))) as R. rewrite append_nil_r in R.
  destruct (reads_down _ logical_expression_term r_lterm _ _ _ (fun R => eq_refl) R) as [n Hn].
  exists n. intros m Hm. unfold logical_expression_term. rewrite or_err.
  2:{ apply paren_err. pose proof Hw as Hw'. apply same_word_lower in Hw'. destruct w as [|c w]; [ discriminate | ]. cbn in Hw'. injection Hw' as Hc _.
      cbn. intros ->. discriminate. }
  apply or_ok. unfold p_map, preceded, p_bind.
  assert (ws (tag_no_case "NOT") (w ++ s)%string = POk s w) as ->.
  { rewrite (ws_ok _ _ _ s w).
    - rewrite skip_stops; [ reflexivity | ]. rewrite <- (append_nil_r s). apply (proj1 heads t s Ts W).
    - rewrite skip_stops; [ now apply tag_nc_read | ]. apply (word_stops "NOT"); [ exact Hw | unfold white, letter; cbn; lia ]. }
  now rewrite (Hn m Hm).
Qed.
