(** Written expressions are read back (C07). *)
From Coq Require Import Lia DecimalString.
From Verif Require Import Str SplAst Nom Lexer Parser CmdParser ParserFacts ParserTotal ParserFuel.
From Verif Require Import SpecText SpecExpr LexFacts TokenFacts NameFacts.

(** ** Some fuel reads the text *)
Definition reads {A} (f : Recs -> Parser A) (s r : string) (a : A) : Prop :=
  exists n, forall m, n <= m -> f (level m) s = POk r a.
Definition mono {A} (f : Recs -> Parser A) : Prop := forall R R', ple_recs R R' -> ple (f R) (f R').
Lemma reads_intro : forall A (f : Recs -> Parser A) n s r a,
  mono f -> f (level n) s = POk r a -> reads f s r a.
Proof.
  intros A f n s r a Hm H. exists n. intros m Hle.
  eapply enough_fuel_ok; [ apply Hm, ple_level, Hle | exact H ].
Qed.
Lemma reads_const : forall A (p : Parser A) s r a, p s = POk r a -> reads (fun _ => p) s r a.
Proof. intros A p s r a H. exists 0. auto. Qed.
(** One level down *)
Lemma reads_down : forall A (f : Recs -> Parser A) (g : Recs -> Parser A) s r a,
  (forall R, g (next R) = f R) -> reads f s r a -> reads g s r a.
Proof.
  intros A f g s r a E [n H]. exists (S n). intros [|m] Hm; [ lia | ].
  cbn [level]. rewrite E. apply H. lia.
Qed.

(** ** Binary chains *)
Lemma chain_none : forall (p : Recs -> Parser Expr) op again s r a,
  reads p s r a -> op r = PErr ->
  reads (fun R => binary_chain (p R) op (again R)) s r a.
Proof.
  intros p op again s r a [n H] Ho. exists n. intros m Hm. unfold binary_chain, p_bind.
  rewrite (H m Hm). unfold opt, pair_, p_bind. rewrite Ho. reflexivity.
Qed.
Lemma chain_some : forall (p : Recs -> Parser Expr) op again s r1 a r2 sym r b,
  reads p s r1 a -> op r1 = POk r2 sym -> reads again r2 r b ->
  reads (fun R => binary_chain (p R) op (again R)) s r (EBinary a sym b).
Proof.
  intros p op again s r1 a r2 sym r b [n H] Ho [n' H']. exists (max n n'). intros m Hm.
  unfold binary_chain, p_bind. rewrite (H m) by lia. unfold opt, pair_, p_bind. rewrite Ho.
  rewrite (H' m) by lia. reflexivity.
Qed.
Lemma reads_or_l : forall A (p q : Recs -> Parser A) s r a,
  reads p s r a -> reads (fun R => p R <|> q R) s r a.
Proof. intros A p q s r a [n H]. exists n. intros m Hm. unfold p_or. now rewrite H. Qed.
Lemma reads_or_r : forall A (p q : Recs -> Parser A) s r a,
  (forall R, p R s = PErr) -> reads q s r a -> reads (fun R => p R <|> q R) s r a.
Proof. intros A p q s r a Hp [n H]. exists n. intros m Hm. unfold p_or. now rewrite Hp, H. Qed.

(** ** Which operators do not apply to a rest *)
Definition op3 : Parser string := ws (tag_no_case "*" <|> tag_no_case "/").
Definition op4 : Parser string := ws (tag_no_case "+" <|> tag_no_case "-").
Definition op5 : Parser string := ws op_concat.
Definition op6 : Parser string := ws comparison_op_text.
Definition op_in : Parser string := ws (P: a <- tag_no_case "IN"; P: _ <- multispace0; P: _ <- tag "("; p_ret a).
Definition op8 : Parser string := ws op_or.
Definition op9 : Parser string := ws op_and.
Definition op9w : Parser string := ws op_and <|> p_map (fun _ => "AND"%string) multispace1.

(** What may follow an operand *)
Definition ends (rest : string) : Prop :=
  tok_end lit_specials rest /\ match rest with String c _ => c <> "("%char | _ => True end
  /\ op_in rest = PErr.
Definition closed (rest : string) : Prop :=
  ends rest /\ op3 rest = PErr /\ op4 rest = PErr /\ op5 rest = PErr /\ op6 rest = PErr /\ op8 rest = PErr.

(** ** The start of an operand: neither NOT nor x IN (...) *)
Definition not_alts (R : Recs) : Parser Expr :=
  p_map (fun or => EUnary (fst or) (snd or))
    (separated_pair op_not multispace1 (r_expr7 R) <|> pair_ (ws op_not) (parenthesized (r_expr_ws R))).
Definition starts_operand (s : string) : Prop :=
  (forall R, not_alts R s = PErr) /\ field_in s = PErr.

(** ** From operands to expressions *)
Definition base : Recs -> Parser Expr := expr2.
Section Lift.
Variables (s rest : string) (e : Expr).
Hypothesis Hb : reads expr2 s rest e.
Lemma lift3 : op3 rest = PErr -> reads expr3 s rest e.
Proof. intro H. exact (chain_none expr2 op3 r_expr3 _ _ _ Hb H). Qed.
Lemma lift4 : op3 rest = PErr -> op4 rest = PErr -> reads expr4 s rest e.
Proof. intros H3 H4. exact (chain_none expr3 op4 r_expr4 _ _ _ (lift3 H3) H4). Qed.
Lemma lift5 : op3 rest = PErr -> op4 rest = PErr -> op5 rest = PErr -> reads expr5 s rest e.
Proof. intros H3 H4 H5. exact (chain_none expr4 op5 r_expr5 _ _ _ (lift4 H3 H4) H5). Qed.
End Lift.
Lemma lift6 : forall s rest e, reads expr5 s rest e -> field_in s = PErr -> op6 rest = PErr ->
  reads expr6 s rest e.
Proof.
  intros s rest e H Hf H6. apply (reads_or_r _ (fun _ => field_in)); [ auto | ].
  exact (chain_none expr5 op6 r_expr6 _ _ _ H H6).
Qed.
Lemma lift7 : forall s rest e, reads expr6 s rest e -> (forall R, not_alts R s = PErr) ->
  reads expr7 s rest e.
Proof. intros s rest e H Hn. exact (reads_or_r _ not_alts _ _ _ _ Hn H). Qed.
Lemma lift8 : forall s rest e, reads expr7 s rest e -> op8 rest = PErr -> reads expr8 s rest e.
Proof. intros s rest e H H8. exact (chain_none expr7 op8 r_expr8 _ _ _ H H8). Qed.
Lemma lift9 : forall s rest e, reads expr8 s rest e -> op9 rest = PErr -> reads expr s rest e.
Proof. intros s rest e H H9. exact (chain_none expr8 op9 r_expr _ _ _ H H9). Qed.
Lemma lift9w : forall s rest e, reads expr8 s rest e -> op9w rest = PErr -> reads expr_ws s rest e.
Proof. intros s rest e H H9. exact (chain_none expr8 op9w r_expr_ws _ _ _ H H9). Qed.

(** Upwards from each level when nothing else follows *)
Lemma up5 : forall s rest e, reads expr5 s rest e -> starts_operand s -> closed rest -> reads expr8 s rest e.
Proof.
  intros s rest e H [Hn Hf] (_ & _ & _ & _ & H6 & H8).
  apply lift8; auto. apply lift7; auto. apply lift6; auto.
Qed.
Lemma up2 : forall s rest e, reads expr2 s rest e -> starts_operand s -> closed rest ->
  reads expr3 s rest e /\ reads expr4 s rest e /\ reads expr5 s rest e /\ reads expr6 s rest e
  /\ reads expr7 s rest e /\ reads expr8 s rest e.
Proof.
  intros s rest e H [Hn Hf] (_ & H3 & H4 & H5 & H6 & H8).
  pose proof (lift5 _ _ _ H H3 H4 H5) as L5. pose proof (lift6 _ _ _ L5 Hf H6) as L6.
  pose proof (lift7 _ _ _ L6 Hn) as L7. pose proof (lift8 _ _ _ L7 H8) as L8.
  repeat split; auto; [ apply lift3 | apply lift4 ]; auto.
Qed.

(** ** Operators in the text *)
Definition infix (b1 : string) (o : Op) (b2 s : string) : string := (b1 ++ op_text o ++ b2 ++ s)%string.

Lemma ws_read : forall A (p : Parser A) s r a, p s = POk r a -> stops is_space s ->
  ws p (String " " s) = POk (skip r) a.
Proof. intros A p s r a H Hs. apply ws_ok. unfold skip at 1. cbn. now rewrite span_stops. Qed.
Lemma ws_read_err : forall A (p : Parser A) s, p s = PErr -> stops is_space s ->
  ws p (String " " s) = PErr.
Proof.
  intros A p s H Hs. unfold ws, delimited, p_bind. rewrite ms0_eq. cbn. rewrite span_stops by auto.
  cbn. now rewrite H.
Qed.
Lemma skip_space : forall s, stops is_space s -> skip (String " " s) = s.
Proof. intros s H. unfold skip. cbn. now rewrite span_stops. Qed.
Lemma tag_nc_word : forall t w r, same_word w t -> tag_no_case t (w ++ r) = POk r w.
Proof. exact tag_nc_read. Qed.

Lemma blanks_space : forall b, blanks b -> sforall is_space b = true.
Proof. intros b [_ H]. now apply (all_chars_sforall white is_space b is_space_spec). Qed.
Lemma blanks_head : forall b, blanks b -> exists c b', b = String c b' /\ sforall is_space b' = true /\
  (c = ascii_of_nat 32 \/ c = ascii_of_nat 9 \/ c = ascii_of_nat 10 \/ c = ascii_of_nat 13).
Proof.
  intros b H. pose proof (blanks_space b H) as Hb. destruct H as [Hn H]. destruct b as [|c b]; [ congruence | ].
  destruct H as [Hc _]. cbn in Hb. apply andb_true_iff in Hb. exists c, b. repeat split; try tauto.
  unfold white in Hc. cbn in Hc.
  rewrite <- (ascii_nat_embedding c).
  destruct Hc as [E|[E|[E|[E|[]]]]]; rewrite <- E; tauto.
Qed.
Lemma skip_blanks : forall b s, sforall is_space b = true -> stops is_space s -> skip (b ++ s) = s.
Proof. intros b s Hb Hs. unfold skip. now rewrite span_exact. Qed.

Lemma op_reads : forall b1 o b2 s, blanks b1 -> blanks b2 -> stops is_space s ->
  let t := infix b1 o b2 s in
  match binds o with
  | 3 => op3 t = POk s (op_text o)
  | 4 => op3 t = PErr /\ op4 t = POk s (op_text o)
  | 5 => op3 t = PErr /\ op4 t = PErr /\ op5 t = POk s (op_text o)
  | 6 => op3 t = PErr /\ op4 t = PErr /\ op5 t = PErr /\ op6 t = POk s (op_text o)
  | 8 => op3 t = PErr /\ op4 t = PErr /\ op5 t = PErr /\ op6 t = PErr /\ op8 t = POk s (op_text o)
  | _ => op3 t = PErr /\ op4 t = PErr /\ op5 t = PErr /\ op6 t = PErr /\ op8 t = PErr
         /\ op9 t = POk s (op_text o) /\ op9w t = POk s (op_text o)
  end.
Proof.
  intros b1 o b2 s H1 H2 Hs t. subst t.
  assert (Sk : forall A (p : Parser A), ws p (infix b1 o b2 s) = ws p (op_text o ++ b2 ++ s)%string).
  { intros A p. unfold infix. apply ws_skip. now apply blanks_space. }
  assert (S9 : op9w (infix b1 o b2 s) = match ws op_and (op_text o ++ b2 ++ s)%string with
                 PErr => p_map (fun _ => "AND"%string) multispace1 (infix b1 o b2 s) | r => r end).
  { unfold op9w, p_or. now rewrite Sk. }
  pose proof (blanks_space b2 H2) as Hb2.
  assert (W : forall (p : Parser string) t a, p (t ++ b2 ++ s)%string = POk (b2 ++ s)%string a ->
             stops is_space (t ++ b2 ++ s) -> ws p (t ++ b2 ++ s)%string = POk s a).
  { intros p t a H Ht. rewrite (ws_ok _ p _ (b2 ++ s)%string a); [ | now rewrite skip_stops ].
    now rewrite skip_blanks. }
  assert (N : forall t u, same_word u t -> tag_no_case t (u ++ b2 ++ s)%string = POk (b2 ++ s)%string u)
    by (intros; now apply tag_nc_read).
  assert (Sw : forall t, same_word t t) by (intro t; now apply same_word_lower).
  assert (T : forall t, tag t (t ++ b2 ++ s)%string = POk (b2 ++ s)%string t).
  { intro t. unfold tag. assert (strip_prefix t (t ++ b2 ++ s) = Some (b2 ++ s)%string) as ->; [ | reflexivity ].
    induction t as [|c t IH]; cbn [append strip_prefix]; [ reflexivity | now rewrite Ascii.eqb_refl ]. }
  destruct (blanks_head b2 H2) as (c & b' & E & Hb' & Hc).
  destruct o; cbn [binds]; unfold op3, op4, op5, op6, op8, op9; rewrite ?S9, ?Sk; cbn [op_text].
  all: repeat match goal with |- _ /\ _ => split; [ rewrite E; destruct Hc as [-> | [-> | [-> | ->]]]; reflexivity | ] end.
  Ltac rd E Hc N Sw T := first [ apply N, Sw | apply T
    | rewrite or_err by (rewrite E; destruct Hc as [-> | [-> | [-> | ->]]]; reflexivity); rd E Hc N Sw T
    | apply or_ok; rd E Hc N Sw T ].
  all: unfold comparison_op_text, op_equals, op_or, op_and.
  all: try (apply W; [ | reflexivity ]; rd E Hc N Sw T).
  - rewrite (ws_ok _ op_concat _ s "."%string); [ now rewrite skip_stops | ].
    rewrite skip_stops by reflexivity. unfold op_concat, delimited, p_bind.
    change (multispace0 ("." ++ b2 ++ s)) with (POk ("." ++ b2 ++ s)%string EmptyString). cbn iota beta.
    rewrite T. unfold multispace1, take_while1. rewrite span_exact by auto. rewrite E. reflexivity.
  - assert (ws (tag_no_case "AND" <|> tag " ") ("AND" ++ b2 ++ s)%string = POk s "AND"%string) as X.
    { apply W; [ | reflexivity ]. rd E Hc N Sw T. }
    split; [ exact X | ]. fold op_and in X. unfold op_and in X. rewrite X. reflexivity.
Qed.

(** ** Identifiers *)
Lemma name_char_tok : forall c, name_char c -> tok_char tok_specials c = true /\ tok_char lit_specials c = true.
Proof.
  intros c H. unfold tok_char, is_alnum. unfold name_char in H.
  destruct H as [H|[H| ->]]; [ apply is_alpha_spec in H | apply is_digit_spec in H | split; reflexivity ];
    rewrite H, ?orb_true_r; auto.
Qed.
Lemma all_chars_impl : forall (P Q : ascii -> Prop) s, (forall c, P c -> Q c) -> all_chars P s -> all_chars Q s.
Proof. intros P Q s H. induction s as [|c s IH]; cbn; auto. intros [H1 H2]. auto. Qed.
Lemma all_chars_bool : forall (P : ascii -> Prop) f s, (forall c, P c -> f c = true) ->
  all_chars P s -> sforall f s = true.
Proof. intros P f s H. induction s as [|c s IH]; cbn; auto. intros [H1 H2]. rewrite H; auto. Qed.
Lemma ident_chars : forall w, plain_ident w -> w <> EmptyString /\ all_chars name_char w.
Proof.
  intros [|c w] [H _]; [ destruct H | ]. split; [ discriminate | ]. destruct H as [H1 H2]. split; auto.
  unfold name_char. tauto.
Qed.
Lemma not_reserved_word : forall w, ~ is_reserved w -> is_not_reserved_word w = true.
Proof.
  intros w H. unfold is_not_reserved_word. rewrite negb_true_iff.
  apply not_true_iff_false. intro E. apply H. apply existsb_exists in E. destruct E as (v & Hin & Hv).
  apply String.eqb_eq in Hv. exists v. split; [ exact Hin | ]. subst v. apply same_word_lower.
  clear. unfold lower, upper. induction w as [|c w IH]; cbn; auto. f_equal; auto.
  apply lower_c_same. unfold same_letter. rewrite upper_c_code. pose proof (is_lower_spec c).
  destruct (is_lower c) eqn:E.
  - right. right. destruct H as [H _]. specialize (H eq_refl). lia.
  - left. unfold upper_c. now rewrite E.
Qed.
(** Names of fields *)
Lemma ident_field : forall w, plain_ident w -> field_name w.
Proof.
  intros w (H & Hr & Ht & Hf). apply F_word. split; auto. destruct w as [|c w]; auto.
  destruct H as [H1 H2]. split; auto. revert H2. clear. induction w as [|d w IH]; cbn; auto.
  intros [H1 H2]. split; auto. now left.
Qed.
Coercion ident_field : plain_ident >-> field_name.
#[export] Hint Resolve ident_field : core.
Definition fchar (c : ascii) : Prop := word_char c \/ c = "."%char.
Lemma fword_chars : forall w, field_word w -> w <> EmptyString /\ all_chars word_char w.
Proof.
  intros [|c w] [H _]; [ destruct H | ]. split; [ discriminate | ]. destruct H as [H1 H2]. split; auto.
  left. unfold name_char. tauto.
Qed.
Lemma fchars_app : forall P a b, all_chars P a -> all_chars P b -> all_chars P (a ++ b)%string.
Proof. intros P a b. induction a as [|c a IH]; cbn; tauto. Qed.
Lemma fname_chars : forall w, field_name w -> w <> EmptyString /\ all_chars fchar w.
Proof.
  intros w H. induction H as [w H|w n H Hn [_ IH]].
  - destruct (fword_chars w H) as [Hn Hc]. split; auto. eapply all_chars_impl; [ | exact Hc ]. intros c. now left.
  - destruct (fword_chars w H) as [Hw Hc]. split; [ destruct w; [ congruence | discriminate ] | ].
    apply fchars_app; [ eapply all_chars_impl; [ | exact Hc ]; intros c; now left | ].
    cbn. split; auto. now right.
Qed.
Lemma fchar_tok : forall c, fchar c -> tok_char lit_specials c = true.
Proof.
  intros c [[H|H]| ->]; [ now apply name_char_tok | | reflexivity ].
  cbn in H. destruct H as [<-|[<-|[<-|[<-|[<-|[]]]]]]; reflexivity.
Qed.
Lemma word_char_tok : forall c, word_char c -> tok_char tok_specials c = true.
Proof.
  intros c [H|H]; [ now apply name_char_tok | ].
  cbn in H. destruct H as [<-|[<-|[<-|[<-|[<-|[]]]]]]; reflexivity.
Qed.
Lemma dot_not_reserved : forall a b, ~ is_reserved (a ++ "." ++ b)%string.
Proof.
  intros a b (v & Hv & Hs). apply same_word_lower in Hs.
  assert (has_char "."%char (lower (a ++ "." ++ b)) = true) as E.
  { apply has_char_spec. clear. induction a as [|c a IH]; cbn; auto. }
  rewrite Hs in E. clear - Hv E. unfold spl_reserved in Hv. cbn [In] in Hv.
  repeat (destruct Hv as [<-|Hv]; [ discriminate E | ]). exact Hv.
Qed.
Lemma fname_unreserved : forall w, field_name w -> ~ is_reserved w.
Proof. intros w H. destruct H as [w (_ & H & _)|w n _ _]; auto. apply dot_not_reserved. Qed.
Lemma fname_not_reserved : forall w, field_name w -> is_not_reserved_word w = true.
Proof. intros w H. now apply not_reserved_word, fname_unreserved. Qed.
Lemma ident_not_reserved : forall w, plain_ident w -> is_not_reserved_word w = true.
Proof. intros w H. now apply fname_not_reserved, ident_field. Qed.
Lemma lit_tok_end : forall rest, tok_end lit_specials rest -> tok_end tok_specials rest.
Proof.
  intros [|c r]; auto. intros [H1 H2]. split; auto.
  unfold tok_char in *. apply orb_false_iff in H1. destruct H1 as [H1 H3]. rewrite H3, orb_false_r.
  apply not_true_iff_false. intro E. apply not_true_iff_false in H1. apply H1.
  apply has_char_spec. apply has_char_spec in E. unfold lit_specials. cbn in E |- *. tauto.
Qed.
Lemma token_word : forall w rest, field_word w -> tok_end tok_specials rest -> token (w ++ rest) = POk rest w.
Proof.
  intros w rest Hw Hr. destruct (fword_chars w Hw) as [Hn Hc].
  change token with (token_of tok_specials). rewrite token_of_read; auto.
  - rewrite not_reserved_word; auto. apply Hw.
  - apply (all_chars_bool word_char); auto. apply word_char_tok.
Qed.
Lemma token_ident : forall w rest, plain_ident w -> tok_end lit_specials rest -> token (w ++ rest) = POk rest w.
Proof.
  intros w rest Hw Hr. destruct (ident_chars w Hw) as [Hn Hc].
  change token with (token_of tok_specials). rewrite token_of_read; auto using lit_tok_end.
  - now rewrite ident_not_reserved.
  - apply (all_chars_bool name_char); auto. intros c H. now apply name_char_tok.
Qed.
(** What token reads of the name of a field: the first word *)
Lemma token_fname : forall n rest, field_name n -> tok_end lit_specials rest ->
  exists w r, token (n ++ rest) = POk (r ++ rest)%string w /\ n = (w ++ r)%string /\ field_word w /\
    (r = EmptyString \/ exists r', r = String "." r').
Proof.
  intros n rest H Hr. destruct H as [w H|w n H _].
  - exists w, EmptyString. rewrite append_nil_r. split; [ now apply token_word, lit_tok_end | auto ].
  - exists w, (String "." n). split; [ | split; [ reflexivity | split; [ exact H | right; eauto ] ] ].
    rewrite append_assoc_s. apply token_word; auto. split; reflexivity.
Qed.
Lemma token_then_err : forall A (k : string -> Parser A) n rest, field_name n -> tok_end lit_specials rest ->
  (forall w, k w rest = PErr) -> (forall w r, k w (String "." r) = PErr) -> p_bind token k (n ++ rest)%string = PErr.
Proof.
  intros A k n rest Hn Hr H1 H2. unfold p_bind. destruct (token_fname n rest Hn Hr) as (w & r & -> & _ & _ & [-> |(r' & ->)]); cbn [append]; auto.
Qed.
Lemma literal_ident : forall w rest, field_name w -> tok_end lit_specials rest ->
  token_with_extras (w ++ rest) = POk rest w.
Proof.
  intros w rest Hw Hr. destruct (fname_chars w Hw) as [Hn Hc].
  change token_with_extras with (token_of lit_specials). rewrite token_of_read; auto.
  - now rewrite fname_not_reserved.
  - apply (all_chars_bool fchar); auto. apply fchar_tok.
Qed.
Lemma fword_head : forall w, field_word w -> exists c r, w = String c r /\ (letter c \/ c = "_"%char).
Proof. intros [|c w] [H _]; [ destruct H | ]. destruct H as [H _]. eauto. Qed.
Lemma ident_head : forall w, field_name w -> exists c r, w = String c r /\ (letter c \/ c = "_"%char).
Proof.
  intros w H. destruct H as [w H|w n H _]; destruct (fword_head w H) as (c & r & -> & Hc); cbn [append]; eauto.
Qed.
Lemma head_not : forall c x, letter c \/ c = "_"%char -> ~ letter x -> x <> "_"%char -> Ascii.eqb x c = false.
Proof.
  intros c x Hc Hx Hu. destruct (Ascii.eqb_spec x c) as [->|]; auto. exfalso. tauto.
Qed.
Lemma not_letter_code : forall c, nat_of_ascii c < 65 \/ 91 <= nat_of_ascii c <= 96 \/ 123 <= nat_of_ascii c -> ~ letter c.
Proof. intros c H. unfold letter. lia. Qed.
Ltac nl := apply not_letter_code; cbn; lia.
Lemma ident_tag_err : forall w rest x, field_name w -> ~ letter x -> x <> "_"%char ->
  tag (String x EmptyString) (w ++ rest) = PErr.
Proof.
  intros w rest x Hw Hx Hu. destruct (ident_head w Hw) as (c & r & -> & Hc). cbn [append].
  apply tag1_err. now apply head_not.
Qed.
Lemma ident_quoted_err : forall w rest, field_name w ->
  double_quoted (w ++ rest) = PErr /\ single_quoted (w ++ rest) = PErr.
Proof.
  intros w rest Hw. unfold double_quoted, single_quoted, delimited, p_or, p_bind, dq, sq.
  rewrite !(ident_tag_err w) by (auto; try nl; discriminate). auto.
Qed.
Lemma head_no_digit : forall c, letter c \/ c = "_"%char -> is_digit c = false.
Proof.
  intros c [H| ->]; [ | reflexivity ]. apply is_digit_false. unfold letter, digit in *. lia.
Qed.
Lemma digit1_head_err : forall c r, is_digit c = false -> digit1 (String c r) = PErr.
Proof. intros c r H. unfold digit1, take_while1. cbn [span]. now rewrite H. Qed.
Lemma p_sign_head : forall c r, Ascii.eqb "+"%char c = false -> Ascii.eqb "-"%char c = false ->
  p_sign (String c r) = POk (String c r) None.
Proof. intros c r H1 H2. unfold p_sign, opt, p_or. now rewrite !tag1_err. Qed.

(** Characters on which no number, time or address can start: neither digit nor sign,
    at-sign, dollar sign or colon *)
Definition word_start (c : ascii) : Prop :=
  is_digit c = false /\ Ascii.eqb "+"%char c = false /\ Ascii.eqb "-"%char c = false
  /\ Ascii.eqb "$"%char c = false /\ Ascii.eqb ":"%char c = false.
Section WordStart.
Variables (c : ascii) (r : string).
Hypothesis H : word_start c.
Lemma ws_p_int : p_int (String c r) = PErr.
Proof.
  destruct H as (D & P & M & _). unfold p_int, p_bind. rewrite p_sign_head by auto.
  unfold unwrapped, p_map, p_bind. now rewrite digit1_head_err.
Qed.
Lemma ws_p_double : p_double (String c r) = PErr.
Proof.
  destruct H as (D & P & M & _). unfold p_double, p_bind. rewrite p_sign_head by auto.
  unfold separated_pair, p_bind. now rewrite digit1_head_err.
Qed.
Lemma ws_time_span : time_span (String c r) = PErr.
Proof. unfold time_span, p_bind. now rewrite ws_p_int. Qed.
Lemma ws_ipv4 : ipv4_addr (String c r) = PErr /\ ipv4_cidr (String c r) = PErr.
Proof.
  destruct H as (D & _).
  assert (ipv4_addr (String c r) = PErr) as E.
  { unfold ipv4_addr, recognize, p_bind, byte, verify, recognize, p_bind. now rewrite digit1_head_err. }
  split; auto. unfold ipv4_cidr, recognize, separated_pair, p_bind. now rewrite E.
Qed.
Lemma ws_ipv6 : ipv6_addr (String c r) = PErr.
Proof.
  destruct H as (D & _ & _ & _ & C). unfold ipv6_addr, verify, recognize, separated_list1, p_bind.
  assert (opt (unwrapped (p_map parse_u16 digit1)) (String c r) = POk (String c r) None) as ->.
  { unfold opt, unwrapped, p_map, p_bind. now rewrite digit1_head_err. }
  cbn [sep_go]. rewrite tag1_err by exact C. cbn -[consumed is_ipv6]. now rewrite consumed_none.
Qed.
Lemma ws_variable : variable (String c r) = PErr.
Proof. destruct H as (_ & _ & _ & V & _). unfold variable, delimited, p_bind. now rewrite tag1_err. Qed.
End WordStart.

(** Without an at-sign there is no relative time *)
Lemma suffix_char : forall c r s, is_suffix r s -> has_char c r = true -> has_char c s = true.
Proof.
  intros c r s [p ->] H. apply has_char_spec. apply has_char_spec in H.
  induction p as [|d p IH]; cbn; auto.
Qed.
Lemma no_at_relative_fmt : forall s, has_char "@"%char s = false -> relative_time_fmt s = PErr.
Proof.
  intros s Hs.
  pose proof (good_out _ relative_time_fmt ltac:(intro n; unfold relative_time_fmt, time_span_one; gd)) as G.
  specialize (G s). destruct (relative_time_fmt s) as [r a| | |] eqn:E; auto; try (destruct G; congruence).
  exfalso. unfold relative_time_fmt in E. apply bind_ok in E. destruct E as (r1 & a1 & E1 & E).
  apply bind_ok in E. destruct E as (r2 & a2 & E2 & _).
  assert (is_suffix r1 s) as Sx.
  { assert (good false (S (String.length s)) (opt (time_span <|> time_span_one))) as Gd
      by (apply (good_opt _ false); unfold time_span_one; gd).
    specialize (Gd s ltac:(lia)). rewrite E1 in Gd. apply Gd. }
  assert (has_char "@"%char r1 = true) as Hr.
  { unfold tag in E2. destruct r1 as [|c r1]; [ discriminate | ]. cbn [strip_prefix] in E2.
    destruct (Ascii.eqb_spec "@"%char c) as [<-|]; [ | discriminate ].
    apply has_char_spec. now left. }
  rewrite (suffix_char _ _ _ Sx Hr) in Hs. discriminate.
Qed.
Lemma no_char : forall c w, all_chars (fun d => d <> c) w -> has_char c w = false.
Proof.
  intros c w. unfold has_char, sexists. rewrite negb_false_iff. induction w as [|d w IH]; cbn [all_chars sforall]; auto.
  intros [H1 H2]. rewrite IH by auto. destruct (Ascii.eqb_spec c d); [ congruence | reflexivity ].
Qed.

Lemma ident_word_start : forall c, letter c \/ c = "_"%char -> word_start c.
Proof.
  intros c H. repeat split; [ now apply head_no_digit | apply head_not; auto; try nl; discriminate .. ].
Qed.
Lemma name_neq : forall c x, name_char c -> ~ letter x -> ~ digit x -> x <> "_"%char -> c <> x.
Proof. intros c x H. unfold name_char in H. intros H1 H2 H3 ->. tauto. Qed.
Lemma tag1_read : forall c r, tag (String c EmptyString) (String c r) = POk r (String c EmptyString).
Proof. intros c r. unfold tag. cbn. now rewrite Ascii.eqb_refl. Qed.
Lemma fchar_neq : forall x c, fchar c -> ~ letter x -> ~ digit x -> ~ In x ["_"; "-"; "/"; "%"; "{"; "}"; "."]%char -> c <> x.
Proof. intros x c H. unfold fchar, word_char, name_char in H. cbn [In] in *. intros H1 H2 H3 ->. intuition congruence. Qed.
Ltac fneq := apply fchar_neq; [ assumption | nl | unfold digit; cbn; lia | cbn; intuition discriminate ].
Definition field_part : Parser string := token_not_t_f <|> double_quoted.
Lemma part_read : forall w x, field_word w -> tok_end tok_specials x -> field_part (w ++ x)%string = POk x w.
Proof.
  intros w x Hw Hx. apply or_ok. unfold token_not_t_f, verify, p_bind. rewrite token_word by auto.
  destruct Hw as (_ & _ & Ht & Hf). apply String.eqb_neq in Ht. apply String.eqb_neq in Hf.
  now rewrite Ht, Hf.
Qed.
Lemma tok_end_dot : forall rest, tok_end lit_specials rest -> tag "." rest = PErr.
Proof.
  intros [|c r] Hr; [ reflexivity | ]. apply tag1_err. destruct Hr as [Hr _].
  destruct (Ascii.eqb_spec "."%char c) as [<-|]; [ discriminate | reflexivity ].
Qed.
Lemma field_sep : forall n rest fuel, field_name n -> tok_end lit_specials rest -> String.length n < fuel ->
  exists l, sep_go (tag ".") field_part fuel (String "." (n ++ rest)) = POk rest l.
Proof.
  intros n rest fuel H Hr. revert fuel. induction H as [w H|w n H Hn IH]; intros [|fuel] Hf; try lia.
  - cbn [sep_go]. rewrite tag1_read. destruct (Nat.eqb_spec (String.length (w ++ rest)) (String.length (String "." (w ++ rest)))) as [X|_];
      [ cbn in X; lia | ]. rewrite part_read by auto using lit_tok_end.
    destruct fuel as [|fuel]; [ destruct (fword_head w H) as (c & r & -> & _); cbn in Hf; lia | ].
    cbn [sep_go]. rewrite tok_end_dot by auto. eauto.
  - cbn [sep_go]. rewrite tag1_read. rewrite append_assoc_s. cbn [append].
    match goal with |- context [Nat.eqb ?a ?b] => destruct (Nat.eqb_spec a b) as [X|_]; [ cbn in X; lia | ] end.
    rewrite part_read by (auto; split; reflexivity).
    destruct (IH fuel) as [l ->]; [ | eauto ].
    destruct (fword_head w H) as (c & r & -> & _). cbn in Hf. rewrite length_append in Hf. cbn in Hf. lia.
Qed.
Lemma field_ident : forall w rest, field_name w -> tok_end lit_specials rest ->
  field (w ++ rest) = POk rest w.
Proof.
  intros w rest Hw Hr. unfold field. apply or_ok. unfold field_fmt, recognize, separated_list1, p_bind.
  fold field_part. destruct Hw as [w H|w n H Hn].
  - rewrite part_read by auto using lit_tok_end. cbn [sep_go]. rewrite tok_end_dot by auto. cbn -[consumed]. now rewrite consumed_app.
  - rewrite append_assoc_s. cbn [append]. rewrite part_read by (auto; split; reflexivity).
    match goal with |- context [sep_go _ _ ?f _] => destruct (field_sep n rest f Hn Hr) as [l ->] end; [ cbn; rewrite length_append; lia | ].
    cbn -[consumed]. change (w ++ String "." (n ++ rest))%string with (w ++ ("." ++ n) ++ rest)%string. rewrite <- append_assoc_s. now rewrite consumed_app.
Qed.
Lemma constant_ident : forall w rest, field_name w -> tok_end lit_specials rest ->
  constant (w ++ rest) = POk rest (KField w).
Proof.
  intros w rest Hw Hr. unfold constant, map_parser, p_bind.
  assert (literal_text (w ++ rest) = POk rest w) as ->.
  { unfold literal_text, recognize, p_or. destruct (ident_quoted_err w rest Hw) as [-> ->].
    rewrite literal_ident by auto. now rewrite consumed_app. }
  assert (constant_value w = POk EmptyString (KField w)) as ->; [ | reflexivity ].
  destruct (ident_head w Hw) as (c & r & E & Hc). pose proof (ident_word_start c Hc) as Hs.
  destruct (fname_chars w Hw) as [_ Hch].
  assert (double_quoted w = PErr) as Eq.
  { rewrite <- (append_nil_r w). now apply ident_quoted_err. }
  assert (relative_time w = PErr) as Er.
  { unfold relative_time. rewrite or_err.
    - unfold delimited, p_bind, dq. rewrite E. rewrite tag1_err; auto.
      apply head_not; auto; [ nl | discriminate ].
    - apply no_at_relative_fmt, no_char. eapply all_chars_impl; [ | exact Hch ].
      intros d Hd. fneq. }
  assert (wildcard w = PErr) as Ew.
  { unfold wildcard, verify, p_bind. rewrite or_err by exact Eq.
    rewrite <- (append_nil_r w) at 1. rewrite literal_ident; [ | auto | exact I ].
    rewrite no_char; [ reflexivity | ]. eapply all_chars_impl; [ | exact Hch ].
    intros d Hd. fneq. }
  unfold constant_value.
  rewrite (or_err _ (p_map KIPv4CIDR _)) by (apply ac_err; rewrite E; now apply ws_ipv4).
  rewrite (or_err _ (p_map KStr (all_consuming ipv4_addr))) by (apply ac_err; rewrite E; now apply ws_ipv4).
  rewrite (or_err _ (p_map KStr (all_consuming ipv6_addr))) by (apply ac_err; rewrite E; now apply ws_ipv6).
  rewrite (or_err _ (p_map KSnapTime _)) by (apply ac_err; exact Er).
  rewrite (or_err _ (p_map KTimeSpan _)) by (apply ac_err; rewrite E; now apply ws_time_span).
  rewrite (or_err _ (p_map KWildcard _)) by (apply ac_err; exact Ew).
  rewrite (or_err _ (p_map KStr (all_consuming double_quoted))) by (apply ac_err; exact Eq).
  rewrite (or_err _ (p_map KVariable _)) by (apply ac_err; rewrite E; now apply ws_variable).
  rewrite (or_err _ (p_map KDouble _)) by (apply ac_err; rewrite E; now apply ws_p_double).
  rewrite (or_err _ (p_map KInt _)) by (apply ac_err; rewrite E; now apply ws_p_int).
  apply or_ok. apply ac_ok. rewrite <- (append_nil_r w) at 1. apply field_ident; auto. exact I.
Qed.

(** ** Units of time *)
Definition no_alnum (x : string) : Prop := stops is_alnum x.
Definition extends {A} (p : Parser A) : Prop := forall w x, no_alnum x ->
  p (w ++ x)%string = match p w with POk r a => POk (r ++ x)%string a | PErr => PErr | PPanic => PPanic | PFuel => PFuel end.
Lemma lower_alnum : forall c d, is_alnum c = true -> lower_c c = lower_c d -> is_alnum d = true.
Proof.
  intros c d Hc H. destruct c as [[] [] [] [] [] [] [] []]; try discriminate Hc; destruct d as [[] [] [] [] [] [] [] []]; try reflexivity; discriminate H.
Qed.
Lemma strip_extends : forall k w x, sforall is_alnum k = true -> no_alnum x ->
  strip_prefix_nc k (w ++ x) = option_map (fun r => (r ++ x)%string) (strip_prefix_nc k w).
Proof.
  induction k as [|a k IH]; intros w x Hk Hx; [ reflexivity | ]. cbn [sforall] in Hk. apply andb_true_iff in Hk. destruct Hk as [Ha Hk].
  destruct w as [|b w]; cbn [append strip_prefix_nc].
  - destruct x as [|b x]; [ reflexivity | ]. destruct (Ascii.eqb_spec (lower_c a) (lower_c b)) as [E|]; [ | reflexivity ].
    exfalso. cbn in Hx. rewrite (lower_alnum a b) in Hx; auto. discriminate.
  - destruct (Ascii.eqb (lower_c a) (lower_c b)); [ now apply IH | reflexivity ].
Qed.
Lemma tag_extends : forall k, sforall is_alnum k = true -> extends (tag_no_case k).
Proof.
  intros k Hk w x Hx. unfold tag_no_case. rewrite strip_extends by auto. destruct (strip_prefix_nc k w) as [r|] eqn:E; [ | reflexivity ].
  cbn [option_map]. f_equal. apply strip_prefix_nc_suffix in E. destruct E as (p & -> & _). now rewrite append_assoc_s, !consumed_app.
Qed.
Lemma or_extends : forall A (p q : Parser A), extends p -> extends q -> extends (p <|> q).
Proof. intros A p q Hp Hq w x Hx. unfold p_or. rewrite Hp by auto. destruct (p w); auto. Qed.
Lemma map_extends : forall A B (f : A -> B) p, extends p -> extends (p_map f p).
Proof. intros A B f p Hp w x Hx. unfold p_map, p_bind. rewrite Hp by auto. destruct (p w); auto. Qed.
Lemma time_unit_extends : extends time_unit.
Proof.
  unfold time_unit, unit_normalizer. repeat first [ apply or_extends | apply map_extends | apply tag_extends; reflexivity | cbn [alt_tags] ].
Qed.
Lemma time_word_facts : forall w u, In (w, u) time_words -> all_chars letter w /\ (exists c r, w = String c r) /\ time_unit w = POk EmptyString u.
Proof.
  intros w u H. unfold letter. repeat (destruct H as [H|H]; [ injection H as <- <-; split; [ cbn; repeat split; lia | split; [ eexists _, _; reflexivity | reflexivity ] ] | ]).
  destruct H.
Qed.
(** ** Quoted strings *)
Definition dq_item : Parser string := escaped_char <|> recognize (none_of (String dquote bs)).
Lemma dquote_eqb : forall c, nat_of_ascii c <> 34 -> Ascii.eqb dquote c = false.
Proof. intros c H. destruct (Ascii.eqb_spec dquote c) as [<-|]; auto. exfalso. now apply H. Qed.
Lemma backslash_eqb : forall c, Ascii.eqb backslash c = Nat.eqb (nat_of_ascii c) 92.
Proof.
  intro c. destruct (Ascii.eqb_spec backslash c) as [<-|N]; [ reflexivity | ]. symmetry. apply Nat.eqb_neq. intro E. apply N.
  rewrite <- (ascii_nat_embedding c), E. reflexivity.
Qed.
Lemma dq_escaped : forall c x, dq_item (String backslash (String c x)) = POk x (String backslash (String c EmptyString)).
Proof.
  intros c x. unfold dq_item, p_or, escaped_char, recognize, pair_, p_bind, tag, bs. cbn [strip_prefix]. rewrite Ascii.eqb_refl.
  cbn -[consumed]. f_equal. apply (consumed_app (String backslash (String c EmptyString))).
Qed.
Lemma dq_items : forall n s rest fuel, String.length s <= n -> well_quoted false s -> String.length s < fuel ->
  exists l, many0_go dq_item fuel (s ++ String dquote rest) = POk (String dquote rest) l.
Proof.
  induction n as [|n IH]; intros [|c s] rest [|fuel] Hn Hs Hf; try (cbn in Hn, Hf; lia); cbn [append many0_go].
  1, 2: replace (dq_item (String dquote rest)) with (@PErr string) by reflexivity; eauto.
  cbn [String.length] in Hn, Hf. destruct Hs as [Hc Hs]. cbn [negb andb] in Hs. specialize (Hc eq_refl). destruct (Nat.eqb (nat_of_ascii c) 92) eqn:Eb.
  - rewrite <- backslash_eqb in Eb. apply Ascii.eqb_eq in Eb. subst c. destruct s as [|d s]; [ discriminate Hs | ].
    destruct Hs as [_ Hs]. cbn [negb andb append] in *. rewrite dq_escaped.
    destruct (Nat.eqb_spec (String.length (s ++ String dquote rest))
                (String.length (String backslash (String d (s ++ String dquote rest))))) as [X|_]; [ cbn in X; lia | ].
    cbn [String.length] in Hn, Hf. destruct (IH s rest fuel ltac:(lia) Hs ltac:(lia)) as [l ->]. eauto.
  - pose proof (dquote_eqb c Hc) as Eq. rewrite <- backslash_eqb in Eb.
    assert (dq_item (String c (s ++ String dquote rest)) = POk (s ++ String dquote rest)%string (String c EmptyString)) as ->.
    { unfold dq_item, p_or, escaped_char, recognize, pair_, p_bind, tag, bs. cbn [strip_prefix].
      rewrite Eb. unfold none_of, satisfy, has_char, sexists. cbn [sforall].
      rewrite Ascii.eqb_sym in Eq. rewrite Ascii.eqb_sym in Eb. rewrite Eq, Eb.
      cbn -[consumed]. f_equal. apply (consumed_app (String c EmptyString)). }
    destruct (Nat.eqb_spec (String.length (s ++ String dquote rest))
                (String.length (String c (s ++ String dquote rest)))) as [X|_]; [ cbn in X; lia | ].
    destruct (IH s rest fuel ltac:(lia) Hs ltac:(lia)) as [l ->]. eauto.
Qed.
Lemma in_quotes_eq : forall s rest, (in_quotes s ++ rest)%string = String dquote (s ++ String dquote rest).
Proof. intros s rest. unfold in_quotes. cbn [append]. f_equal. rewrite append_assoc_s. reflexivity. Qed.
Lemma quoted_content_plain : forall s rest, well_quoted false s -> stops is_space s ->
  quoted_content dquote (s ++ String dquote rest) = POk (String dquote rest) s.
Proof.
  intros s rest Hp Hs.
  change (quoted_content dquote (s ++ String dquote rest)) with (ws (recognize (many0 dq_item)) (s ++ String dquote rest)).
  assert (skip (s ++ String dquote rest) = (s ++ String dquote rest)%string) as Ek.
  { apply skip_stops. destruct s; [ reflexivity | exact Hs ]. }
  assert (recognize (many0 dq_item) (s ++ String dquote rest)%string = POk (String dquote rest) s) as Er.
  { unfold recognize, many0.
    destruct (dq_items _ s rest (S (String.length (s ++ String dquote rest))) (le_n _) Hp) as [l ->];
      [ rewrite length_append; lia | ]. now rewrite consumed_app. }
  rewrite <- Ek in Er at 1. rewrite (ws_ok _ (recognize (many0 dq_item)) _ _ _ Er). reflexivity.
Qed.
Lemma double_quoted_plain : forall s rest, s <> EmptyString -> well_quoted false s -> stops is_space s ->
  double_quoted (in_quotes s ++ rest) = POk rest s.
Proof.
  intros s rest Hn Hp Hs. rewrite in_quotes_eq. unfold double_quoted. rewrite or_err.
  - unfold delimited, p_bind.
    change (tag dq (String dquote (s ++ String dquote rest))) with (POk (s ++ String dquote rest)%string dq).
    cbn iota beta. rewrite quoted_content_plain by auto. reflexivity.
  - unfold delimited, p_bind.
    change (tag dq (String dquote (s ++ String dquote rest))) with (POk (s ++ String dquote rest)%string dq).
    cbn iota beta. unfold recognize, p_bind. destruct s as [|c s]; [ congruence | ].
    destruct Hp as [Hc _]. pose proof (dquote_eqb c (Hc eq_refl)) as Eq. cbn [append].
    unfold dq. now rewrite tag1_err.
Qed.
Lemma plain_string_facts : forall s, plain_string s ->
  s <> EmptyString /\ well_quoted false s /\ stops is_space s /\
  has_char "*"%char s = false /\ has_char "@"%char s = false.
Proof.
  intros [|c s] (H1 & H2 & H3); [ destruct H1 | ]. split; [ discriminate | ]. split; [ exact H3 | ].
  split; [ cbn; now apply is_space_false | ].
  split; apply no_char; eapply all_chars_impl; try exact H2; cbn; tauto.
Qed.
Lemma constant_string : forall s rest, plain_string s -> constant (in_quotes s ++ rest) = POk rest (KStr s).
Proof.
  intros s rest H. destruct (plain_string_facts s H) as (Hn & Hp & Hs & Hstar & Hat).
  unfold constant, map_parser, p_bind.
  assert (literal_text (in_quotes s ++ rest) = POk rest (in_quotes s)) as ->.
  { unfold literal_text, recognize. rewrite (or_ok _ _ _ _ _ _ (double_quoted_plain s rest Hn Hp Hs)).
    now rewrite consumed_app. }
  assert (constant_value (in_quotes s) = POk EmptyString (KStr s)) as ->; [ | reflexivity ].
  assert (word_start dquote) as W by (repeat split; reflexivity).
  pose proof (double_quoted_plain s EmptyString Hn Hp Hs) as Ed. rewrite append_nil_r in Ed.
  unfold constant_value.
  rewrite (or_err _ (p_map KIPv4CIDR _)) by (apply ac_err; now apply ws_ipv4).
  rewrite (or_err _ (p_map KStr (all_consuming ipv4_addr))) by (apply ac_err; now apply ws_ipv4).
  rewrite (or_err _ (p_map KStr (all_consuming ipv6_addr))) by (apply ac_err; now apply ws_ipv6).
  rewrite (or_err _ (p_map KSnapTime _)).
  2:{ apply ac_err. unfold relative_time.
      assert (has_char "@"%char (s ++ String dquote "") = false) as Hat'.
      { unfold has_char, sexists in *. rewrite negb_false_iff in *. rewrite sforall_app, Hat. reflexivity. }
      rewrite or_err.
      - unfold delimited, p_bind. 
        change (tag dq (in_quotes s)) with (POk (s ++ String dquote "")%string dq). cbn iota beta.
        now rewrite no_at_relative_fmt.
      - apply no_at_relative_fmt. change (has_char "@"%char (String dquote (s ++ String dquote "")) = false).
        unfold has_char, sexists in *. rewrite negb_false_iff in *. cbn [sforall]. now rewrite Hat'. }
  rewrite (or_err _ (p_map KTimeSpan _)) by (apply ac_err; now apply ws_time_span).
  rewrite (or_err _ (p_map KWildcard _)).
  2:{ apply ac_err. unfold wildcard, verify, p_bind. rewrite (or_ok _ _ _ _ _ _ Ed). now rewrite Hstar. }
  apply or_ok, ac_ok. exact Ed.
Qed.

(** ** Keywords at the start of a word *)
Lemma kw_prefix : forall kw w rest, all_chars letter kw ->
  match rest with EmptyString => True | String c _ => ~ letter c end ->
  strip_prefix_nc kw (w ++ rest) = None \/
  exists y x, w = (y ++ x)%string /\ same_word y kw /\ strip_prefix_nc kw (w ++ rest) = Some (x ++ rest)%string.
Proof.
  induction kw as [|k kw IH]; intros w rest Hk Hr.
  - right. exists EmptyString, w. repeat split; constructor.
  - destruct Hk as [Hk1 Hk2]. destruct w as [|c w].
    + left. destruct rest as [|c r]; [ reflexivity | ]. cbn [append strip_prefix_nc].
      destruct (Ascii.eqb_spec (lower_c k) (lower_c c)) as [E|]; auto. exfalso. apply Hr.
      apply lower_c_same in E. destruct E as [<-|E]; auto. unfold letter in *. lia.
    + cbn [append strip_prefix_nc].
      destruct (Ascii.eqb_spec (lower_c k) (lower_c c)) as [E|]; auto.
      destruct (IH w rest Hk2 Hr) as [->|(y & x & -> & Hy & ->)]; auto.
      right. exists (String c y), x. repeat split; auto. constructor; auto.
      apply lower_c_same. congruence.
Qed.
Lemma tok_end_no_letter : forall rest, tok_end lit_specials rest ->
  match rest with EmptyString => True | String c _ => ~ letter c end.
Proof.
  intros [|c r]; auto. intros [H _] Hc. apply is_alpha_spec in Hc. unfold tok_char, is_alnum in H.
  rewrite Hc, orb_true_r in H. discriminate.
Qed.
Lemma fchar_facts : forall c, fchar c -> is_space c = false /\ Ascii.eqb "("%char c = false.
Proof.
  intros c H. split.
  - apply is_space_false. intro W. unfold white in W. cbn in W.
    rewrite <- (ascii_nat_embedding c) in H.
    destruct W as [E|[E|[E|[E|[]]]]]; rewrite <- E in H; (match type of H with fchar ?x => apply (fchar_neq x x) end; [ exact H | nl | unfold digit; cbn; lia | cbn; intuition discriminate | reflexivity ]).
  - destruct (Ascii.eqb_spec "("%char c) as [<-|]; auto. exfalso. apply (fchar_neq "("%char "("%char); [ exact H | nl | unfold digit; cbn; lia | cbn; intuition discriminate | reflexivity ].
Qed.
Lemma name_char_facts : forall c, name_char c -> is_space c = false /\ Ascii.eqb "("%char c = false.
Proof.
  intros c H. split.
  - apply is_space_false. unfold white, name_char, letter, digit in *. cbn.
    destruct H as [H|[H| ->]]; cbn; lia.
  - destruct (Ascii.eqb_spec "("%char c) as [<-|]; auto. unfold name_char, letter, digit in H. cbn in H.
    destruct H as [H|[H|H]]; [ lia | lia | discriminate ].
Qed.
Lemma all_chars_app : forall P a b, all_chars P (a ++ b)%string <-> all_chars P a /\ all_chars P b.
Proof. intros P a b. induction a as [|c a IH]; cbn; tauto. Qed.

Lemma paren_err : forall A (p : Parser A) s,
  match s with String c _ => c <> "("%char | _ => True end -> parenthesized p s = PErr.
Proof.
  intros A p [|c r] H; [ reflexivity | ].
  unfold parenthesized, delimited, ws_right, terminated, p_bind. rewrite tag1_err; auto.
  destruct (Ascii.eqb_spec "("%char c); congruence.
Qed.

Lemma not_alts_err : forall s, stops is_space s ->
  (op_not s = PErr \/ exists c x o, op_not s = POk (String c x) o /\ is_space c = false /\ Ascii.eqb "("%char c = false) ->
  forall R, not_alts R s = PErr.
Proof.
  intros s Hs [H|(c & x & o & H & Hc & Hp)] R.
  - unfold not_alts, p_map, p_bind. rewrite or_err by (unfold separated_pair, p_bind; now rewrite H).
    unfold pair_, ws, delimited, p_bind. rewrite ms0_eq, span_stops by auto. cbn [snd fst]. now rewrite H.
  - unfold not_alts, p_map, p_bind. rewrite or_err.
    + unfold pair_, ws, delimited, p_bind. rewrite ms0_eq, span_stops by auto. cbn [snd fst]. rewrite H.
      rewrite ms0_eq, span_stops by auto. cbn [snd fst].
      unfold p_ret at 1. rewrite paren_err; auto. intros ->. discriminate.
    + unfold separated_pair, p_bind. rewrite H. unfold multispace1, take_while1. cbn [span]. now rewrite Hc.
Qed.
Lemma field_in_err : forall s, field s = PErr \/ (exists r f, field s = POk r f /\ op_in r = PErr) -> field_in s = PErr.
Proof.
  intros s [H|(r & f & H & Ho)]; unfold field_in, separated_pair, p_bind; rewrite H; auto.
  unfold op_in, ws, delimited, p_bind in *. rewrite ms0_eq in *. destruct (tag_no_case "IN" (snd (span is_space r))) as [v a| | |] eqn:E; auto; try discriminate.
  rewrite ms0_eq in *. unfold p_ret in *. unfold parenthesized, delimited, ws_right, terminated, p_bind.
  destruct (tag "(" (snd (span is_space v))) as [x y| | |] eqn:E2; try discriminate; auto. rewrite ms0_eq in Ho. discriminate.
Qed.
(** ** Operands *)
Record operand_before (E : string -> Prop) (s : string) (e : Expr) : Prop := {
  op_stops : forall x, stops is_space (s ++ x);
  op_start : forall rest, E rest -> starts_operand (s ++ rest);
  op_reads2 : forall rest, E rest -> reads expr2 (s ++ rest) rest e }.
Notation operand := (operand_before ends).
(** What may follow an operand that ends in a parenthesis or a quote *)
Definition loose (rest : string) : Prop := tag "." rest = PErr /\ op_in rest = PErr.
Lemma ends_loose : forall rest, ends rest -> loose rest.
Proof.
  intros rest (H1 & _ & H3). split; auto. destruct rest as [|c r]; [ reflexivity | ]. apply tag1_err. destruct H1 as [H1 _].
  destruct (Ascii.eqb_spec "."%char c) as [<-|]; [ discriminate | reflexivity ].
Qed.
Lemma operand_loose : forall s e, operand_before loose s e -> operand s e.
Proof. intros s e [H1 H2 H3]. split; auto using ends_loose. Qed.

Lemma ident_starts : forall w rest, field_name w -> tok_end lit_specials rest -> op_in rest = PErr ->
  starts_operand (w ++ rest) /\ stops is_space (w ++ rest).
Proof.
  intros w rest Hw Ht Hi.
  assert (stops is_space (w ++ rest)) as Hs.
  { destruct (fname_chars w Hw) as [Hn Hc]. destruct w as [|c w]; [ congruence | ].
    destruct Hc as [Hc _]. cbn. now apply fchar_facts. }
  split; auto. split.
  - apply not_alts_err; auto. unfold op_not, tag_no_case.
    destruct (kw_prefix "NOT" w rest ltac:(unfold letter; cbn; lia) (tok_end_no_letter _ Ht))
      as [->|(y & x & E & Hy & ->)]; auto.
    destruct (fname_chars w Hw) as [_ Hc]. subst w. apply all_chars_app in Hc. destruct Hc as [_ Hc].
    destruct x as [|c x].
    + exfalso. rewrite append_nil_r in Hw. apply (fname_unreserved _ Hw).
      exists "NOT"%string. split; [ | exact Hy ]. unfold spl_reserved. cbn. tauto.
    + right. destruct Hc as [Hc _]. apply fchar_facts in Hc. cbn [append]. do 3 eexists. split; [ reflexivity | auto ].
  - apply field_in_err. right. exists rest, w. split; auto. now apply field_ident.
Qed.
Lemma operand_ident : forall w, field_name w -> operand w (efield w).
Proof.
  intros w Hw. split.
  - intros x. destruct (fname_chars w Hw) as [Hn Hc]. destruct w as [|c w]; [ congruence | ].
    destruct Hc as [Hc _]. cbn. now apply fchar_facts.
  - intros rest (H1 & H2 & H3). now apply ident_starts.
  - intros rest (H1 & H2 & H3). exists 0. intros m _. unfold expr2, expr_base.
    rewrite or_err.
    2:{ apply paren_err. destruct (ident_head w Hw) as (c & r & -> & Hc). cbn [append].
        intros ->. destruct Hc as [Hc|]; [ | discriminate ]. unfold letter in Hc. cbn in Hc. lia. }
    rewrite or_err.
    2:{ unfold term_call, preceded, p_bind, tag_no_case.
        destruct (kw_prefix "TERM" w rest ltac:(unfold letter; cbn; lia) (tok_end_no_letter _ H1))
          as [->|(y & x & E & Hy & ->)]; auto.
        rewrite paren_err; auto. destruct x as [|c x]; [ exact H2 | ]. cbn [append]. intros ->.
        destruct (fname_chars w Hw) as [_ Hc]. subst w. apply all_chars_app in Hc. destruct Hc as [_ [Hc _]].
        apply fchar_facts in Hc. destruct Hc as [_ Hc]. discriminate. }
    rewrite or_err by (apply token_then_err; auto; intros; unfold p_bind; rewrite paren_err; auto; discriminate).
    apply or_ok. unfold p_map, p_bind. now rewrite constant_ident.
Qed.
Lemma numeral_chars : forall m d rest, digits d -> exists c r, (numeral m d ++ rest)%string = String c r /\
  (c = "-"%char \/ is_digit c = true).
Proof. intros m d rest Hd. destruct (numeral_head m d Hd) as (c & r & -> & Hc). cbn [append]. eauto. Qed.
Lemma token_numeral : forall m d rest, digits d -> tok_end lit_specials rest ->
  token (numeral m d ++ rest) = POk rest (numeral m d).
Proof.
  intros m d rest Hd Hr. change token with (token_of tok_specials). rewrite token_of_read.
  - now rewrite numeral_not_reserved.
  - destruct (numeral_head m d Hd) as (c & r & -> & _). discriminate.
  - now apply numeral_tok.
  - destruct rest as [|c r]; auto. destruct Hr as [H1 H2]. split; auto.
    unfold tok_char in *. apply orb_false_iff in H1. destruct H1 as [H1 H3]. rewrite H3, orb_false_r.
    apply not_true_iff_false. intro E. apply not_true_iff_false in H1. apply H1.
    apply has_char_spec. apply has_char_spec in E. unfold lit_specials. cbn in E |- *. tauto.
Qed.
Lemma field_numeral_rest : forall m d rest, digits d -> tok_end lit_specials rest ->
  field (numeral m d ++ rest) = POk rest (numeral m d).
Proof.
  intros m d rest Hd Hr. unfold field. apply or_ok. unfold field_fmt, recognize, separated_list1, p_bind.
  assert ((token_not_t_f <|> double_quoted) (numeral m d ++ rest)%string = POk rest (numeral m d)) as ->.
  { apply or_ok. unfold token_not_t_f, verify, p_bind. rewrite token_numeral by auto.
    assert (negb (String.eqb (numeral m d) "t") && negb (String.eqb (numeral m d) "f") = true) as ->; [ | reflexivity ].
    destruct (numeral_head m d Hd) as (c & r & -> & Hc). cbn -[Ascii.eqb].
    destruct (Ascii.eqb_spec c "t") as [->|]; [ destruct Hc; discriminate | ].
    destruct (Ascii.eqb_spec c "f") as [->|]; [ destruct Hc; discriminate | reflexivity ]. }
  assert (tag "." rest = PErr) as E.
  { destruct rest as [|c r]; [ reflexivity | ]. apply tag1_err. destruct Hr as [Hr _].
    destruct (Ascii.eqb_spec "."%char c) as [<-|]; [ discriminate | reflexivity ]. }
  cbn [sep_go]. rewrite E. cbn -[consumed]. now rewrite consumed_app.
Qed.
Lemma kw_head_err : forall k kw c r, letter k -> ~ letter c -> tag_no_case (String k kw) (String c r) = PErr.
Proof.
  intros k kw c r Hk Hc. unfold tag_no_case. cbn [strip_prefix_nc].
  destruct (Ascii.eqb_spec (lower_c k) (lower_c c)) as [E|]; auto. exfalso. apply Hc.
  apply lower_c_same in E. destruct E as [<-|E]; auto. unfold letter in *. lia.
Qed.
Lemma numeral_head_facts : forall c, c = "-"%char \/ is_digit c = true ->
  is_space c = false /\ ~ letter c /\ c <> "("%char.
Proof.
  intros c H. rewrite is_space_false, is_digit_spec in *. unfold white, letter, digit in *.
  destruct H as [-> | H]; cbn.
  - repeat split; try lia; discriminate.
  - repeat split; try lia. intros ->. cbn in H. lia.
Qed.
Lemma operand_numeral : forall m d k, digits d ->
  (forall rest, tok_end lit_specials rest -> constant (numeral m d ++ rest) = POk rest k) ->
  operand (numeral m d) (econst k).
Proof.
  intros m d k Hd Hk.
  assert (N : forall rest, exists c r, (numeral m d ++ rest)%string = String c r /\
    is_space c = false /\ ~ letter c /\ c <> "("%char).
  { intro rest. destruct (numeral_chars m d rest Hd) as (c & r & E & Hc). exists c, r. split; auto.
    now apply numeral_head_facts. }
  split.
  - intro x. destruct (N x) as (c & r & -> & Hc & _). exact Hc.
  - intros rest (H1 & H2 & H3). split.
    + destruct (N rest) as (c & r & E & Hc & Hl & _). rewrite E.
      apply not_alts_err; [ exact Hc | left; apply kw_head_err; auto; unfold letter; cbn; lia ].
    + apply field_in_err. right. do 2 eexists. split; [ now apply field_numeral_rest | auto ].
  - intros rest (H1 & H2 & H3). exists 0. intros n _. unfold expr2, expr_base.
    destruct (N rest) as (c & r & E & Hc & Hl & Hp).
    rewrite or_err by (apply paren_err; now rewrite E).
    rewrite or_err.
    2:{ unfold term_call, preceded, p_bind. rewrite E. rewrite kw_head_err; auto. unfold letter; cbn; lia. }
    rewrite or_err by (unfold call, p_bind; rewrite token_numeral by auto; now rewrite paren_err).
    apply or_ok. unfold p_map, p_bind. now rewrite Hk.
Qed.
Lemma operand_int : forall z, int64_nonmin z -> operand (decimal z) (econst (KInt z)).
Proof.
  intros z Hz. destruct (decimal_numeral z) as (m & d & E & Hd & _). rewrite E.
  apply operand_numeral; auto. intros rest Hr. rewrite <- E.
  rewrite (constant_decimal z rest Hr). unfold int64_nonmin in Hz.
  destruct (Z.leb_spec (Z.abs z) (2 ^ 63 - 1)); [ reflexivity | lia ].
Qed.
Lemma operand_quoted : forall s k, s <> EmptyString -> well_quoted false s -> stops is_space s ->
  (forall rest, constant (in_quotes s ++ rest) = POk rest k) -> operand_before loose (in_quotes s) (econst k).
Proof.
  intros s k Hn Hp Hw Hk.
  split.
  - intro x. reflexivity.
  - intros rest [E H3]. split.
    + apply not_alts_err; [ reflexivity | left; reflexivity ].
    + apply field_in_err. right. exists rest, (in_quotes s). split; auto. unfold field. apply or_ok.
      unfold field_fmt, recognize, separated_list1, p_bind.
      assert ((token_not_t_f <|> double_quoted) (in_quotes s ++ rest)%string = POk rest s) as ->.
      { rewrite or_err by reflexivity. now apply double_quoted_plain. }
      cbn [sep_go]. rewrite E. cbn -[consumed in_quotes]. now rewrite consumed_app.
  - intros rest [E H3]. exists 0. intros n _. unfold expr2, expr_base.
    rewrite or_err by reflexivity. rewrite or_err by reflexivity. rewrite or_err by reflexivity.
    apply or_ok. unfold p_map, p_bind. now rewrite Hk.
Qed.
Lemma operand_string : forall s, plain_string s -> operand_before loose (in_quotes s) (econst (KStr s)).
Proof.
  intros s Hs. destruct (plain_string_facts s Hs) as (Hn & Hp & Hw & _). apply operand_quoted; auto. intro rest. now apply constant_string.
Qed.
(** Snap times *)
Definition quotable (c : ascii) : Prop := nat_of_ascii c <> 34 /\ nat_of_ascii c <> 92 /\ is_space c = false.
Lemma quotable_text : forall s, all_chars quotable s -> well_quoted false s /\ stops is_space s.
Proof.
  intros s H. split; [ | destruct s; [ exact I | apply H ] ]. induction s as [|c s IH]; [ reflexivity | ]. destruct H as [(H1 & H2 & _) H].
  split; [ auto | ]. apply Nat.eqb_neq in H2. rewrite H2. now apply IH.
Qed.
Lemma digits_quotable : forall d, sforall is_digit d = true -> all_chars quotable d.
Proof.
  induction d as [|c d IH]; intro H; [ exact I | ]. cbn [sforall] in H. apply andb_true_iff in H. destruct H as [Hc H]. split; [ | auto ].
  apply is_digit_spec in Hc. unfold digit in Hc. split; [ lia | split; [ lia | ] ]. apply is_space_false. unfold white. cbn. lia.
Qed.
Lemma letters_quotable : forall w, all_chars letter w -> all_chars quotable w.
Proof.
  intros w H. eapply all_chars_impl; [ | exact H ]. intros c Hc. unfold letter in Hc. split; [ lia | split; [ lia | ] ].
  apply is_space_false. unfold white. cbn. lia.
Qed.
Lemma decimal_quotable : forall z, all_chars quotable (decimal z).
Proof.
  intro z. rewrite decimal_text. pose proof (digits_quotable _ (uint_digits (abs_uint z))) as H.
  destruct (z <? 0)%Z; cbn [sign_text append]; [ | exact H ]. split; [ repeat split; discriminate | exact H ].
Qed.
Lemma word_quotable : forall w u, In (w, u) time_words -> all_chars quotable w.
Proof. intros w u H. apply letters_quotable. now apply time_word_facts in H. Qed.
Lemma p_int_signed : forall z rest, int64_nonmin z -> no_digit rest -> p_int ((if (z <? 0)%Z then "" else "+") ++ decimal z ++ rest) = POk rest z.
Proof.
  intros z rest Hz Hr. destruct (Z.ltb_spec z 0) as [L|L]; [ now apply p_int_decimal_ok | ].
  rewrite decimal_text. destruct (Z.ltb_spec z 0); [ lia | ]. cbn [sign_text append].
  change (String "+" (NilEmpty.string_of_uint (abs_uint z) ++ rest))%string with (sign_text Plus ++ NilEmpty.string_of_uint (abs_uint z) ++ rest)%string.
  rewrite p_int_uint; [ | apply to_uint_nonnil | exact Hr ]. rewrite abs_uint_value. unfold int64_nonmin in Hz.
  destruct (Z.leb_spec (Z.abs z) (2 ^ 63 - 1)); [ | lia ]. cbn [signed]. f_equal. lia.
Qed.
Lemma letter_no_digit : forall w c r x, w = String c r -> all_chars letter w -> no_digit (w ++ x).
Proof. intros w c r x -> [H _]. cbn. unfold letter, digit in *. lia. Qed.
Lemma signed_read : forall o s x, signed_span o s -> no_alnum x -> time_span (s ++ x) = POk x o.
Proof.
  intros [v u] s x (w & Hw & Hv & ->) Hx. cbn [ts_value ts_scale] in *. destruct (time_word_facts w u Hw) as (Hl & (c & r & Ew) & Hu).
  rewrite !append_assoc_s. unfold time_span, p_bind. rewrite p_int_signed; [ | exact Hv | eapply letter_no_digit; eassumption ].
  rewrite time_unit_extends by auto. now rewrite Hu.
Qed.
Lemma signed_chars : forall o s, signed_span o s -> all_chars quotable s /\ exists c r, s = String c r /\ is_alnum c = false.
Proof.
  intros [v u] s (w & Hw & Hv & ->). cbn [ts_value ts_scale] in *. split.
  - apply all_chars_app. split; [ destruct (v <? 0)%Z; cbn; repeat split; discriminate | ].
    apply all_chars_app. split; [ apply decimal_quotable | eapply word_quotable; eassumption ].
  - rewrite decimal_text. destruct (v <? 0)%Z; cbn [sign_text append]; eexists _, _; split; reflexivity.
Qed.
Lemma letter_tag_err : forall x w, (exists c r, w = String c r) -> all_chars letter w -> ~ letter x -> forall y, tag (String x EmptyString) (w ++ y) = PErr.
Proof.
  intros x w (c & r & ->) [H _] Hx y. cbn [append]. apply tag1_err. destruct (Ascii.eqb_spec x c) as [->|]; [ contradiction | reflexivity ].
Qed.
Lemma first_read : forall o s x, first_span o s -> no_alnum x -> (time_span <|> time_span_one) (s ++ x)%string = POk x o.
Proof.
  intros o s x [H|(w & Hw & H)] Hx; [ apply or_ok; now apply signed_read | ].
  destruct o as [v u]. cbn [ts_value ts_scale] in *. destruct (time_word_facts w u Hw) as (Hl & (c & r & Ew) & Hu).
  assert (Nd : forall y, no_digit (w ++ y)) by (intro y; eapply letter_no_digit; eassumption).
  assert (D : digit1 (w ++ x)%string = PErr).
  { rewrite Ew. cbn [append]. apply digit1_head_err. specialize (Nd x). rewrite Ew in Nd. cbn in Nd.
    apply not_true_iff_false. intro Y. apply is_digit_spec in Y. contradiction. }
  destruct H as [[H ->]|[[-> ->]|[-> ->]]].
  - apply or_ok. rewrite append_assoc_s. unfold time_span, p_bind. rewrite p_int_decimal_ok; [ | unfold int64_nonmin; lia | apply Nd ].
    rewrite time_unit_extends by auto. now rewrite Hu.
  - assert (P : forall y, ~ letter y -> tag (String y EmptyString) (w ++ x)%string = PErr) by (intros; apply letter_tag_err; eauto).
    rewrite or_err.
    + unfold time_span_one, p_bind, opt. rewrite P by (unfold letter; cbn; lia). rewrite time_unit_extends by auto. now rewrite Hu.
    + unfold time_span, p_int, p_sign, p_bind, opt, p_or. rewrite !P by (unfold letter; cbn; lia). unfold unwrapped, p_map, p_bind. now rewrite D.
  - rewrite or_err.
    + unfold time_span_one, p_bind, opt. change (tag "-" (("-" ++ w) ++ x)%string) with (POk (w ++ x)%string "-"%string). cbn iota beta.
      rewrite time_unit_extends by auto. now rewrite Hu.
    + unfold time_span, p_int, p_bind. change (p_sign (("-" ++ w) ++ x)%string) with (POk (w ++ x)%string (Some "-"%string)). cbn iota beta.
      unfold unwrapped, p_map, p_bind. now rewrite D.
Qed.
Lemma first_chars : forall o s, first_span o s -> all_chars quotable s.
Proof.
  intros o s [H|(w & Hw & H)]; [ now apply signed_chars in H | ]. apply word_quotable in Hw. destruct H as [[_ ->]|[[_ ->]|[_ ->]]]; auto.
  - apply all_chars_app. split; [ apply decimal_quotable | exact Hw ].
  - split; [ repeat split; discriminate | exact Hw ].
Qed.
Lemma time_facts : forall t s, specifier t s -> all_chars quotable s /\ s <> EmptyString /\
  forall r, relative_time_fmt (s ++ String dquote r) = POk (String dquote r) t.
Proof.
  intros [sp u o] s (a & w & b & -> & Hw & Ha & Hb). cbn [sn_span sn_snap sn_offset] in *.
  destruct (time_word_facts w u Hw) as (Hl & (c & x & Ew) & Hu).
  assert (Ca : all_chars quotable a) by (destruct sp; [ now apply first_chars in Ha | subst a; exact I ]).
  assert (Cb : all_chars quotable b) by (destruct o; [ now apply signed_chars in Hb | subst b; exact I ]).
  split; [ | split ].
  - apply all_chars_app. split; [ exact Ca | ]. split; [ repeat split; discriminate | ]. change (all_chars quotable (w ++ b)%string). apply all_chars_app. split; [ now apply letters_quotable | exact Cb ].
  - destruct a; discriminate.
  - intro r. rewrite !append_assoc_s. unfold relative_time_fmt. unfold p_bind at 1.
    assert (E : opt (time_span <|> time_span_one) (a ++ "@" ++ w ++ b ++ String dquote r)%string = POk ("@" ++ w ++ b ++ String dquote r)%string sp).
    { unfold opt. destruct sp as [p|]; [ rewrite (first_read p a); [ reflexivity | exact Ha | reflexivity ] | ]. subst a. reflexivity. }
    rewrite E. unfold p_bind at 1. change (tag "@" ("@" ++ w ++ b ++ String dquote r)%string) with (POk (w ++ b ++ String dquote r)%string "@"%string). cbn iota beta.
    unfold p_bind at 1. rewrite time_unit_extends.
    2:{ destruct o as [p|]; [ | subst b; reflexivity ]. destruct (signed_chars p b Hb) as (_ & y & z & -> & Hy). exact Hy. }
    rewrite Hu. cbn iota beta. unfold p_bind, opt. cbn [append].
    destruct o as [p|]; [ rewrite (signed_read p b); [ reflexivity | exact Hb | reflexivity ] | ]. subst b. reflexivity.
Qed.
Lemma constant_time : forall t s rest, specifier t s -> constant (in_quotes s ++ rest) = POk rest (KSnapTime t).
Proof.
  intros t s rest H. destruct (time_facts t s H) as (Hc & Hn & Hr). destruct (quotable_text s Hc) as [Hp Hs].
  unfold constant, map_parser, p_bind.
  assert (literal_text (in_quotes s ++ rest) = POk rest (in_quotes s)) as ->.
  { unfold literal_text, recognize. rewrite (or_ok _ _ _ _ _ _ (double_quoted_plain s rest Hn Hp Hs)).
    now rewrite consumed_app. }
  assert (constant_value (in_quotes s) = POk EmptyString (KSnapTime t)) as ->; [ | reflexivity ].
  assert (word_start dquote) as W by (repeat split; reflexivity).
  unfold constant_value.
  rewrite (or_err _ (p_map KIPv4CIDR _)) by (apply ac_err; now apply ws_ipv4).
  rewrite (or_err _ (p_map KStr (all_consuming ipv4_addr))) by (apply ac_err; now apply ws_ipv4).
  rewrite (or_err _ (p_map KStr (all_consuming ipv6_addr))) by (apply ac_err; now apply ws_ipv6).
  apply or_ok, ac_ok. unfold relative_time. rewrite or_err by reflexivity. unfold delimited, p_bind.
  change (tag dq (in_quotes s)) with (POk (s ++ String dquote "")%string dq). cbn iota beta. rewrite Hr. reflexivity.
Qed.
Lemma operand_time : forall t s, specifier t s -> operand_before loose (in_quotes s) (econst (KSnapTime t)).
Proof.
  intros t s H. destruct (time_facts t s H) as (Hc & Hn & _). destruct (quotable_text s Hc) as [Hp Hs].
  apply operand_quoted; auto. intro rest. now apply constant_time.
Qed.
(** Fractions *)
Lemma numeral_end : forall m d e rest, digits d -> digits e -> tok_end lit_specials rest ->
  sforall (tok_char lit_specials) (numeral m d ++ "." ++ e) = true /\ is_not_reserved_word (numeral m d ++ "." ++ e) = true.
Proof.
  intros m d e rest Hd He Hr. split.
  - rewrite !sforall_app. destruct (numeral_tok m d Hd) as [_ ->]. cbn [andb].
    replace (sforall (tok_char lit_specials) ".") with true by reflexivity. cbn [andb]. destruct (numeral_tok false e He) as [_ H]. exact H.
  - destruct (numeral_head m d Hd) as (c & r & -> & Hc). cbn [append].
    unfold is_not_reserved_word. rewrite negb_true_iff.
    destruct (existsb (String.eqb (upper (String c (r ++ "." ++ e)))) reserved_words) eqn:E; auto. exfalso.
    apply existsb_exists in E. destruct E as (w & Hin & Hw). apply String.eqb_eq in Hw.
    assert (upper_c c = c) as U by (destruct Hc as [->|Hc]; [ reflexivity | now apply upper_digit ]).
    change (upper (String c (r ++ "." ++ e))) with (String (upper_c c) (upper (r ++ "." ++ e))) in Hw. rewrite U in Hw.
    assert (G : forall w, In w reserved_words -> match w with String x _ => is_digit x = false /\ x <> "-"%char | _ => False end).
    { intros w0 H0. cbn in H0. repeat (destruct H0 as [<-|H0]; [ split; [ reflexivity | discriminate ] | ]). destruct H0. }
    specialize (G w Hin). subst w. destruct G as [G1 G2]. destruct Hc as [->|Hc]; congruence.
Qed.
Lemma strip_leading_id : forall d, d = "0"%string \/ (forall r, d <> String "0" r) -> strip_leading_zeros d = d.
Proof.
  intros [|c [|x d]] H; try reflexivity. cbn [strip_leading_zeros].
  destruct (Ascii.eqb_spec c "0"%char) as [->|]; [ | reflexivity ]. destruct H as [H|H]; [ discriminate | now destruct (H (String x d)) ].
Qed.
Lemma strip_trailing_id : forall d, (forall r, d <> r ++ "0")%string -> strip_trailing_zeros d = d.
Proof.
  induction d as [|c d IH]; intro H; [ reflexivity | ]. cbn [strip_trailing_zeros]. rewrite IH.
  - destruct d; [ | reflexivity ]. destruct (Ascii.eqb_spec c "0"%char) as [->|]; [ now destruct (H EmptyString) | reflexivity ].
  - intros r ->. now apply (H (String c r)).
Qed.
Lemma dot_end : forall r, tok_end tok_specials (String "." r).
Proof. intro r. split; reflexivity. Qed.
Lemma token_dot : forall m d r, digits d -> token_not_t_f (numeral m d ++ String "." r) = POk (String "." r) (numeral m d).
Proof.
  intros m d r Hd. unfold token_not_t_f, verify, p_bind. change token with (token_of tok_specials). rewrite token_of_read.
  - rewrite numeral_not_reserved by exact Hd. cbn iota.
    assert (negb (String.eqb (numeral m d) "t") && negb (String.eqb (numeral m d) "f") = true) as ->; [ | reflexivity ].
    destruct (numeral_head m d Hd) as (c & x & -> & Hc). cbn -[Ascii.eqb].
    destruct (Ascii.eqb_spec c "t") as [->|]; [ destruct Hc; discriminate | ].
    destruct (Ascii.eqb_spec c "f") as [->|]; [ destruct Hc; discriminate | reflexivity ].
  - destruct (numeral_head m d Hd) as (c & x & -> & _). discriminate.
  - now apply numeral_tok.
  - apply dot_end.
Qed.
Lemma field_fraction : forall m d e rest, digits d -> digits e -> tok_end lit_specials rest ->
  field (numeral m d ++ "." ++ e ++ rest) = POk rest (numeral m d ++ "." ++ e)%string.
Proof.
  intros m d e rest Hd He Hr. unfold field. apply or_ok. unfold field_fmt, recognize, separated_list1, p_bind.
  cbn [append].
  rewrite (or_ok _ token_not_t_f _ _ _ _ (token_dot m d (e ++ rest) Hd)).
  assert ((token_not_t_f <|> double_quoted) (e ++ rest)%string = POk rest e) as Ee.
  { apply or_ok. unfold token_not_t_f, verify, p_bind. change (e ++ rest)%string with (numeral false e ++ rest)%string. rewrite token_numeral by auto.
    destruct He as [Hn He]. destruct e as [|c e]; [ congruence | ]. cbn [sforall] in He. apply andb_true_iff in He. destruct He as [He _]. cbn -[Ascii.eqb].
    destruct (Ascii.eqb_spec c "t") as [->|]; [ discriminate | ].
    destruct (Ascii.eqb_spec c "f") as [->|]; [ discriminate | reflexivity ]. }
  assert (tag "." rest = PErr) as E.
  { destruct rest as [|c r]; [ reflexivity | ]. apply tag1_err. destruct Hr as [Hr _].
    destruct (Ascii.eqb_spec "."%char c) as [<-|]; [ discriminate | reflexivity ]. }
  cbn [String.length sep_go]. change (tag "." (String "." (e ++ rest))) with (POk (e ++ rest)%string "."%string). cbn iota beta.
  cbn [String.length]. replace (Nat.eqb (String.length (e ++ rest)) (S (String.length (e ++ rest)))) with false by (symmetry; apply Nat.eqb_neq; lia).
  rewrite Ee.
  rewrite ?E.
  unfold p_ret. cbn iota beta.
  replace (numeral m d ++ String "." (e ++ rest))%string with ((numeral m d ++ String "." e) ++ rest)%string by (now rewrite append_assoc_s).
  now rewrite consumed_app.
Qed.
Lemma fraction_parts : forall t, fraction t -> exists m d e, t = (numeral m d ++ "." ++ e)%string /\ digits d /\ digits e /\
  strip_leading_zeros d = d /\ strip_trailing_zeros e = e.
Proof.
  intros t (g & d & e & -> & Hg & Hd1 & Hd & Hz & He1 & He & Hy & _). exists (String.eqb g "-"), d, e.
  assert (D : forall x, all_chars digit x -> sforall is_digit x = true).
  { intros x H. apply (proj2 (all_chars_sforall digit is_digit x is_digit_spec)). exact H. }
  split; [ | split; [ split; auto | split; [ split; auto | split; [ now apply strip_leading_id | now apply strip_trailing_id ] ] ] ].
  destruct Hg as [->| ->]; reflexivity.
Qed.
Lemma constant_fraction : forall t rest, fraction t -> tok_end lit_specials rest -> constant (t ++ rest) = POk rest (KDouble t).
Proof.
  intros t rest Ht Hr. destruct (fraction_parts t Ht) as (m & d & e & -> & Hd & He & Hz & Hy). destruct (numeral_end m d e rest Hd He Hr) as [Htok Hres].
  assert (Hne : (numeral m d ++ "." ++ e)%string <> EmptyString) by (destruct (numeral_head m d Hd) as (c & r & -> & _); discriminate).
  assert (Hno : forall x, is_digit x = false -> x <> "-"%char -> x <> "."%char -> has_char x (numeral m d ++ "." ++ e) = false).
  { intros x H1 H2 H3. unfold has_char, sexists. rewrite negb_false_iff. unfold numeral. rewrite !sforall_app.
    assert (G : forall y, sforall is_digit y = true -> sforall (fun c0 => negb (Ascii.eqb x c0)) y = true).
    { intros y Hyy. apply (sforall_impl is_digit); auto. intros a Ha. destruct (Ascii.eqb_spec x a); [ congruence | reflexivity ]. }
    rewrite (G d), (G e) by (apply Hd || apply He). cbn. destruct (Ascii.eqb_spec x "."%char); [ congruence | ]. cbn.
    destruct m; [ | reflexivity ]. cbn. destruct (Ascii.eqb_spec x "-"%char); [ congruence | reflexivity ]. }
  assert (HT : forall x y, is_digit x = false -> x <> "-"%char -> tag (String x EmptyString) (numeral m d ++ y) = PErr) by (intros; now apply numeral_tag_err).
  assert (D : forall y, double_quoted (numeral m d ++ y) = PErr /\ single_quoted (numeral m d ++ y) = PErr) by (intro; now apply quoted_err).
  unfold constant, map_parser, p_bind.
  assert (literal_text ((numeral m d ++ "." ++ e) ++ rest) = POk rest (numeral m d ++ "." ++ e)%string) as ->.
  { unfold literal_text, recognize. rewrite or_err by (rewrite append_assoc_s; apply D). rewrite or_err by (rewrite append_assoc_s; apply D).
    change token_with_extras with (token_of lit_specials). rewrite token_of_read; auto. rewrite Hres. now rewrite consumed_app. }
  assert (Ed : forall y, digit1 (d ++ String "." y) = POk (String "." y) d) by (intro y; apply digit1_read; try apply Hd; reflexivity).
  assert (Ps : forall y, p_sign (numeral m d ++ y) = POk (d ++ y)%string (if m then Some "-"%string else None)).
  { intro y. destruct m; [ reflexivity | ]. cbn [numeral append]. apply p_sign_none; apply Hd. }
  assert (Ee : digit1 e = POk EmptyString e) by (now apply digit1_all).
  assert (I4 : ipv4_addr (numeral m d ++ "." ++ e) = PErr).
  { unfold ipv4_addr, recognize, p_bind, byte, verify, recognize, p_bind. destruct m; cbn [numeral append]; [ reflexivity | ].
    rewrite Ed. destruct (Nat.leb _ 3); [ | reflexivity ]. unfold p_ret. change (tag "." (String "." e)) with (POk e "."%string). cbn iota beta.
    rewrite Ee. destruct (Nat.leb _ 3); reflexivity. }
  assert (constant_value (numeral m d ++ "." ++ e) = POk EmptyString (KDouble (numeral m d ++ "." ++ e))) as ->; [ | reflexivity ].
  unfold constant_value.
  rewrite (or_err _ (p_map KIPv4CIDR _)) by (apply ac_err; unfold ipv4_cidr, recognize, separated_pair, p_bind; now rewrite I4).
  rewrite (or_err _ (p_map KStr (all_consuming ipv4_addr))) by (now apply ac_err).
  rewrite (or_err _ (p_map KStr (all_consuming ipv6_addr))).
  2:{ apply ac_err. unfold ipv6_addr, verify, recognize, separated_list1, p_bind.
      assert (exists r0 o, opt (unwrapped (p_map parse_u16 digit1)) (numeral m d ++ "." ++ e) = POk r0 o
                /\ (r0 = ("." ++ e)%string /\ m = false \/ r0 = (numeral m d ++ "." ++ e)%string)) as (r0 & o & E0 & Hr0).
      { unfold opt, unwrapped, p_map, p_bind. destruct m; cbn [numeral append].
        - do 2 eexists. split; [ reflexivity | now right ].
        - rewrite Ed. unfold p_ret. destruct (parse_u16 d); do 2 eexists; split; try reflexivity; auto. }
      rewrite E0. destruct Hr0 as [[-> ->] | ->].
      - cbn -[consumed is_ipv6]. rewrite consumed_app. rewrite is_ipv6_digits by apply Hd. reflexivity.
      - cbn [sep_go]. rewrite HT by (auto; discriminate). cbn -[consumed is_ipv6]. rewrite consumed_none. reflexivity. }
  rewrite (or_err _ (p_map KSnapTime _)).
  2:{ apply ac_err. unfold relative_time. rewrite or_err.
      - unfold delimited, p_bind, dq. now rewrite HT by (auto; discriminate).
      - apply no_at_relative_fmt, Hno; [ reflexivity | discriminate | discriminate ]. }
  rewrite (or_err _ (p_map KTimeSpan _)).
  2:{ apply ac_err. unfold time_span, p_int, p_bind. rewrite Ps. unfold unwrapped, p_map, p_bind. cbn [append]. rewrite Ed. unfold p_ret.
      destruct (parse_i64 d); reflexivity. }
  rewrite (or_err _ (p_map KWildcard _)).
  2:{ apply ac_err. unfold wildcard, verify, p_bind. rewrite or_err by apply D. change token_with_extras with (token_of lit_specials).
      rewrite <- (append_nil_r (numeral m d ++ "." ++ e)). rewrite token_of_read by (auto; exact I). rewrite Hres. rewrite ?append_nil_r.
      rewrite Hno by (reflexivity || discriminate). reflexivity. }
  rewrite (or_err _ (p_map KStr (all_consuming double_quoted))) by (apply ac_err; apply D).
  rewrite (or_err _ (p_map KVariable _)) by (apply ac_err; unfold variable, delimited, p_bind; now rewrite HT by (auto; discriminate)).
  apply or_ok, ac_ok. unfold p_double, p_bind. rewrite Ps. cbn iota beta. unfold separated_pair, p_bind. cbn [append]. rewrite Ed.
  change (tag "." (String "." e)) with (POk e "."%string). cbn iota beta. rewrite Ee. unfold p_ret. cbn [fst snd]. unfold double_text. rewrite Hz, Hy.
  destruct He as [He _]. apply String.eqb_neq in He. rewrite He. unfold numeral. destruct m; reflexivity.
Qed.
Lemma operand_fraction : forall t, fraction t -> operand t (econst (KDouble t)).
Proof.
  intros t Ht. pose proof (constant_fraction t) as Hk. specialize (fun rest => Hk rest Ht).
  destruct (fraction_parts t Ht) as (m & d & e & -> & Hd & He & _).
  assert (N : forall rest, exists c r, ((numeral m d ++ "." ++ e) ++ rest)%string = String c r /\
    is_space c = false /\ ~ letter c /\ c <> "("%char).
  { intro rest. rewrite append_assoc_s. destruct (numeral_chars m d (("." ++ e) ++ rest) Hd) as (c & r & E & Hc). exists c, r. split; auto.
    now apply numeral_head_facts. }
  split.
  - intro x. destruct (N x) as (c & r & -> & Hc & _). exact Hc.
  - intros rest (H1 & H2 & H3). split.
    + destruct (N rest) as (c & r & E & Hc & Hl & _). rewrite E.
      apply not_alts_err; [ exact Hc | left; apply kw_head_err; auto; unfold letter; cbn; lia ].
    + apply field_in_err. right. do 2 eexists. rewrite !append_assoc_s. split; [ now apply field_fraction | auto ].
  - intros rest (H1 & H2 & H3). exists 0. intros n _. unfold expr2, expr_base.
    destruct (N rest) as (c & r & E & Hc & Hl & Hp).
    rewrite or_err by (apply paren_err; now rewrite E).
    rewrite or_err.
    2:{ unfold term_call, preceded, p_bind. rewrite E. rewrite kw_head_err; auto. unfold letter; cbn; lia. }
    rewrite or_err.
    2:{ unfold call, p_bind. rewrite !append_assoc_s. change token with (token_of tok_specials). rewrite token_of_read;
          [ | destruct (numeral_head m d Hd) as (? & ? & -> & _); discriminate | now apply numeral_tok | apply dot_end ].
        rewrite numeral_not_reserved by exact Hd. now rewrite paren_err. }
    apply or_ok. unfold p_map, p_bind. now rewrite Hk.
Qed.

(** ** Expressions at each level *)
Definition expr_at (k : nat) : Recs -> Parser Expr :=
  match k with
  | 0 | 1 | 2 => expr2 | 3 => expr3 | 4 => expr4 | 5 => expr5 | 6 => expr6 | 7 => expr7 | 8 => expr8 | _ => expr
  end.
Definition op_at (k : nat) : Parser string :=
  match k with 3 => op3 | 4 => op4 | 5 => op5 | 6 => op6 | 8 => op8 | 9 => op9 | _ => p_fail end.
(** No operator of level up to k follows *)
Definition fits_before (E : string -> Prop) (k : nat) (rest : string) : Prop := E rest /\ forall j, 3 <= j <= k -> op_at j rest = PErr.
Notation fits := (fits_before ends).
Record text_before (E : string -> Prop) (k : nat) (s : string) (e : Expr) : Prop := {
  et_stops : forall x, stops is_space (s ++ x);
  et_start : k <= 6 -> forall rest, E rest -> starts_operand (s ++ rest);
  et_reads : forall rest, fits_before E k rest -> reads (expr_at k) (s ++ rest) rest e;
  et_ws : k = 9 -> forall rest, fits_before E 8 rest -> op9w rest = PErr -> reads expr_ws (s ++ rest) rest e }.
Arguments et_stops {E}.
Arguments et_start {E}.
Arguments et_reads {E}.
Arguments et_ws {E}.
Notation expr_text := (text_before ends).
Definition expression := expr_text 9.
Lemma fits_le : forall E j k rest, j <= k -> fits_before E k rest -> fits_before E j rest.
Proof. intros E j k rest H [He Hf]. split; auto. intros i Hi. apply Hf. lia. Qed.
Lemma closed_fits : forall rest, closed rest -> fits 8 rest.
Proof.
  intros rest (He & H3 & H4 & H5 & H6 & H8). split; auto. intros j Hj.
  assert (j = 3 \/ j = 4 \/ j = 5 \/ j = 6 \/ j = 7 \/ j = 8) as [-> | [-> | [-> | [-> | [-> | ->]]]]] by lia; auto.
Qed.
Lemma ex_reads : forall s e, expression s e -> forall rest, closed rest -> op9 rest = PErr -> reads expr (s ++ rest) rest e.
Proof.
  intros s e H rest Hc Ho. apply (et_reads _ _ _ H). destruct (closed_fits _ Hc) as [H1 H2]. split; auto.
  intros j Hj. destruct (Nat.eq_dec j 9) as [->|]; [ exact Ho | apply H2; lia ].
Qed.
Lemma ex_reads_ws : forall s e, expression s e -> forall rest, closed rest -> op9w rest = PErr -> reads expr_ws (s ++ rest) rest e.
Proof. intros s e H rest Hc Ho. apply (et_ws _ _ _ H); auto. now apply closed_fits. Qed.
Lemma text_operand : forall E s e, operand_before E s e -> text_before E 2 s e.
Proof.
  intros E s e [H1 H2 H3]. split; auto; [ | discriminate ]. intros rest [He _]. now apply H3.
Qed.
Lemma text_up : forall E k s e, 2 <= k < 9 -> text_before E k s e -> text_before E (S k) s e.
Proof.
  intros E k s e Hk [H1 H2 H3 H4]. split; auto; [ intros; apply H2; auto; lia | | ].
  - intros rest Hf. pose proof (H3 rest (fits_le _ k (S k) rest ltac:(lia) Hf)) as H.
    destruct Hf as [He Hf]. pose proof (Hf (S k)) as Ho.
    assert (k = 2 \/ k = 3 \/ k = 4 \/ k = 5 \/ k = 6 \/ k = 7 \/ k = 8)
      as [-> | [-> | [-> | [-> | [-> | [-> | ->]]]]]] by lia; cbn [op_at] in Ho.
    + exact (chain_none expr2 op3 r_expr3 _ _ _ H (Ho ltac:(lia))).
    + exact (chain_none expr3 op4 r_expr4 _ _ _ H (Ho ltac:(lia))).
    + exact (chain_none expr4 op5 r_expr5 _ _ _ H (Ho ltac:(lia))).
    + exact (lift6 _ _ _ H (proj2 (H2 ltac:(lia) rest He)) (Ho ltac:(lia))).
    + exact (lift7 _ _ _ H (proj1 (H2 ltac:(lia) rest He))).
    + exact (lift8 _ _ _ H (Ho ltac:(lia))).
    + exact (lift9 _ _ _ H (Ho ltac:(lia))).
  - intros E9 rest Hf Ho. assert (k = 8) as -> by lia. apply lift9w; auto.
Qed.
Lemma text_le : forall j k s e, 2 <= j <= k -> k <= 9 -> expr_text j s e -> expr_text k s e.
Proof.
  intros j k s e [H2 Hj]. induction Hj as [|k Hj IH]; intros Hk H; auto.
  apply text_up; [ lia | apply IH; auto; lia ].
Qed.
Lemma operand_expression : forall s e, operand s e -> expression s e.
Proof. intros s e H. apply (text_le 2); [ lia | lia | now apply text_operand ]. Qed.
Lemma closed_paren : forall r, closed (String ")" r) /\ op9 (String ")" r) = PErr /\ op9w (String ")" r) = PErr.
Proof. intro r. repeat split; try reflexivity; try discriminate. Qed.
Lemma closed_comma : forall r, closed (String "," r) /\ op9 (String "," r) = PErr /\ op9w (String "," r) = PErr.
Proof. intro r. repeat split; try reflexivity; try discriminate. Qed.
Lemma closed_nil : closed EmptyString /\ op9 EmptyString = PErr /\ op9w EmptyString = PErr.
Proof. repeat split; try reflexivity. Qed.

Lemma operand_paren : forall s e, expression s e -> operand_before loose ("(" ++ s ++ ")") e.
Proof.
  intros s e H0. split.
  - intro x. reflexivity.
  - intros rest He. split; [ apply not_alts_err; [ reflexivity | left; reflexivity ] | apply field_in_err; left; reflexivity ].
  - intros rest He. cbn [append]. rewrite append_assoc_s. apply reads_or_l.
    destruct (closed_paren rest) as (C1 & C2 & C3).
    destruct (reads_down _ expr_ws r_expr_ws _ _ _ (fun R => eq_refl) (ex_reads_ws _ _ H0 (")" ++ rest)%string C1 C3)) as [n H].
    exists n. intros m Hm. unfold parenthesized, delimited, p_bind, ws_right, terminated, p_bind.
    change (tag "(" (String "(" (s ++ ")" ++ rest))) with (POk (s ++ ")" ++ rest)%string "("%string). cbn iota beta.
    rewrite ms0_eq, span_stops by apply (et_stops _ _ _ H0). cbn [fst snd]. unfold p_ret at 1. rewrite (H m Hm). reflexivity.
Qed.

Lemma ends_infix : forall b1 o b2 x, blanks b1 -> blanks b2 -> ends (infix b1 o b2 x).
Proof.
  intros b1 o b2 x H1 H2. split; [ | split ].
  - destruct (blanks_head b1 H1) as (c & b & -> & _ & [-> | [-> | [-> | ->]]]); split; reflexivity || discriminate.
  - destruct (blanks_head b1 H1) as (c & b & -> & _ & [-> | [-> | [-> | ->]]]); discriminate.
  - unfold op_in, infix. rewrite ws_skip by now apply blanks_space. destruct o; reflexivity.
Qed.
Definition op_facts (o : Op) (t s : string) : Prop :=
  match binds o with
  | 3 => op3 t = POk s (op_text o)
  | 4 => op3 t = PErr /\ op4 t = POk s (op_text o)
  | 5 => op3 t = PErr /\ op4 t = PErr /\ op5 t = POk s (op_text o)
  | 6 => op3 t = PErr /\ op4 t = PErr /\ op5 t = PErr /\ op6 t = POk s (op_text o)
  | 8 => op3 t = PErr /\ op4 t = PErr /\ op5 t = PErr /\ op6 t = PErr /\ op8 t = POk s (op_text o)
  | _ => op3 t = PErr /\ op4 t = PErr /\ op5 t = PErr /\ op6 t = PErr /\ op8 t = PErr
         /\ op9 t = POk s (op_text o) /\ op9w t = POk s (op_text o)
  end.
Lemma binary_core : forall (El Er : string -> Prop) o sl el sr er b1 b2,
  (forall rest, op_facts o (infix b1 o b2 (sr ++ rest)) (sr ++ rest)) -> (forall rest, El (infix b1 o b2 (sr ++ rest))) ->
  text_before El (pred (binds o)) sl el -> text_before Er (binds o) sr er ->
  text_before Er (binds o) (sl ++ b1 ++ op_text o ++ b2 ++ sr) (EBinary el (op_text o) er).
Proof.
  intros El Er o sl el sr er b1 b2 B1 B2 [L1 L2 L3 _] [R1 R2 R3 R4]. unfold op_facts in B1.
  assert (E : forall rest, ((sl ++ b1 ++ op_text o ++ b2 ++ sr) ++ rest)%string = (sl ++ infix b1 o b2 (sr ++ rest))%string).
  { intro rest. unfold infix. now rewrite !append_assoc_s. }
  assert (F : forall rest, fits_before El (pred (binds o)) (infix b1 o b2 (sr ++ rest)) /\
                           op_at (binds o) (infix b1 o b2 (sr ++ rest)) = POk (sr ++ rest)%string (op_text o) /\
                           (binds o = 9 -> op9w (infix b1 o b2 (sr ++ rest)) = POk (sr ++ rest)%string (op_text o))).
  { intro rest. pose proof (B1 rest) as O.
    assert (He : El (infix b1 o b2 (sr ++ rest))) by apply B2.
    assert (binds o = 3 \/ binds o = 4 \/ binds o = 5 \/ binds o = 6 \/ binds o = 8 \/ binds o = 9) as C
      by (destruct o; cbn; tauto).
    clear - O He C. revert O. generalize (op_text o). intro w.
    set (t := infix b1 o b2 (sr ++ rest)) in *. clearbody t.
    destruct C as [C|[C|[C|[C|[C|C]]]]]; rewrite !C; cbn [pred op_at]; intro O.
    all: repeat match goal with H : _ /\ _ |- _ => destruct H end.
    all: split; [ split; [ exact He | ] | split; [ assumption | congruence || auto ] ].
    all: intros j Hj; do 10 (destruct j as [|j]; [ cbn [op_at]; assumption || lia || reflexivity | ]); lia. }
  split.
  - intro x. rewrite E. apply L1.
  - intros Hk rest He. rewrite E. apply L2; [ lia | ]. apply B2.
  - intros rest Hf. rewrite E. destruct (F rest) as (F1 & F2 & _).
    pose proof (L3 _ F1) as Lr. pose proof (R3 _ Hf) as Rr.
    assert (binds o <= 6 -> field_in (sl ++ infix b1 o b2 (sr ++ rest)) = PErr) as Fi.
    { intro Hk. apply L2; [ lia | apply B2 ]. }
    destruct o; cbn [binds pred expr_at op_at op_text] in *.
    1,2: refine (chain_some expr2 op3 r_expr3 _ _ _ _ _ _ _ Lr F2 (reads_down _ expr3 _ _ _ _ (fun R => eq_refl) Rr)).
    1,2: refine (chain_some expr3 op4 r_expr4 _ _ _ _ _ _ _ Lr F2 (reads_down _ expr4 _ _ _ _ (fun R => eq_refl) Rr)).
    1: refine (chain_some expr4 op5 r_expr5 _ _ _ _ _ _ _ Lr F2 (reads_down _ expr5 _ _ _ _ (fun R => eq_refl) Rr)).
    8: refine (chain_some expr7 op8 r_expr8 _ _ _ _ _ _ _ Lr F2 (reads_down _ expr8 _ _ _ _ (fun R => eq_refl) Rr)).
    8: refine (chain_some expr8 op9 r_expr _ _ _ _ _ _ _ Lr F2 (reads_down _ expr _ _ _ _ (fun R => eq_refl) Rr)).
    all: apply (reads_or_r _ (fun _ => field_in)); [ intros _; apply Fi; lia | ].
    all: refine (chain_some expr5 op6 r_expr6 _ _ _ _ _ _ _ Lr F2 (reads_down _ expr6 _ _ _ _ (fun R => eq_refl) Rr)).
  - intros E9 rest Hf Ho. rewrite E. destruct (F rest) as (F1 & _ & F2). rewrite E9 in F1. specialize (F2 E9).
    rewrite E9 in L3. pose proof (L3 _ F1) as Lr. pose proof (R4 E9 _ Hf Ho) as Rr.
    exact (chain_some expr8 op9w r_expr_ws _ _ _ _ _ _ _ Lr F2 (reads_down _ expr_ws _ _ _ _ (fun R => eq_refl) Rr)).
Qed.
Lemma binary_text : forall E o sl el sr er b1 b2, blanks b1 -> blanks b2 ->
  expr_text (pred (binds o)) sl el -> text_before E (binds o) sr er ->
  text_before E (binds o) (sl ++ b1 ++ op_text o ++ b2 ++ sr) (EBinary el (op_text o) er).
Proof.
  intros E o sl el sr er b1 b2 B1 B2 L R. apply (binary_core ends); auto.
  - intro rest. apply (op_reads b1 o b2 (sr ++ rest) B1 B2 (et_stops _ _ _ R rest)).
  - intro rest. now apply ends_infix.
Qed.
(** Comparisons need no white space around the operator *)
Definition no_eq_head (s : string) : Prop := match s with String c _ => c <> "="%char | EmptyString => True end.
Lemma tight_space : forall b, all_chars white b -> sforall is_space b = true.
Proof. intros b H. now apply (all_chars_sforall white is_space b is_space_spec). Qed.
Lemma tight_infix : forall l b1 o b2 x, tight l o b1 b2 -> loose (infix b1 o b2 x) /\ (ends (infix b1 o b2 x) \/ closes l).
Proof.
  intros l b1 o b2 x (H1 & _ & Hc & Ho). destruct b1 as [|c b1].
  - split; [ destruct o; try congruence; split; reflexivity | ].
    destruct Ho as [Ho|[Ho|[Ho|Ho]]]; auto; left; destruct o; cbn in Ho; try congruence; (split; [ split; reflexivity | split; [ discriminate | reflexivity ] ]).
  - assert (blanks (String c b1)) as B by (split; [ discriminate | exact H1 ]).
    assert (E : ends (infix (String c b1) o b2 x)); [ | split; auto; now apply ends_loose ]. split; [ | split ].
    + destruct (blanks_head _ B) as (d & b & -> & _ & [-> | [-> | [-> | ->]]]); split; reflexivity || discriminate.
    + destruct (blanks_head _ B) as (d & b & -> & _ & [-> | [-> | [-> | ->]]]); discriminate.
    + unfold op_in, infix. rewrite ws_skip by now apply blanks_space. destruct o; reflexivity.
Qed.
Lemma tight_op : forall o u, binds o = 6 -> no_eq_head u -> comparison_op_text (op_text o ++ u) = POk u (op_text o).
Proof.
  intros o u Ho Hu.
  assert (N : forall t, tag_no_case t (t ++ u) = POk u t) by (intro t; apply tag_nc_read; now apply same_word_lower).
  assert (T : forall t, tag t (t ++ u)%string = POk u t).
  { intro t. unfold tag. assert (strip_prefix t (t ++ u) = Some u) as ->; [ | reflexivity ].
    induction t as [|c t IH]; cbn [append strip_prefix]; [ reflexivity | now rewrite Ascii.eqb_refl ]. }
  assert (X : forall c, tag_no_case (String c "=") (String c u) = PErr).
  { intro c. unfold tag_no_case. cbn [strip_prefix_nc]. rewrite Ascii.eqb_refl. destruct u as [|d r]; auto.
    destruct (Ascii.eqb_spec (lower_c "=") (lower_c d)) as [E|_]; auto. exfalso. apply Hu.
    apply lower_c_same in E. unfold same_letter in E. destruct E as [E|E]; [ now symmetry | exfalso ]. cbn in E. lia. }
  unfold comparison_op_text, op_equals.
  destruct o; try discriminate; cbn [op_text append].
  - apply or_ok, N.
  - rewrite or_err by apply X. apply or_ok, or_ok, T.
  - rewrite !or_err by (try apply or_err; reflexivity). apply or_ok, N.
  - rewrite !or_err by (try apply or_err; reflexivity). apply or_ok, N.
  - rewrite or_err by reflexivity. rewrite or_err by (rewrite or_err; reflexivity). rewrite or_err by reflexivity.
    rewrite or_err by apply (X "<"%char). apply or_ok, N.
  - rewrite !or_err by (try apply or_err; reflexivity). apply or_ok, N.
  - rewrite or_err by reflexivity. rewrite or_err by (rewrite or_err; reflexivity). rewrite or_err by reflexivity.
    rewrite or_err by reflexivity. rewrite or_err by reflexivity. rewrite or_err by apply (X ">"%char). apply N.
Qed.
Lemma tight_facts : forall l b1 o b2 s, tight l o b1 b2 -> stops is_space s -> no_eq_head s ->
  op_facts o (infix b1 o b2 s) s.
Proof.
  intros l b1 o b2 s Ho Hs He. destruct Ho as (H1 & H2 & Hc & _). unfold op_facts.
  assert (Sk : forall A (p : Parser A), ws p (infix b1 o b2 s) = ws p (op_text o ++ b2 ++ s)%string).
  { intros A p. unfold infix. apply ws_skip. now apply tight_space. }
  assert (S9 : op9w (infix b1 o b2 s) = match ws op_and (op_text o ++ b2 ++ s)%string with
                 PErr => p_map (fun _ => "AND"%string) multispace1 (infix b1 o b2 s) | r => r end).
  { unfold op9w, p_or. now rewrite Sk. }
  unfold op3, op4, op5, op6, op8, op9. rewrite S9, !Sk.
  assert (W : forall (p : Parser string) t a, p (t ++ b2 ++ s)%string = POk (b2 ++ s)%string a ->
             stops is_space (t ++ b2 ++ s) -> ws p (t ++ b2 ++ s)%string = POk s a).
  { intros p t a H Ht. rewrite (ws_ok _ p _ (b2 ++ s)%string a); [ | now rewrite skip_stops ].
    rewrite skip_blanks; auto. now apply tight_space. }
  assert (N : no_eq_head (b2 ++ s)).
  { destruct b2 as [|c b2]; auto. cbn. intros ->. destruct H2 as [H2 _]. apply is_space_spec in H2. discriminate. }
  assert (T : forall t u, tag_no_case t (t ++ u) = POk u t) by (intros t u; apply tag_nc_read; now apply same_word_lower).
  assert (C : binds o = 6 \/ binds o <> 6) by lia. destruct C as [C|C].
  - rewrite C. split; [ destruct o; try discriminate; reflexivity | ]. split; [ destruct o; try discriminate; reflexivity | ].
    split; [ destruct o; try discriminate; reflexivity | ]. apply W; [ | destruct o; try discriminate; reflexivity ].
    apply tight_op; auto.
  - destruct o; cbn in C; try congruence; cbn [binds].
    + apply W; [ apply or_ok, T | reflexivity ].
    + apply W; [ rewrite or_err by reflexivity; apply T | reflexivity ].
    + split; [ reflexivity | ]. apply W; [ apply or_ok, T | reflexivity ].
    + split; [ reflexivity | ]. apply W; [ rewrite or_err by reflexivity; apply T | reflexivity ].
    + do 4 (split; [ reflexivity | ]). apply W; [ apply T | reflexivity ].
    + do 5 (split; [ reflexivity | ]).
      assert (X : ws op_and (op_text OAnd ++ b2 ++ s)%string = POk s (op_text OAnd)) by (apply W; [ apply or_ok, T | reflexivity ]).
      rewrite X. auto.
Qed.
Lemma tight_text : forall E o sl el sr er b1 b2, tight sl o b1 b2 -> (forall x, no_eq_head (sr ++ x)) ->
  expr_text (pred (binds o)) sl el -> (closes sl -> text_before loose (pred (binds o)) sl el) -> text_before E (binds o) sr er ->
  text_before E (binds o) (sl ++ b1 ++ op_text o ++ b2 ++ sr) (EBinary el (op_text o) er).
Proof.
  intros E o sl el sr er b1 b2 Ho Hh L L' R.
  assert (closes sl \/ b1 <> EmptyString \/ binds o = 6 \/ o = OAdd) as [C|C] by (destruct Ho as (_ & _ & _ & Ho); tauto).
  - apply (binary_core loose); auto.
    + intro rest. apply (tight_facts sl); auto. apply (et_stops _ _ _ R).
    + intro rest. now apply (tight_infix sl).
  - assert (tight EmptyString o b1 b2) as Ho' by (destruct Ho as (H1 & H2 & H3 & _); repeat split; auto; tauto).
    apply (binary_core ends); auto.
    + intro rest. apply (tight_facts sl); auto. apply (et_stops _ _ _ R).
    + intro rest. destruct (tight_infix EmptyString b1 o b2 (sr ++ rest) Ho') as [_ [X|(s' & [X|X])]]; auto; destruct s'; discriminate.
Qed.
Lemma not_text : forall E s e b, blanks b -> text_before E 7 s e -> text_before E 7 ("NOT" ++ b ++ s) (EUnary "NOT" e).
Proof.
  intros E s e b Hb [H1 _ H3 _]. split; [ reflexivity | lia | | discriminate ]. intros rest Hf.
  change (expr_at 7) with (fun R => not_alts R <|> expr6 R). apply reads_or_l.
  destruct (reads_down _ expr7 r_expr7 _ _ _ (fun R => eq_refl) (H3 rest Hf)) as [n H]. exists n. intros m Hm.
  unfold not_alts, p_map, p_bind. rewrite !append_assoc_s.
  rewrite (or_ok _ _ _ _ rest ("NOT"%string, e)); [ reflexivity | ].
  unfold separated_pair, p_bind.
  assert (op_not ("NOT" ++ b ++ s ++ rest) = POk (b ++ s ++ rest)%string "NOT"%string) as ->.
  { apply tag_nc_read. now apply same_word_lower. }
  assert (multispace1 (b ++ s ++ rest) = POk (s ++ rest)%string b) as ->.
  { unfold multispace1, take_while1. rewrite span_exact by (auto; now apply blanks_space).
    destruct Hb as [Hb _]. destruct b; [ congruence | reflexivity ]. }
  now rewrite (H m Hm).
Qed.

(** ** Calls *)
Fixpoint commas_of (l : list string) : string :=
  match l with [] => EmptyString | x :: l' => (", " ++ x ++ commas_of l')%string end.
Lemma commas_cons : forall x l, commas (x :: l) = (x ++ commas_of l)%string.
Proof.
  intros x l. revert x. induction l as [|y l IH]; intro x; [ now rewrite append_nil_r | ].
  change (commas (x :: y :: l)) with (x ++ ", " ++ commas (y :: l))%string. now rewrite IH.
Qed.
Lemma closed_commas : forall l r, let rest := (commas_of l ++ String ")" r)%string in closed rest /\ op9 rest = PErr.
Proof.
  intros [|x l] r; cbn zeta.
  - destruct (closed_paren r) as (H1 & H2 & _). split; auto.
  - destruct (closed_comma (String " " ((x ++ commas_of l) ++ String ")" r))) as (H1 & H2 & _). split; auto.
Qed.
Lemma args_go : forall l r, Forall (fun p => expression (fst p) (snd p)) l ->
  exists n, forall m, n <= m -> forall fuel, length l < fuel ->
    sep_go comma_sep (r_expr (level m)) fuel (commas_of (map fst l) ++ String ")" r)
    = POk (String ")" r) (map snd l).
Proof.
  intros l r H. induction H as [|[s e] l He Hl [n IH]].
  - exists 0. intros m _ [|fuel] Hf; [ cbn in Hf; lia | reflexivity ].
  - cbn [fst snd] in He. pose proof (et_stops _ _ _ He) as E1. pose proof (ex_reads _ _ He) as E2.
    destruct (closed_commas (map fst l) r) as [C1 C2].
    destruct (reads_down _ expr r_expr _ _ _ (fun R => eq_refl) (E2 _ C1 C2)) as [n' H'].
    exists (max n n'). intros m Hm [|fuel] Hf; [ lia | ]. cbn [map fst snd commas_of sep_go length] in *.
    assert (comma_sep ((", " ++ s ++ commas_of (map fst l)) ++ String ")" r)%string
            = POk (s ++ commas_of (map fst l) ++ String ")" r)%string ","%string) as ->.
    { rewrite !append_assoc_s. unfold comma_sep, ws, delimited, p_bind.
      change (multispace0 (", " ++ s ++ commas_of (map fst l) ++ String ")" r))
        with (POk (", " ++ s ++ commas_of (map fst l) ++ String ")" r)%string EmptyString). cbn iota beta.
      change (tag "," (", " ++ s ++ commas_of (map fst l) ++ String ")" r))
        with (POk (String " " (s ++ commas_of (map fst l) ++ String ")" r)%string) ","%string). cbn iota beta.
      rewrite ms0_eq. cbn [span]. change (is_space " ") with true. cbn iota.
      rewrite span_stops by auto. reflexivity. }
    match goal with |- context [Nat.eqb ?a ?b] => destruct (Nat.eqb_spec a b) as [X|_] end.
    { rewrite !length_append in X. cbn in X. rewrite ?length_append in X. lia. }
    rewrite (H' m) by lia. rewrite (IH m) by lia. reflexivity.
Qed.
Lemma commas_length : forall l, length l <= String.length (commas_of l).
Proof. induction l as [|x l IH]; cbn; auto. rewrite length_append. lia. Qed.
Lemma paren_args : forall l r, Forall (fun p => expression (fst p) (snd p)) l ->
  reads (fun R => parenthesized (comma_separated_list0 (r_expr R)))
    ("(" ++ commas (map fst l) ++ ")" ++ r) r (map snd l).
Proof.
  intros l r H. destruct l as [|[s e] l].
  - exists 1. intros [|m] Hm; [ lia | ]. reflexivity.
  - pose proof (Forall_inv H) as He. cbn [fst snd] in He.
    pose proof (et_stops _ _ _ He) as E1. pose proof (ex_reads _ _ He) as E2.
    destruct (args_go l r (Forall_inv_tail H)) as [n IH].
    destruct (closed_commas (map fst l) r) as [C1 C2].
    destruct (reads_down _ expr r_expr _ _ _ (fun R => eq_refl) (E2 _ C1 C2)) as [n' H'].
    exists (max n n'). intros m Hm. cbn [map fst snd]. rewrite commas_cons.
    unfold parenthesized, delimited, p_bind, ws_right, terminated, p_bind.
    change (tag "(" ("(" ++ (s ++ commas_of (map fst l)) ++ ")" ++ r))
      with (POk ((s ++ commas_of (map fst l)) ++ ")" ++ r)%string "("%string). cbn iota beta.
    rewrite append_assoc_s. rewrite ms0_eq, span_stops by auto. cbn [fst snd]. unfold p_ret at 1.
    unfold comma_separated_list0, separated_list0.
    change (")" ++ r)%string with (String ")" r). rewrite (H' m) by lia. rewrite (IH m).
    + reflexivity.
    + lia.
    + rewrite length_append. pose proof (commas_length (map fst l)). rewrite map_length in *. lia.
Qed.
Lemma operand_call : forall n l, plain_ident n -> ~ same_word n "TERM" ->
  Forall (fun p => expression (fst p) (snd p)) l ->
  operand_before loose (n ++ "(" ++ commas (map fst l) ++ ")") (ECall n (map snd l)).
Proof.
  intros w l Hw Ht Hl.
  assert (E : forall x, ((w ++ "(" ++ commas (map fst l) ++ ")") ++ x)%string
                        = (w ++ String "(" (commas (map fst l) ++ ")" ++ x))%string).
  { intro x. rewrite !append_assoc_s. reflexivity. }
  assert (T : forall x, tok_end lit_specials (String "(" x)) by (intro; split; reflexivity).
  split.
  - intro x. rewrite E. apply ident_starts; auto.
  - intros rest _. rewrite E. apply ident_starts; auto.
  - intros rest _. rewrite E.
    destruct (paren_args l rest Hl) as [n H]. exists n. intros m Hm. unfold expr2, expr_base.
    rewrite or_err.
    2:{ apply paren_err. destruct (ident_head w Hw) as (c & r & -> & Hc). cbn [append].
        intros ->. destruct Hc as [Hc|]; [ | discriminate ]. unfold letter in Hc. cbn in Hc. lia. }
    rewrite or_err.
    2:{ unfold term_call, preceded, p_bind, tag_no_case.
        destruct (kw_prefix "TERM" w (String "(" (commas (map fst l) ++ ")" ++ rest)) ltac:(unfold letter; cbn; lia) (tok_end_no_letter _ (T (commas (map fst l) ++ ")" ++ rest)%string)))
          as [->|(y & x & E' & Hy & ->)]; auto.
        destruct x as [|c x]; [ exfalso; rewrite append_nil_r in E'; subst; auto | ].
        rewrite paren_err; auto. cbn [append]. intros ->.
        destruct (ident_chars w Hw) as [_ Hc]. subst w. apply all_chars_app in Hc. destruct Hc as [_ [Hc _]].
        apply name_char_facts in Hc. destruct Hc as [_ Hc]. discriminate. }
    apply or_ok. unfold call, p_bind. rewrite token_ident by auto.
    change (String "(" (commas (map fst l) ++ ")" ++ rest)) with ("(" ++ commas (map fst l) ++ ")" ++ rest)%string.
    now rewrite (H m Hm).
Qed.

(** ** All written trees *)
Scheme writes_mut := Induction for writes Sort Prop
  with writes_args_mut := Induction for writes_args Sort Prop.
Lemma writes_level : forall k t s, writes k t s -> 2 <= k <= 9.
Proof. intros k t s H. induction H; try (destruct o; cbn); lia. Qed.
Lemma wf_args : forall l, (fix all l := match l with [] => True | u :: l' => wf u /\ all l' end) l <-> Forall wf l.
Proof.
  induction l as [|u l IH]; split; intro H; auto.
  - destruct H. constructor; auto. now apply IH.
  - inversion H; subst. split; auto. now apply IH.
Qed.
Lemma written_head : forall k t s, writes k t s -> wf t -> forall x, exists c r, (s ++ x)%string = String c r /\ c <> "="%char /\ c <> "|"%char.
Proof.
  assert (L : forall c, letter c \/ c = "_"%char -> c <> "="%char /\ c <> "|"%char).
  { intros c [Hc| ->]; [ | split; discriminate ]. unfold letter in Hc. split; intros ->; cbn in Hc; lia. }
  intros k t s H. induction H; intros Hw x; rewrite ?append_assoc_s; try (cbn [append]; eexists _, _; split; [ reflexivity | split; discriminate ]); auto.
  - destruct (ident_head f Hw) as (c & r & -> & Hc). cbn [append]. eexists _, _. split; [ reflexivity | auto ].
  - destruct (decimal_numeral z) as (m & d & -> & Hd & _). destruct m; cbn [append].
    + eexists _, _. split; [ reflexivity | split; discriminate ].
    + destruct Hd as [Hn Hd]. destruct d as [|c d]; [ congruence | ]. cbn [append]. eexists _, _. split; [ reflexivity | ].
      split; intros ->; discriminate.
  - destruct Hw as (sign & d & part & -> & Hs & Hn & Hd & _). destruct Hs as [-> | ->]; cbn [append].
    + destruct d as [|c d]; [ congruence | ]. destruct Hd as [Hd _]. cbn [append]. eexists _, _. split; [ reflexivity | ].
      split; intros ->; unfold digit in Hd; cbn in Hd; lia.
    + eexists _, _. split; [ reflexivity | split; discriminate ].
  - destruct Hw as (Hn & _). destruct (ident_head n Hn) as (c & r & -> & Hc). cbn [append]. eexists _, _. split; [ reflexivity | auto ].
  - destruct Hw. auto.
  - destruct Hw. auto.
Qed.
Lemma closes_char : forall P s, closes s -> all_chars P s -> P ")"%char \/ P dquote.
Proof. intros P s (s' & [-> | ->]) H; apply all_chars_app in H; destruct H as [_ [H _]]; auto. Qed.
Lemma closes_app : forall a s, closes (a ++ s) -> s <> EmptyString -> closes s.
Proof.
  induction a as [|c a IH]; intros s H Hn; [ exact H | ]. apply IH; auto. destruct H as (s' & H). destruct s' as [|d s'].
  - exfalso. cbn [append] in H. assert ((a ++ s)%string = EmptyString) as X by (destruct H as [H|H]; now injection H).
    destruct a; [ auto | discriminate ].
  - exists s'. cbn [append] in H. destruct H as [H|H]; injection H as _ H; auto.
Qed.
Lemma digits_close : forall s, closes s -> all_chars (fun c => is_digit c = true \/ c = "-"%char \/ c = "."%char) s -> False.
Proof. intros s H A. destruct (closes_char _ _ H A) as [X|X]; destruct X as [X|[X|X]]; discriminate. Qed.
Lemma digit_chars : forall d, sforall is_digit d = true -> all_chars (fun c => is_digit c = true \/ c = "-"%char \/ c = "."%char) d.
Proof. induction d as [|c d IH]; intro H; [ exact I | ]. cbn [sforall] in H. apply andb_true_iff in H. split; [ tauto | now apply IH ]. Qed.
Lemma field_open : forall f, field_name f -> ~ closes f.
Proof. intros f H C. destruct (closes_char _ _ C (proj2 (fname_chars f H))) as [X|X]; apply fchar_tok in X; discriminate. Qed.
Lemma int_open : forall z, ~ closes (decimal z).
Proof.
  intros z C. destruct (decimal_numeral z) as (m & d & E & Hd & _).
    apply (digits_close (decimal z)); auto. rewrite E. unfold numeral. destruct Hd as [_ Hd]. destruct m; cbn [append all_chars]; auto using digit_chars.
Qed.
Lemma fraction_open : forall t, fraction t -> ~ closes t.
Proof.
  intros t H C. apply (digits_close t); auto.
    destruct H as (sign & d & part & -> & Hs & _ & Hd & _ & _ & Hp & _).
    assert (D : forall x, all_chars digit x -> all_chars (fun c => is_digit c = true \/ c = "-"%char \/ c = "."%char) x).
    { intros x. apply all_chars_impl. intros c Hc. left. now apply is_digit_spec. }
    apply all_chars_app. split; [ destruct Hs as [-> | ->]; cbn; auto | ]. apply all_chars_app. split; [ auto | ]. cbn [append all_chars]. auto.
Qed.
Lemma written_texts : forall k t s, writes k t s -> wf t ->
  expr_text k s (meaning t) /\ (closes s -> text_before loose k s (meaning t)).
Proof.
  assert (OP : forall s e, operand_before loose s e -> expr_text 2 s e /\ (closes s -> text_before loose 2 s e)).
  { intros s e H. split; [ apply text_operand; now apply operand_loose | intro C; now apply text_operand ]. }
  apply (writes_mut
    (fun k t s _ => wf t -> expr_text k s (meaning t) /\ (closes s -> text_before loose k s (meaning t)))
    (fun ts ss _ => Forall wf ts -> exists l, Forall (fun p => expression (fst p) (snd p)) l /\
                      map fst l = ss /\ map snd l = map meaning ts)).
  - intros f H. split; [ now apply text_operand, operand_ident | ]. intro C. now destruct (field_open f H).
  - intros z H. split; [ now apply text_operand, operand_int | ]. intro C. now destruct (int_open z).
  - intros s H. now apply OP, operand_string.
  - intros t H. split; [ now apply text_operand, operand_fraction | ]. intro C. now destruct (fraction_open t H).
  - intros t s H. now apply OP, operand_time.
  - intros n ts ss _ IH (H1 & H2 & H3). apply wf_args in H3. destruct (IH H3) as (l & F & E1 & E2).
    apply OP. cbn [meaning]. rewrite <- E1, <- E2. now apply operand_call.
  - intros t s _ IH H. apply OP, operand_paren. now apply IH.
  - intros t s b Hb Hw IH H. destruct (IH H) as [I1 I2]. split; [ now apply not_text | ]. intro C. apply not_text; auto. apply I2.
    destruct (written_head _ _ _ Hw H EmptyString) as (c & r & E & _). rewrite append_nil_r in E. rewrite <- append_assoc_s in C.
    apply closes_app in C; [ exact C | rewrite E; discriminate ].
  - intros o l r sl sr b1 b2 H1 H2 _ IHl Hw IHr [Hl Hr]. destruct (IHl Hl) as [L1 L2], (IHr Hr) as [R1 R2].
    split; [ now apply binary_text | ]. intro C. apply binary_text; auto. apply R2.
    destruct (written_head _ _ _ Hw Hr EmptyString) as (c & r' & E & _). rewrite append_nil_r in E. rewrite <- !append_assoc_s in C.
    apply closes_app in C; [ exact C | rewrite E; discriminate ].
  - intros o l r sl sr b1 b2 Ho _ IHl Hw IHr [Hl Hr]. destruct (IHl Hl) as [L1 L2], (IHr Hr) as [R1 R2]. cbn [meaning].
    assert (forall x, no_eq_head (sr ++ x)) as N.
    { intro x. destruct (written_head _ _ _ Hw Hr x) as (c & r' & -> & Hc & _). exact Hc. }
    split; [ now apply tight_text | ]. intro C. apply tight_text; auto. apply R2.
    destruct (written_head _ _ _ Hw Hr EmptyString) as (c & r' & E & _). rewrite append_nil_r in E. rewrite <- !append_assoc_s in C.
    apply closes_app in C; [ exact C | rewrite E; discriminate ].
  - intros k t s Hk Hw IH H. pose proof (writes_level _ _ _ Hw). destruct (IH H) as [I1 I2]. split; [ apply text_up; auto; lia | ].
    intro C. apply text_up; auto; lia.
  - intros _. exists []. repeat split; constructor.
  - intros t s ts ss _ IH _ IHs H. inversion H; subst. destruct (IHs H3) as (l & F & E1 & E2).
    exists ((s, meaning t) :: l). repeat split; [ constructor; auto; now apply IH | cbn; congruence .. ].
Qed.
Lemma written_reads : forall k t s, writes k t s -> wf t -> expr_text k s (meaning t).
Proof. intros k t s H Hw. now apply written_texts. Qed.
