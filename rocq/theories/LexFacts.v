(** Proofs about the lexical part of the grammar. *)
From Coq Require Import Lia Nnat DecimalString.
From Verif Require Import Str SplAst Nom Lexer Parser CmdParser ParserFacts ParserTotal ParserFuel.
From Verif Require Import SpecText.

(** ** Characters *)
Lemma code_nat : forall c, code c = N.of_nat (nat_of_ascii c).
Proof. intro c. unfold code, nat_of_ascii. now rewrite N2Nat.id. Qed.
Lemma between_spec : forall lo hi c,
  between lo hi c = true <-> N.to_nat lo <= nat_of_ascii c <= N.to_nat hi.
Proof.
  intros lo hi c. unfold between. rewrite andb_true_iff, !N.leb_le, code_nat. lia.
Qed.
Lemma is_space_spec : forall c, is_space c = true <-> white c.
Proof.
  intro c. unfold is_space, white. rewrite !orb_true_iff, !N.eqb_eq, code_nat. cbn [In]. lia.
Qed.
Lemma is_digit_spec : forall c, is_digit c = true <-> digit c.
Proof. intro c. unfold is_digit, digit. rewrite between_spec. cbn. lia. Qed.
Lemma is_space_false : forall c, is_space c = false <-> ~ white c.
Proof. intro c. rewrite <- is_space_spec. destruct (is_space c); intuition congruence. Qed.
Lemma is_digit_false : forall c, is_digit c = false <-> ~ digit c.
Proof. intro c. rewrite <- is_digit_spec. destruct (is_digit c); intuition congruence. Qed.
Lemma is_upper_spec : forall c, is_upper c = true <-> 65 <= nat_of_ascii c <= 90.
Proof. intro c. unfold is_upper. rewrite between_spec. cbn. lia. Qed.
Lemma all_chars_sforall : forall P f s, (forall c, f c = true <-> P c) ->
  (sforall f s = true <-> all_chars P s).
Proof.
  intros P f s H. induction s as [|c s IH]; cbn; [ tauto | ].
  rewrite andb_true_iff, IH, H. tauto.
Qed.

Lemma nat_of_ascii_inj : forall c d, nat_of_ascii c = nat_of_ascii d -> c = d.
Proof. intros c d H. rewrite <- (ascii_nat_embedding c), <- (ascii_nat_embedding d). now f_equal. Qed.
Lemma lower_c_code : forall c, nat_of_ascii (lower_c c)
  = if is_upper c then nat_of_ascii c + 32 else nat_of_ascii c.
Proof.
  intro c. unfold lower_c. destruct (is_upper c) eqn:E; auto.
  apply is_upper_spec in E. unfold nat_of_ascii at 1. rewrite N_ascii_embedding.
  - rewrite code_nat. lia.
  - rewrite code_nat. lia.
Qed.
Lemma lower_c_same : forall c d, same_letter c d <-> lower_c c = lower_c d.
Proof.
  intros c d. unfold same_letter. pose proof (lower_c_code c) as Hc. pose proof (lower_c_code d) as Hd.
  pose proof (is_upper_spec c) as Uc. pose proof (is_upper_spec d) as Ud.
  split.
  - intros [->|H]; auto. apply nat_of_ascii_inj. rewrite Hc, Hd.
    destruct (is_upper c), (is_upper d); intuition lia.
  - intro E. rewrite <- E, Hc in Hd.
    destruct (is_upper c), (is_upper d).
    + left. apply nat_of_ascii_inj. lia.
    + right. left. intuition lia.
    + right. right. intuition lia.
    + left. apply nat_of_ascii_inj. lia.
Qed.
Lemma same_word_length : forall s t, same_word s t -> String.length s = String.length t.
Proof. induction 1; cbn; auto. Qed.
Lemma same_word_sym : forall s t, same_word s t -> same_word t s.
Proof.
  induction 1 as [|c d s t H _ IH]; constructor; auto. unfold same_letter in *.
  destruct H as [->|[?|?]]; auto.
Qed.

(** ** span *)
Lemma span_app : forall f a b, sforall f a = true ->
  span f (a ++ b) = (let (x, y) := span f b in ((a ++ x)%string, y)).
Proof.
  intros f a b. induction a as [|c a IH]; cbn; intro H.
  - now destruct (span f b).
  - apply andb_true_iff in H. destruct H as [Hc Ha]. rewrite Hc, IH; auto.
    now destruct (span f b).
Qed.
Definition stops (f : ascii -> bool) (s : string) : Prop :=
  match s with EmptyString => True | String c _ => f c = false end.
Lemma span_stops : forall f b, stops f b -> span f b = (EmptyString, b).
Proof. intros f [|c b]; cbn; intro H; [ reflexivity | now rewrite H ]. Qed.
Lemma span_exact : forall f a b, sforall f a = true -> stops f b -> span f (a ++ b) = (a, b).
Proof. intros. rewrite span_app, span_stops; auto. now rewrite append_nil_r. Qed.
Lemma span_rest_stops : forall f s, stops f (snd (span f s)).
Proof.
  intros f s. induction s as [|c s IH]; cbn; auto.
  destruct (f c) eqn:E; [ destruct (span f s); exact IH | exact E ].
Qed.
Lemma span_idem : forall f s, span f (snd (span f s)) = (EmptyString, snd (span f s)).
Proof. intros. apply span_stops, span_rest_stops. Qed.

(** ** White space *)
Lemma ms0_app : forall w s, sforall is_space w = true ->
  snd (span is_space (w ++ s)) = snd (span is_space s).
Proof. intros w s H. rewrite span_app; auto. now destruct (span is_space s). Qed.
Lemma ms0_eq : forall s, multispace0 s = POk (snd (span is_space s)) (fst (span is_space s)).
Proof. intro s. unfold multispace0, take_while. now destruct (span is_space s). Qed.
Lemma ws_skip : forall A (p : Parser A) w s, sforall is_space w = true -> ws p (w ++ s) = ws p s.
Proof.
  intros A p w s H. unfold ws, delimited, p_bind. rewrite !ms0_eq, ms0_app; auto.
Qed.
Lemma ws_skip_all : forall A (p : Parser A) s, ws p (snd (span is_space s)) = ws p s.
Proof.
  intros A p s. unfold ws, delimited, p_bind. rewrite !ms0_eq, span_idem. reflexivity.
Qed.

Lemma pipeline_ws : forall R w s, sforall is_space w = true ->
  pipeline R (w ++ s) = pipeline R s.
Proof.
  intros R w s H. unfold pipeline, preceded, p_bind, opt, all_consuming.
  rewrite (ws_skip _ (tag "|")) by exact H.
  destruct (ws (tag "|") s); auto.
  unfold p_bind. rewrite (ws_skip _ (separated_list0 _ _)) by exact H. reflexivity.
Qed.
Lemma parse_ws : forall w s, all_chars white w -> parse (w ++ s) = parse s.
Proof.
  intros w s H. apply (all_chars_sforall white is_space w is_space_spec) in H.
  rewrite <- (parse_fuel (S (String.length (w ++ s))) s) by (rewrite length_append; lia).
  unfold parse, parse_with. now rewrite pipeline_ws.
Qed.

(** First non-blank character *)
Lemma ws_tag_pipe_err : forall s, stops (fun c => Ascii.eqb c "|"%char) (snd (span is_space s)) ->
  ws (tag "|") s = PErr.
Proof.
  intros s H. unfold ws, delimited, p_bind. rewrite ms0_eq.
  destruct (snd (span is_space s)) as [|c r]; cbn in *; [ reflexivity | ].
  unfold tag, strip_prefix. rewrite Ascii.eqb_sym, H. reflexivity.
Qed.
Lemma parse_pipe : forall s, stops (fun c => Ascii.eqb c "|"%char) (snd (span is_space s)) ->
  parse ("|" ++ s) = parse s.
Proof.
  intros s H.
  rewrite <- (parse_fuel (S (String.length ("|" ++ s))) s) by (cbn; lia).
  unfold parse, parse_with.
  assert (pipeline (level (S (String.length ("|" ++ s)))) ("|" ++ s)
          = pipeline (level (S (String.length ("|" ++ s)))) s) as ->; [ | reflexivity ].
  set (R := level _).
  assert (forall t u, opt (ws (tag "|")) t = POk u None \/ (exists o, opt (ws (tag "|")) t = POk u (Some o)) ->
            pipeline R t = all_consuming (ws (separated_list0 (ws (tag "|")) (command R))) u) as P.
  { intros t u [E|[o E]]; unfold pipeline, preceded, p_bind; now rewrite E. }
  rewrite (P s s) by (left; unfold opt; now rewrite (ws_tag_pipe_err s H)).
  rewrite (P _ (snd (span is_space s))).
  { unfold all_consuming, p_bind. now rewrite ws_skip_all. }
  right. exists "|"%string. unfold opt.
  assert (ws (tag "|") ("|" ++ s) = POk (snd (span is_space s)) "|"%string) as ->.
  { unfold ws, delimited, p_bind. rewrite ms0_eq. cbn -[multispace0].
    rewrite ms0_eq. reflexivity. }
  reflexivity.
Qed.
(** What is left after skipping white space *)
Lemma skipped_split : forall s, exists w, s = (w ++ snd (span is_space s))%string /\
  sforall is_space w = true.
Proof.
  induction s as [|c s [w [E H]]]; cbn.
  - exists EmptyString. auto.
  - destruct (is_space c) eqn:Ec.
    + exists (String c w). destruct (span is_space s) as [x y]. cbn in *. rewrite <- E, Ec. auto.
    + exists EmptyString. auto.
Qed.
Lemma parse_pipe_spec : forall s,
  (forall w t, s = (w ++ String "|" t)%string -> ~ all_chars white w) ->
  parse ("|" ++ s) = parse s.
Proof.
  intros s H. apply parse_pipe. destruct (skipped_split s) as [w [E Hw]].
  destruct (snd (span is_space s)) as [|c t]; cbn; auto.
  destruct (Ascii.eqb_spec c "|"%char) as [->|]; auto.
  exfalso. apply (H w t E). now apply (all_chars_sforall white is_space w is_space_spec).
Qed.

(** ** Command keywords (C06) *)
Definition not_white (c : ascii) : Prop := ~ white c.
Lemma strip_nc_word : forall p w w' r, same_word w w' ->
  strip_prefix_nc p (w ++ r) = strip_prefix_nc p (w' ++ r)
  \/ exists x x' a a', strip_prefix_nc p (w ++ r) = Some (String a x ++ r)%string /\
                  strip_prefix_nc p (w' ++ r) = Some (String a' x' ++ r)%string /\
                  is_suffix (String a x) w /\ is_suffix (String a' x') w'.
Proof.
  intros p w w' r H. revert p. induction H as [|c d s t Hcd H IH]; intro p.
  - left. reflexivity.
  - destruct p as [|e p].
    + right. exists s, t, c, d. repeat split; try reflexivity; apply suffix_refl.
    + cbn. apply lower_c_same in Hcd. rewrite <- Hcd.
      destruct (Ascii.eqb (lower_c e) (lower_c c)); [ | left; reflexivity ].
      destruct (IH p) as [E|(x & x' & a & a' & E1 & E2 & E3 & E4)].
      * left. exact E.
      * right. exists x, x', a, a'. repeat split; auto.
        -- eapply suffix_trans; [ exact E3 | apply suffix_cons ].
        -- eapply suffix_trans; [ exact E4 | apply suffix_cons ].
Qed.
Lemma all_chars_suffix : forall P x w, is_suffix x w -> all_chars P w -> all_chars P x.
Proof.
  intros P x w [p ->]. induction p as [|c p IH]; cbn; auto. intros [_ H]. auto.
Qed.
Lemma white_same : forall c d, same_letter c d -> ~ white c -> ~ white d.
Proof. unfold white, same_letter. intros c d H. cbn. intros Hc Hd. destruct H as [->|H]; [ tauto | ]. lia. Qed.
Lemma not_white_same_word : forall w w', same_word w w' -> all_chars not_white w -> all_chars not_white w'.
Proof. induction 1; cbn; auto. intros [H1 H2]. split; auto. eapply white_same; eauto. Qed.
Lemma word_end_err : forall a x r, all_chars not_white (String a x) ->
  (multispace1 <|> eof) (String a x ++ r)%string = PErr.
Proof.
  intros a x r [Ha _]. unfold p_or, multispace1, take_while1. cbn.
  apply is_space_false in Ha. rewrite Ha. reflexivity.
Qed.
Lemma match_word_ci_aux : forall (raw : Parser string) w w' r,
  (exists y o o', raw (w ++ r)%string = POk y o /\ raw (w' ++ r)%string = POk y o')
  \/ (raw (w ++ r)%string = PErr /\ raw (w' ++ r)%string = PErr)
  \/ (exists a x a' x' o o', raw (w ++ r)%string = POk (String a x ++ r)%string o /\
         raw (w' ++ r)%string = POk (String a' x' ++ r)%string o' /\
         is_suffix (String a x) w /\ is_suffix (String a' x') w') ->
  all_chars not_white w -> all_chars not_white w' ->
  match_word raw (w ++ r)%string = match_word raw (w' ++ r)%string.
Proof.
  intros raw w w' r H Hw Hw'. unfold match_word, p_bind at 1. unfold p_bind at 2.
  destruct H as [(y & o & o' & E & E')|[[E E']|(a & x & a' & x' & o & o' & E & E' & S & S')]];
    rewrite E, E'; auto.
  unfold p_bind. rewrite !word_end_err; auto; eapply all_chars_suffix; eauto.
Qed.
Lemma tag_nc_cases : forall name w w' r, same_word w w' ->
  (exists y o o', tag_no_case name (w ++ r)%string = POk y o /\ tag_no_case name (w' ++ r)%string = POk y o')
  \/ (tag_no_case name (w ++ r)%string = PErr /\ tag_no_case name (w' ++ r)%string = PErr)
  \/ (exists a x a' x' o o', tag_no_case name (w ++ r)%string = POk (String a x ++ r)%string o /\
         tag_no_case name (w' ++ r)%string = POk (String a' x' ++ r)%string o' /\
         is_suffix (String a x) w /\ is_suffix (String a' x') w').
Proof.
  intros name w w' r H. unfold tag_no_case.
  destruct (strip_nc_word name w w' r H) as [E|(x & x' & a & a' & E1 & E2 & S)].
  - rewrite <- E. destruct (strip_prefix_nc name (w ++ r)); [ left | right; left ]; eauto.
  - right. right. rewrite E1, E2. exists a, x, a', x'. do 2 eexists. eauto.
Qed.
Lemma match_name_ci : forall name w w' r, same_word w w' -> all_chars not_white w ->
  match_name name (w ++ r)%string = match_name name (w' ++ r)%string.
Proof.
  intros. apply match_word_ci_aux; auto. now apply tag_nc_cases.
  eapply not_white_same_word; eauto.
Qed.
Lemma match_bin_ci : forall w w' r, same_word w w' -> all_chars not_white w ->
  match_word (tag_no_case "bin" <|> tag_no_case "bucket") (w ++ r)%string
  = match_word (tag_no_case "bin" <|> tag_no_case "bucket") (w' ++ r)%string.
Proof.
  intros w w' r H Hw. apply match_word_ci_aux; auto; [ | eapply not_white_same_word; eauto ].
  unfold p_or.
  destruct (tag_nc_cases "bin" w w' r H) as [(y & o & o' & E & E')|[[E E']|(a & x & a' & x' & o & o' & E & E' & S & S')]];
    rewrite E, E'.
  - left. eauto.
  - now apply tag_nc_cases.
  - right. right. exists a, x, a', x', o, o'. auto.
Qed.
Lemma cmd_ci : forall name body w w' r, same_word w w' -> all_chars not_white w ->
  cmd name body (w ++ r)%string = cmd name body (w' ++ r)%string.
Proof.
  intros. unfold cmd, preceded, p_bind. now rewrite (match_name_ci name w w' r).
Qed.

Definition is_search (c : Command) : Prop := match c with CSearch _ => True | _ => False end.
Definition same_or_search (x y : PR Command) : Prop :=
  x = y \/ ((forall r c, x = POk r c -> is_search c) /\ (forall r c, y = POk r c -> is_search c)).
Lemma sos_or : forall (p q : Parser Command) s s',
  p s = p s' -> same_or_search (q s) (q s') -> same_or_search ((p <|> q) s) ((p <|> q) s').
Proof. intros p q s s' E H. unfold p_or. rewrite E. destruct (p s'); auto; now left. Qed.
Lemma p_search_search : forall R s r c, p_search R s = POk r c -> is_search c.
Proof.
  intros R s r c. unfold p_search, preceded, p_bind, p_ret.
  destruct ((match_name "search" <|> p_map (fun _ => tt) multispace0) s); try discriminate.
  destruct (comma_or_space_separated_list1 (expr R) rest); try discriminate.
  destruct (p_unwrap _ _); try discriminate. intro H. injection H as _ <-. exact I.
Qed.
Lemma command_ci : forall R w w' r, same_word w w' -> all_chars not_white w ->
  same_or_search (command R (w ++ r)%string) (command R (w' ++ r)%string).
Proof.
  intros R w w' r H Hw. unfold command.
  repeat (apply sos_or; [ first [ now apply cmd_ci | unfold preceded, p_bind; now rewrite (match_bin_ci w w' r) ] | ]).
  right. split; apply p_search_search.
Qed.
Lemma letters_not_white : forall w, all_chars letter w -> all_chars not_white w.
Proof.
  induction w as [|c w IH]; cbn; auto. intros [H1 H2]. split; auto.
  unfold not_white, letter, white in *. cbn. lia.
Qed.
Lemma command_keyword_case : forall depth w w' args rest c,
  same_word w w' -> all_chars letter w ->
  command (level depth) (w ++ args) = POk rest c -> ~ is_search c ->
  command (level depth) (w' ++ args) = POk rest c.
Proof.
  intros depth w w' args rest c H Hw E Hn.
  destruct (command_ci (level depth) w w' args H (letters_not_white _ Hw)) as [<-|[S _]]; auto.
  exfalso. apply Hn. eapply S; eauto.
Qed.
Lemma strip_nc_same : forall w s r, same_word w s -> strip_prefix_nc s (w ++ r) = Some r.
Proof.
  intros w s r H. induction H as [|c d s t Hcd H IH]; cbn; auto.
  apply lower_c_same in Hcd. rewrite Hcd, Ascii.eqb_refl. exact IH.
Qed.
Lemma search_keyword_case : forall depth w w' args,
  same_word w "search" -> same_word w' "search" -> next_is white args ->
  command (level depth) (w ++ args) = command (level depth) (w' ++ args).
Proof.
  intros depth w w' args H H' Ha.
  assert (Hww : same_word w w').
  { clear - H H'. revert w' H'. remember "search"%string as t eqn:Et. clear Et.
    induction H as [|c d s t Hcd H IH]; intros w' H'; inversion H'; subst; constructor; auto.
    match goal with X : same_letter _ _ |- _ => apply lower_c_same in X end.
    apply lower_c_same in Hcd. apply lower_c_same. congruence. }
  assert (Hnw : all_chars not_white w).
  { apply same_word_sym in H. eapply not_white_same_word; [ exact H | ].
    cbn. unfold not_white, white. cbn. repeat split; lia. }
  assert (E : p_search (level depth) (w ++ args) = p_search (level depth) (w' ++ args)).
  { assert (forall u, same_word u "search" -> exists y, match_name "search" (u ++ args)%string = POk y tt) as G.
    { intros u Hu. unfold match_name, match_word, p_bind, tag_no_case.
      rewrite strip_nc_same by exact Hu. destruct args as [|a args]; cbn in *.
      - eexists. reflexivity.
      - apply is_space_spec in Ha. unfold p_or, multispace1, take_while1. cbn. rewrite Ha.
        destruct (span is_space args). eexists. reflexivity. }
    unfold p_search, preceded. unfold p_bind at 1. unfold p_bind at 3.
    destruct (G w H) as [y Ey]. pose proof (match_name_ci "search" w w' args Hww Hnw) as M.
    unfold p_or. rewrite <- M, Ey. reflexivity. }
  unfold command.
  repeat match goal with
  | |- (?p <|> ?q) ?s = (?p <|> ?q) ?s' =>
      let F := fresh in assert (F : p s = p s');
        [ first [ now apply cmd_ci | unfold preceded, p_bind; now rewrite (match_bin_ci w w' args) ] | ];
      change (match p s with PErr => q s | r => r end = match p s' with PErr => q s' | r => r end);
      rewrite F; clear F;
      match goal with |- match ?t with _ => _ end = _ => destruct t; [ reflexivity | | reflexivity | reflexivity ] end
  end.
  exact E.
Qed.
