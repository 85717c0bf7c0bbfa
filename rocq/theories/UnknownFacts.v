(** Options a command does not have (C83). *)
From Coq Require Import Lia.
From Verif Require Import Str SplAst Nom Lexer Parser CmdParser ParserFacts ParserTotal ParserFuel.
From Verif Require Import SpecText SpecExpr SpecSpell SpecOptions LexFacts TokenFacts NameFacts ExprFacts LogicFacts EvalFacts SpellFacts SpellOptions.

Lemma many_fuel : forall A (p : Parser A) f s r l, many0_go p f s = POk r l -> forall f', f <= f' -> many0_go p f' s = POk r l.
Proof.
  intros A p f. induction f as [|f IH]; intros s r l H [|f'] Hf; try discriminate; try lia.
  cbn [many0_go] in *. destruct (p s) as [r1 a| | |]; auto. destruct (Nat.eqb _ _); auto.
  destruct (many0_go p f r1) as [r2 l2| | |] eqn:E; try discriminate. rewrite (IH _ _ _ E) by lia. exact H.
Qed.
Lemma opts_more : forall kv u b x r o, option_item kv u -> blanks b -> stops is_space x -> many0 (ws field_and_constant) x = POk r o ->
  many0 (ws field_and_constant) (u ++ b ++ x)%string = POk r (kv :: o).
Proof.
  intros kv u b x r o Hu Hb Hx H. unfold many0 in *. set (f := String.length x) in *. cbn [many0_go].
  rewrite (ws_ok _ _ _ (b ++ x)%string kv).
  - rewrite skip_spaces by (auto; now apply blanks_spaces).
    match goal with |- context [Nat.eqb ?y ?z] => destruct (Nat.eqb_spec y z) as [E|_] end.
    { rewrite !length_append in E. destruct b; [ destruct Hb; congruence | cbn in E; lia ]. }
    rewrite (many_fuel _ _ _ _ _ _ H); [ reflexivity | ]. rewrite !length_append. subst f. destruct b; [ destruct Hb; congruence | cbn; lia ].
  - rewrite skip_stops by (apply begins_stops; eapply option_stops; eauto). apply option_read; auto. now apply blanks_tok.
Qed.
Lemma match_more : forall A (f : Options -> res A) kv u b x r a, (forall o, f (kv :: o) = f o) -> option_item kv u -> blanks b -> stops is_space x ->
  match_options f x = POk r a -> match_options f (u ++ b ++ x)%string = POk r a.
Proof.
  intros A f kv u b x r a Hf Hu Hb Hx. unfold match_options, unwrapped, p_map, command_options, p_bind.
  destruct (many0 (ws field_and_constant) x) as [r1 o| | |] eqn:E; try discriminate. rewrite (opts_more _ _ _ _ _ _ Hu Hb Hx E).
  unfold p_ret. now rewrite Hf.
Qed.
Lemma get_skip : forall key v o k, key <> k -> opt_get ((key, v) :: o) k = opt_get o k.
Proof. intros key v o k H. cbn [opt_get]. destruct (opt_get o k); auto. destruct (String.eqb_spec key k); [ congruence | reflexivity ]. Qed.

(** The body of a command reads the same with the option *)
Definition body_more (kv : string * Constant) (p : Recs -> Parser Command) : Prop :=
  forall R u b x r c, option_item kv u -> blanks b -> stops is_space x -> p R x = POk r c -> p R (u ++ b ++ x)%string = POk r c.
Lemma bind_more : forall A (f : Options -> res A) kv (q : Recs -> A -> Parser Command), (forall o, f (kv :: o) = f o) ->
  body_more kv (fun R => p_bind (match_options f) (q R)).
Proof.
  intros A f kv q Hf R u b x r c Hu Hb Hx. unfold p_bind. destruct (match_options f x) as [r1 a| | |] eqn:E; try discriminate.
  now rewrite (match_more _ _ _ _ _ _ _ _ Hf Hu Hb Hx E).
Qed.
Lemma name_at : forall k b x, blanks b -> stops is_space x -> all_chars letter k -> match_name k (k ++ b ++ x)%string = POk x tt.
Proof.
  intros k b x Hb Hx Hk. unfold match_name, match_word, p_bind. rewrite tag_nc_read by now apply same_word_lower.
  unfold p_or. rewrite blanks_read; auto.
Qed.
Definition splits (k : string) (p : Recs -> Parser Command) : Prop :=
  forall R b x, blanks b -> stops is_space x -> command R (k ++ b ++ x)%string = match p R x with PErr => p_search R (k ++ b ++ x)%string | r => r end.
Ltac letters := cbn; unfold letter; cbn; repeat split; lia.
Ltac split_command := intros R b x Hb Hx; unfold command;
  do 34 try (rewrite or_err by reflexivity); unfold p_or at 1; unfold cmd at 1; unfold preceded at 1; unfold p_bind at 1;
  rewrite name_at by (auto; letters); match goal with |- context [match ?q x with _ => _ end] => destruct (q x); reflexivity end.
Ltac same_options H := intro; repeat match goal with
  | |- context [opt_get ((?k, ?v) :: ?l) ?n] => rewrite (get_skip k v l n) by (intros ->; apply H; cbn; tauto) end; reflexivity.
Ltac unget := unfold get_boolean, get_string, get_string_option, get_int, get_int_option, get_span_option.
Lemma bin_at : forall k b x, k = "bin"%string \/ k = "bucket"%string -> blanks b -> stops is_space x ->
  match_word (tag_no_case "bin" <|> tag_no_case "bucket") (k ++ b ++ x)%string = POk x tt.
Proof.
  intros k b x Hk Hb Hx. unfold match_word, p_bind.
  assert ((tag_no_case "bin" <|> tag_no_case "bucket") (k ++ b ++ x)%string = POk (b ++ x)%string k) as ->.
  { destruct Hk as [-> | ->]; [ apply or_ok | rewrite or_err by reflexivity ]; apply tag_nc_read; now apply same_word_lower. }
  unfold p_or. now rewrite blanks_read.
Qed.
Lemma option_bodies : forall k known, In (k, known) option_names -> exists p,
  splits k p /\ (forall key v, ~ In key known -> body_more (key, v) p).
Proof.
  intros k known H. unfold option_names in H.
  destruct H as [E|H]; [ injection E as <- <-; exists (fun _ => p_addtotals); split; [ split_command | intros key v H ] | ].
  { apply (bind_more _ addtotals_options). unfold addtotals_options. unget. same_options H. }
  destruct H as [E|H]; [ injection E as <- <-; exists (fun _ => p_bin); split; [ intros R b x Hb Hx; unfold command; rewrite or_err by reflexivity; unfold p_or at 1; unfold preceded at 1; unfold p_bind at 1; rewrite bin_at by auto; destruct (p_bin x); reflexivity | intros key v H ] | ].
  { apply (bind_more _ bin_options). unfold bin_options. unget. same_options H. }
  destruct H as [E|H]; [ injection E as <- <-; exists (fun _ => p_bin); split; [ intros R b x Hb Hx; unfold command; rewrite or_err by reflexivity; unfold p_or at 1; unfold preceded at 1; unfold p_bind at 1; rewrite bin_at by auto; destruct (p_bin x); reflexivity | intros key v H ] | ].
  { apply (bind_more _ bin_options). unfold bin_options. unget. same_options H. }
  destruct H as [E|H]; [ injection E as <- <-; exists (fun _ => p_collect); split; [ split_command | intros key v H ] | ].
  { apply (bind_more _ collect_options). unfold collect_options. unget. same_options H. }
  destruct H as [E|H]; [ injection E as <- <-; exists (fun _ => p_convert); split; [ split_command | intros key v H ] | ].
  { apply bind_more. unget. same_options H. }
  destruct H as [E|H]; [ injection E as <- <-; exists (fun _ => p_datamodel); split; [ split_command | intros key v H ] | ].
  { apply (bind_more _ datamodel_options). unfold datamodel_options. unget. same_options H. }
  destruct H as [E|H]; [ injection E as <- <-; exists p_eventstats; split; [ split_command | intros key v H ] | ].
  { apply bind_more. unget. same_options H. }
  destruct H as [E|H]; [ injection E as <- <-; exists (fun _ => p_format); split; [ split_command | intros key v H ] | ].
  { apply (bind_more _ format_options). unfold format_options. unget. same_options H. }
  destruct H as [E|H]; [ injection E as <- <-; exists p_inputlookup; split; [ split_command | intros key v H ] | ].
  { apply (bind_more _ inputlookup_options). unfold inputlookup_options. unget. same_options H. }
  destruct H as [E|H]; [ injection E as <- <-; exists p_join; split; [ split_command | intros key v H ] | ].
  { apply (bind_more _ join_options). unfold join_options. unget. same_options H. }
  destruct H as [E|H]; [ injection E as <- <-; exists (fun _ => p_makeresults); split; [ split_command | intros key v H ] | ].
  { apply (bind_more _ makeresults_options). unfold makeresults_options. unget. same_options H. }
  destruct H as [E|H]; [ injection E as <- <-; exists (fun _ => p_rex); split; [ split_command | intros key v H ] | ].
  { apply (bind_more _ rex_options). unfold rex_options. unget. same_options H. }
  destruct H as [E|H]; [ injection E as <- <-; exists p_stats; split; [ split_command | intros key v H ] | ].
  { apply (bind_more _ stats_options). unfold stats_options. unget. same_options H. }
  destruct H as [E|H]; [ injection E as <- <-; exists p_streamstats; split; [ split_command | intros key v H ] | ].
  { apply (bind_more _ streamstats_options). unfold streamstats_options. unget. same_options H. }
  destruct H as [E|H]; [ injection E as <- <-; exists p_tstats; split; [ split_command | intros key v H ] | ].
  { apply (bind_more _ tstats_options). unfold tstats_options. unget. same_options H. }
  destruct H.
Qed.

(** ** The whole text *)
Lemma search_only : forall R s r c, p_search R s = POk r c -> exists e, c = CSearch e.
Proof.
  intros R s r c. unfold p_search, preceded, p_bind. destruct ((_ <|> _) s) as [r1 a| | |]; try discriminate.
  destruct (comma_or_space_separated_list1 _ r1) as [r2 l| | |]; try discriminate. destruct (p_unwrap _ r2) as [r3 e| | |]; try discriminate.
  unfold p_ret. intro H. injection H as <- <-. eauto.
Qed.
Lemma pipeline_eq : forall R s, stops is_space s -> tag "|" s = PErr ->
  pipeline R s = match separated_list0 (ws (tag "|")) (command R) s with
                 | POk r l => match eof (skip r) with POk r' _ => POk r' l | PErr => PErr | PPanic => PPanic | PFuel => PFuel end
                 | PErr => PErr | PPanic => PPanic | PFuel => PFuel end.
Proof.
  intros R s Hs Ht. unfold pipeline, preceded, p_bind, opt. rewrite ws_err by now rewrite skip_stops.
  unfold all_consuming, p_bind. unfold ws at 1, delimited, p_bind. rewrite ms0_eq, span_stops by auto. cbn [fst snd].
  destruct (separated_list0 _ _ s) as [r l| | |]; auto. rewrite ms0_eq. unfold p_ret. fold (skip r).
  destruct (eof (skip r)) as [? []| | |]; reflexivity.
Qed.
Lemma keyword_start : forall k known b x, In (k, known) option_names -> stops is_space (k ++ b ++ x) /\ tag "|" (k ++ b ++ x)%string = PErr.
Proof.
  intros k known b x H. unfold option_names in H.
  repeat (destruct H as [E|H]; [ injection E as <- <-; split; reflexivity | ]). destruct H.
Qed.
Lemma unknown_ignored : forall k known key v u b b' x c p, In (k, known) option_names -> ~ In key known ->
  option_item (key, v) u -> blanks b -> blanks b' -> stops is_space x -> (forall e, c <> CSearch e) ->
  parse (k ++ b ++ x) = Some (Ok (c :: p)) -> parse (k ++ b ++ u ++ b' ++ x) = Some (Ok (c :: p)).
Proof.
  intros k known key v u b b' x c p Hk Hkey Hu Hb Hb' Hx Hc H. destruct (option_bodies k known Hk) as (q & Hs & Hm).
  set (n := S (String.length (k ++ b ++ u ++ b' ++ x)%string)).
  assert (String.length (k ++ b ++ x)%string < n) as Hn by (subst n; rewrite !length_append; lia).
  pose proof (parse_pipeline _ _ n H Hn) as P.
  assert (stops is_space (u ++ b' ++ x)) as Hx' by (apply begins_stops; eapply option_stops; eauto).
  destruct (keyword_start k known b x Hk) as [S1 T1]. rewrite pipeline_eq in P by auto. unfold separated_list0 in P.
  rewrite Hs in P by auto. pose proof (search_only (level n) (k ++ b ++ x)%string) as N.
  assert (exists r, q (level n) x = POk r c /\ match sep_go (ws (tag "|")) (command (level n)) (S (String.length r)) r with
    | POk r' l => match eof (skip r') with POk r'' _ => POk r'' (c :: l) | PErr => PErr | PPanic => PPanic | PFuel => PFuel end
    | PErr => PErr | PPanic => PPanic | PFuel => PFuel end = POk EmptyString (c :: p)) as (r & E1 & E2).
  { assert (G : forall r a, match match sep_go (ws (tag "|")) (command (level n)) (S (String.length r)) r with POk r' l => POk r' (a :: l) | PErr => PErr | PPanic => PPanic | PFuel => PFuel end with
       | POk r l => match eof (skip r) with POk r' _ => POk r' l | PErr => PErr | PPanic => PPanic | PFuel => PFuel end
       | PErr => PErr | PPanic => PPanic | PFuel => PFuel end = POk EmptyString (c :: p) ->
       a = c /\ match sep_go (ws (tag "|")) (command (level n)) (S (String.length r)) r with
    | POk r' l => match eof (skip r') with POk r'' _ => POk r'' (c :: l) | PErr => PErr | PPanic => PPanic | PFuel => PFuel end
    | PErr => PErr | PPanic => PPanic | PFuel => PFuel end = POk EmptyString (c :: p)).
    { intros r a. destruct (sep_go _ _ _ r) as [r1 l1| | |]; try discriminate. destruct (eof (skip r1)); try discriminate.
      intro X. injection X as -> -> ->. auto. }
    destruct (q (level n) x) as [r a| | |] eqn:Eq; try discriminate.
    - apply G in P. destruct P as [-> P]. eauto.
    - destruct (p_search (level n) (k ++ b ++ x)%string) as [r a| | |] eqn:Es; try discriminate.
      + apply G in P. destruct P as [-> _]. destruct (N _ _ eq_refl) as [e ->]. now destruct (Hc e).
      + destruct (eof (skip (k ++ b ++ x)%string)); discriminate. }
  pose proof (Hm key v Hkey (level n) u b' x r c Hu Hb' Hx E1) as E3.
  unfold parse, parse_with. fold n. destruct (keyword_start k known b (u ++ b' ++ x)%string Hk) as [S2 T2].
  rewrite pipeline_eq by auto. unfold separated_list0. rewrite Hs by auto. rewrite E3.
  destruct (sep_go (ws (tag "|")) (command (level n)) (S (String.length r)) r) as [r1 l1| | |]; try discriminate.
  destruct (eof (skip r1)); try discriminate. injection E2 as -> ->. reflexivity.
Qed.
Lemma unknown_options_ignored : forall k known key v u b b' x c p, In (k, known) option_names -> ~ In key known ->
  option_item (key, v) u -> blanks b -> blanks b' -> match x with String c _ => ~ white c | EmptyString => True end -> (forall e, c <> CSearch e) ->
  parse (k ++ b ++ x) = Some (Ok (c :: p)) -> parse (k ++ b ++ u ++ b' ++ x) = Some (Ok (c :: p)).
Proof.
  intros k known key v u b b' x c p Hk Hkey Hu Hb Hb' Hx. apply (unknown_ignored k known key v); auto.
  destruct x as [|d x]; [ exact I | ]. cbn. now apply is_space_false.
Qed.
