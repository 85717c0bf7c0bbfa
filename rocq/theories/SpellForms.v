(** What the commands regex, rex, mvcombine, lookup, inputlookup, bin, spath, return,
    join and multisearch read (C69). *)
From Coq Require Import Lia.
From Verif Require Import Str SplAst Nom Lexer Parser CmdParser ParserFacts ParserTotal ParserFuel.
From Verif Require Import SpecText SpecExpr SpecSpell LexFacts TokenFacts NameFacts ExprFacts LogicFacts EvalFacts SpellFacts.
From Verif Require Import SpellOptions SpellMore SpellBodies.

(** ** regex, rex *)
Lemma raw_field : forall x s rest, raw_item x s -> after_cmd rest -> exists y, field (s ++ rest) = POk rest y.
Proof.
  intros x s rest H Hr. pose proof (raw_read x s rest H) as E. destruct H as (_ & _ & ->).
  rewrite in_quotes_eq in *. unfold field. erewrite or_ok; [ eauto | ]. unfold field_fmt, recognize, separated_list1, p_bind.
  rewrite or_err by reflexivity. rewrite E.
  assert (sep_go (tag ".") (token_not_t_f <|> double_quoted) (S (String.length rest)) rest = POk rest []) as ->; [ | reflexivity ].
  cbn [sep_go]. assert (tag "." rest = PErr) as ->; [ | reflexivity ].
  clear E. destruct Hr as (b & tail & -> & Hb & Ht). destruct b as [|c b].
  - cbn [append]. revert Ht. revert tail. by_tail.
  - cbn [append]. apply andb_true_iff in Hb. destruct Hb as [Hb _]. destruct (space_char c Hb) as [-> |[-> |[-> | ->]]]; reflexivity.
Qed.
Lemma raw_stops : forall x s y, raw_item x s -> stops is_space (s ++ y).
Proof. intros x s y (_ & _ & ->). reflexivity. Qed.
Lemma regex_body : forall x s, raw_item x s -> reads_body (fun _ => p_regex) (CRegex None x) s.
Proof.
  intros x s H. split; [ intro y; eapply raw_stops; eauto | ]. intros rest Hr. exists rest. split; auto. apply reads_const.
  unfold p_regex. unfold p_bind at 1. destruct (raw_field x s rest H Hr) as [y E].
  assert (opt (pair_ (ws field) (ws (tag "=" <|> tag "!="))) (s ++ rest)%string = POk (s ++ rest)%string None) as ->.
  { unfold opt, pair_, p_bind. rewrite (stops_skip _ _ _ _ _ (raw_stops x s rest H) E).
    rewrite ws_err; [ reflexivity | ]. rewrite skip_skip. pose proof (after_tail rest Hr) as Ht. revert Ht. generalize (skip rest). by_tail. }
  unfold p_bind. now rewrite (raw_read x s rest H).
Qed.
Lemma regex_field_body : forall f b1 op b2 x s, field_name f -> spaces b1 -> spaces b2 -> op = "="%string \/ op = "!="%string -> raw_item x s ->
  reads_body (fun _ => p_regex) (CRegex (Some (f, op)) x) (f ++ b1 ++ op ++ b2 ++ s).
Proof.
  intros f b1 op b2 x s Hf Hb1 Hb2 Hop Hs. split; [ intro y; rewrite append_assoc_s; solve [ apply ident_stops; auto ] | ].
  intros rest Hr. exists rest. split; auto. apply reads_const. rewrite !append_assoc_s.
  unfold p_regex. unfold p_bind at 1.
  assert (Hst : stops is_space (op ++ b2 ++ s ++ rest)) by (destruct Hop as [-> | ->]; reflexivity).
  assert (opt (pair_ (ws field) (ws (tag "=" <|> tag "!="))) (f ++ b1 ++ op ++ b2 ++ s ++ rest)%string = POk (s ++ rest)%string (Some (f, op))) as ->.
  { unfold opt, pair_. unfold p_bind at 1. rewrite (stops_skip _ _ _ (b1 ++ op ++ b2 ++ s ++ rest)%string f).
    - unfold p_bind. rewrite ws_skip. rewrite (ws_ok _ _ _ (b2 ++ s ++ rest)%string op).
      + rewrite skip_spaces; auto. eapply raw_stops; eauto.
      + rewrite skip_spaces by auto. destruct Hop as [-> | ->]; reflexivity.
    - solve [ apply ident_stops; auto ].
    - apply field_ident; auto. destruct Hop as [-> | ->]; apply (spaces_then_tok b1); auto; split; reflexivity. }
  unfold p_bind. now rewrite (raw_read x s rest Hs).
Qed.
Lemma mode_get : forall o mode, (absent o "mode" /\ mode = None \/
    mode = Some "sed"%string /\ exists w, same_word w "sed" /\ (given o "mode" (KField w) \/ given o "mode" (KStr w))) ->
  exists m, get_string_option o "mode" = Ok m /\ option_map lower m = mode.
Proof.
  intros o mode [[Ha ->]|(-> & w & Hw & H)].
  - exists None. split; auto. unfold get_string_option. now rewrite absent_get.
  - exists (Some w). cbn. apply same_word_lower in Hw. rewrite Hw. split; auto.
    unfold get_string_option. destruct H as [H|H]; now rewrite (given_get _ _ _ H).
Qed.
Lemma rex_body : forall o a x s t c, listed0 blanks option_item o a -> raw_item x s -> beside a s t -> rex_says o x c ->
  reads_body (fun _ => p_rex) (CRex c) t.
Proof.
  intros o a x s t c Ho Hs Ht (mode & fld & maxm & off & Hmode & Hfld & Hmax & Hoff & ->).
  assert (Hb : forall y, begins (s ++ y)) by (intro y; destruct Hs as (_ & _ & ->); rewrite in_quotes_eq; split; [ reflexivity | discriminate ]).
  split; [ intro y; apply begins_stops; eapply beside_begins; eauto | ].
  intros rest Hr. exists rest. split; auto. apply reads_const. unfold p_rex. unfold p_bind at 1.
  rewrite (opts_first _ rex_options o a s t rest (mkRex fld maxm off mode "")); auto.
  - unfold p_bind. rewrite (raw_read x s rest Hs). reflexivity.
  - unfold rex_options. destruct (mode_get o mode Hmode) as (m & -> & Em). cbn [rbind]. rewrite Em.
    assert (match mode with Some m => if String.eqb m "sed" then Ok tt else Err | None => Ok tt end = Ok tt) as ->.
    { destruct Hmode as [[_ ->]|[-> _]]; reflexivity. }
    cbn [rbind]. says. reflexivity.
  - now apply begins_full.
  - apply begins_stops, Hb.
  - destruct Hs as (_ & _ & ->). rewrite in_quotes_eq. reflexivity.
Qed.

(** ** mvcombine *)
Lemma name_char_begins : forall c r, fchar c -> is_space c = false /\ tag "=" (String c r) = PErr.
Proof.
  intros c r H. split; [ now apply fchar_facts | ]. apply tag1_err.
  destruct (Ascii.eqb_spec "="%char c) as [<-|]; auto. exfalso.
  now apply (fchar_neq "="%char) in H; [ | nl | unfold digit; cbn; lia | cbn; intuition discriminate ].
Qed.
Lemma word_key_err : forall k w x, all_chars letter k -> field_name w -> no_option x ->
  pair_ (ws (tag_no_case k)) (ws (tag "=")) (w ++ x) = PErr.
Proof.
  intros k w x Hk Hw [Hx1 Hx2]. unfold pair_, p_bind. destruct (strip_prefix_nc k (w ++ x)) as [r|] eqn:E.
  - destruct (strip_nc_inv k w x r) as (a & b & -> & Ha & ->); auto; [ now apply tok_no_letter | ].
    erewrite (stops_skip _ (tag_no_case k)); [ | solve [ apply ident_stops; auto ] | unfold tag_no_case; now rewrite E ].
    rewrite ws_err; [ reflexivity | ]. rewrite skip_skip. destruct b as [|c b]; [ exact Hx2 | ].
    destruct (fname_chars _ Hw) as [_ Hc]. apply all_chars_app in Hc. destruct Hc as [_ [Hc _]].
    destruct (name_char_begins c (b ++ x) Hc) as [H1 H2]. cbn [append]. rewrite skip_stops by (cbn; now rewrite H1). exact H2.
  - rewrite ws_err; [ reflexivity | ]. rewrite skip_stops by solve [ apply ident_stops; auto ]. unfold tag_no_case. now rewrite E.
Qed.
Lemma mvcombine_body : forall f, field_name f -> reads_body (fun _ => p_mvcombine) (CMvCombine None f) f.
Proof.
  intros f Hf. split; [ intro; solve [ apply ident_stops; auto ] | ]. intros rest Hr. exists rest. split; auto. apply reads_const.
  unfold p_mvcombine. unfold p_bind at 1. unfold opt, preceded. unfold p_bind at 1. rewrite word_key_err; auto.
  - unfold p_bind. now rewrite field_ident by (auto; now apply after_ends).
  - cbn. unfold letter. cbn. lia.
  - now apply after_no_option.
Qed.
Lemma text_stops : forall d x, stops is_space (in_quotes d ++ x).
Proof. reflexivity. Qed.
Lemma text_read : forall d rest, plain_string d -> double_quoted (in_quotes d ++ rest) = POk rest d.
Proof. intros d rest Hd. destruct (plain_string_facts d Hd) as (Hne & Hp & Hw & _). now apply double_quoted_plain. Qed.
Lemma mvcombine_delim_body : forall w b1 b2 d b3 f, same_word w "delim" -> spaces b1 -> spaces b2 -> spaces b3 -> plain_string d -> field_name f ->
  reads_body (fun _ => p_mvcombine) (CMvCombine (Some d) f) (w ++ b1 ++ "=" ++ b2 ++ in_quotes d ++ b3 ++ f).
Proof.
  intros w b1 b2 d b3 f Hw H1 H2 H3 Hd Hf. assert (L : all_chars letter "delim") by (cbn; unfold letter; cbn; lia).
  split; [ intro x; rewrite append_assoc_s; eapply word_stops; eauto; discriminate | ].
  intros rest Hr. exists rest. split; auto. apply reads_const. rewrite !append_assoc_s. cbn [append].
  unfold p_mvcombine. unfold p_bind at 1. unfold opt, preceded. unfold p_bind at 1.
  change (String "=" (b2 ++ in_quotes d ++ b3 ++ f ++ rest)) with ("=" ++ b2 ++ in_quotes d ++ b3 ++ f ++ rest)%string.
  rewrite key_eq_read by (first [ assumption | discriminate | reflexivity ]).
  rewrite (ws_ok _ _ _ (b3 ++ f ++ rest)%string d).
  - rewrite skip_spaces by (auto; solve [ apply ident_stops; auto ]). unfold p_bind. now rewrite field_ident by (auto; now apply after_ends).
  - rewrite skip_stops by reflexivity. now apply text_read.
Qed.

(** ** bin, inputlookup *)
Lemma as_alias : forall f b1 w b2 n x, field_name f -> plain_ident n -> blanks b1 -> same_word w "as" -> blanks b2 -> tok_end lit_specials x ->
  aliased_field (f ++ b1 ++ w ++ b2 ++ n ++ x) = POk x (f, n).
Proof.
  intros f b1 w b2 n x Hf Hn H1 Hw H2 Hx. unfold aliased_field, separated_pair, p_bind.
  rewrite field_ident by (auto; now apply blanks_tok).
  rewrite as_read; auto; [ | now apply as_upper | solve [ apply ident_stops; auto ] | now apply as_stops ].
  rewrite (or_ok _ _ _ _ _ _ (token_ident n x Hn Hx)). reflexivity.
Qed.
Lemma no_alias : forall f x, field_name f -> tok_end lit_specials x -> tag_no_case "AS" (skip x) = PErr -> aliased_field (f ++ x) = PErr.
Proof. intros f x Hf Hx E. unfold aliased_field, separated_pair, p_bind. rewrite field_ident by auto. now rewrite ws_err. Qed.
Lemma after_no_as : forall rest, after_cmd rest -> tag_no_case "AS" (skip rest) = PErr.
Proof. intros rest Hr. pose proof (after_tail rest Hr) as Ht. revert Ht. generalize (skip rest). by_tail. Qed.
Lemma as_no_option : forall f new u x, field_name f -> as_part new u -> after_cmd x -> no_key ((f ++ u) ++ x).
Proof.
  intros f new u x Hf [[_ ->]|(n & b1 & w & b2 & Hn & Hb1 & Hw & Hb2 & _ & ->)] Hx; rewrite ?append_nil_r, ?append_assoc_s; apply word_no_key; auto.
  - now apply after_no_option.
  - apply letter_no_option; auto. eapply word_head; eauto; [ cbn; unfold letter; cbn; lia | discriminate ].
Qed.
Lemma bin_body : forall o a f new u t c, listed0 blanks option_item o a -> field_name f -> as_part new u -> beside a (f ++ u) t -> bin_says o c ->
  reads_body (fun _ => p_bin) (CBin (field_or_alias f new) c) t.
Proof.
  intros o a f new u t c Ho Hf Hu Ht (span & ms & bins & start & end_ & al & Hspan & Hms & Hbins & Hstart & Hend & Hal & ->).
  assert (Hb : forall y, begins ((f ++ u) ++ y)) by (intro y; rewrite append_assoc_s; solve [ apply ident_begins; auto ]).
  split; [ intro y; apply begins_stops; eapply beside_begins; eauto | ].
  intros rest Hr. exists rest. split; auto. apply reads_const. unfold p_bin. unfold p_bind at 1.
  rewrite (opts_first _ bin_options o a (f ++ u)%string t rest (mkBinOpts span ms bins start end_ al)); auto.
  - pose proof (after_ends rest Hr) as Hends. unfold p_bind. destruct Hu as [[-> ->]|(n & b1 & w & b2 & Hn & Hb1 & Hw & Hb2 & -> & ->)].
    + rewrite append_nil_r. rewrite or_err by (unfold p_map, p_bind; now rewrite no_alias by (auto; now apply after_no_as)).
      unfold p_map, p_bind. now rewrite field_ident.
    + rewrite !append_assoc_s. erewrite or_ok by (unfold p_map, p_bind; rewrite as_alias by auto; reflexivity). reflexivity.
  - unfold bin_options. says. reflexivity.
  - now apply begins_full.
  - apply begins_stops, Hb.
  - now apply (as_no_option f new u).
Qed.
Lemma inputlookup_opts : forall o a d x t c rest, listed0 blanks option_item o a -> plain_ident d -> beside a (d ++ x) t -> inputlookup_says o d c ->
  no_option (x ++ rest) ->
  match_options inputlookup_options (t ++ rest) = POk (d ++ x ++ rest)%string (mkInputLookup (il_append c) (il_strict c) (il_start c) (il_max c) "").
Proof.
  intros o a d x t c rest Ho Hd Ht (ap & st & sa & mx & H1 & H2 & H3 & H4 & ->) Hx. rewrite <- append_assoc_s.
  apply (opts_first _ inputlookup_options o a); auto.
  - unfold inputlookup_options. says. reflexivity.
  - destruct (ident_head d Hd) as (h & r & -> & _). discriminate.
  - rewrite append_assoc_s. solve [ apply ident_stops; auto ].
  - rewrite append_assoc_s. solve [ apply word_no_key; auto ].
Qed.
Lemma inputlookup_body : forall o a d t c, listed0 blanks option_item o a -> plain_ident d -> beside a d t -> inputlookup_says o d c ->
  reads_body p_inputlookup (CInputLookup c None) t.
Proof.
  intros o a d t c Ho Hd Ht Hc. split; [ intro y; apply begins_stops; eapply beside_begins; eauto; intro; solve [ apply ident_begins; auto ] | ].
  intros rest Hr. exists (skip rest). split; auto. exists 0. intros m _. rewrite <- (append_nil_r d) in Ht.
  unfold p_inputlookup. unfold p_bind at 1. rewrite (inputlookup_opts o a d EmptyString t c rest) by (auto; now apply after_no_option).
  cbn [append]. unfold p_bind at 1. rewrite (stops_skip _ token _ rest d) by first [ solve [ apply ident_stops; auto ] | apply token_ident; auto; now apply after_ends ].
  unfold p_bind at 1. rewrite (ws_ok _ _ _ (skip rest) None).
  - destruct Hc as (ap & st & sa & mx & H1 & H2 & H3 & H4 & ->). rewrite skip_skip. reflexivity.
  - rewrite skip_skip. unfold opt, preceded, p_bind. rewrite ws_err; [ reflexivity | ]. rewrite skip_skip.
    pose proof (after_tail rest Hr) as Hx. revert Hx. generalize (skip rest). by_tail.
Qed.
Lemma inputlookup_where_body : forall o a d b1 w b2 e s t c, listed0 blanks option_item o a -> plain_ident d -> blanks b1 -> same_word w "where" -> blanks b2 ->
  wf e -> writes 9 e s -> beside a (d ++ b1 ++ w ++ b2 ++ s) t -> inputlookup_says o d c ->
  reads_body p_inputlookup (CInputLookup c (Some (meaning e))) t.
Proof.
  intros o a d b1 w b2 e s t c Ho Hd Hb1 Hw Hb2 He Hs Ht Hc. assert (L : all_chars letter "where") by (cbn; unfold letter; cbn; lia).
  split; [ intro y; apply begins_stops; eapply beside_begins; eauto; intro; rewrite append_assoc_s; solve [ apply ident_begins; auto ] | ].
  intros rest Hr. exists (skip rest). split; auto.
  pose proof (written_reads 9 e s Hs He) as E. destruct (after_closed rest Hr) as [C1 C2]. destruct (ex_reads _ _ E rest C1 C2) as [n H].
  exists n. intros m Hm. pose proof (et_stops _ _ _ E rest) as Hst.
  unfold p_inputlookup. unfold p_bind at 1. rewrite (inputlookup_opts o a d (b1 ++ w ++ b2 ++ s)%string t c rest); auto.
  2:{ rewrite !append_assoc_s. apply letter_no_option; auto. eapply word_head; eauto. discriminate. }
  rewrite !append_assoc_s. assert (Hws : stops is_space (w ++ b2 ++ s ++ rest)) by (eapply word_stops; eauto; discriminate).
  unfold p_bind at 1. rewrite (stops_skip _ token _ (b1 ++ w ++ b2 ++ s ++ rest)%string d) by first [ solve [ apply ident_stops; auto ] | apply token_ident; auto; now apply blanks_tok ].
  unfold p_bind at 1. rewrite (ws_ok _ _ _ rest (Some (meaning e))).
  - destruct Hc as (ap & st & sa & mx & H1 & H2 & H3 & H4 & ->). reflexivity.
  - rewrite skip_skip. unfold opt, preceded, p_bind. rewrite ws_skip. rewrite as_read; auto. now rewrite (H m Hm).
Qed.

(** ** spath *)
Lemma key_word_read : forall k w x, same_word w k -> tag_no_case (k ++ "=") (w ++ "=" ++ x) = POk x (w ++ "=")%string.
Proof.
  intros k w x Hw. rewrite <- append_assoc_s. apply tag_nc_read. induction Hw; cbn [append]; constructor; auto; [ now left | constructor ].
Qed.
Lemma quoted_err : forall p x, field_name p -> double_quoted (p ++ x) = PErr.
Proof.
  intros p x Hp. destruct (ident_head p Hp) as (c & r & E & Hc). rewrite E. cbn [append]. unfold double_quoted, delimited, p_or, p_bind, dq.
  now rewrite !tag1_err by (apply (head_not c); auto; [ apply not_letter_code; cbn; lia | discriminate ]).
Qed.
Lemma path_read : forall p s rest, keyword_path p s -> after_cmd rest -> p_string (s ++ rest) = POk rest p.
Proof.
  intros p s rest [[Hp ->]|[Hp ->]] Hr.
  - apply string_name; [ exact Hp | apply lit_tok_end, after_ends, Hr | ].
    destruct Hr as (b & tail & -> & Hb & Ht). destruct b as [|c b].
    + cbn [append]. revert Ht. revert tail. by_tail.
    + cbn [append]. apply andb_true_iff in Hb. destruct Hb as [Hb _]. destruct (space_char c Hb) as [-> |[-> |[-> | ->]]]; reflexivity.
  - unfold p_string. apply or_ok. now apply text_read.
Qed.
Lemma path_stops : forall p s x, keyword_path p s -> stops is_space (s ++ x).
Proof. intros p s x [[Hp ->]|[Hp ->]]; [ solve [ apply ident_stops; auto ] | reflexivity ]. Qed.
Lemma path_no_key : forall k p s rest, In k ["input"; "output"; "path"]%string -> keyword_path p s -> after_cmd rest -> tag_no_case (k ++ "=") (s ++ rest) = PErr.
Proof.
  intros k p s rest Hk [[Hp ->]|[Hp ->]] Hr.
  - apply word_eq_err; auto; [ | apply fname_chars; auto | now apply after_no_eq ].
    destruct Hk as [<-|[<-|[<-|[]]]]; cbn; unfold letter; cbn; lia.
  - destruct Hk as [<-|[<-|[<-|[]]]]; reflexivity.
Qed.
Lemma key_part_read : forall k i a x, key_part k i a -> k <> EmptyString -> all_chars letter k -> stops is_space x -> (i = None -> tag_no_case (k ++ "=") x = PErr) ->
  opt (ws (preceded (tag_no_case (k ++ "=")) field)) (a ++ x)%string = POk x i.
Proof.
  intros k i a x [[-> ->]|(n & w & b & Hn & Hw & Hb & -> & ->)] Hk Hl Hx Hi.
  - cbn [append]. unfold opt. rewrite ws_err; [ reflexivity | ]. rewrite skip_stops by auto. unfold preceded, p_bind. now rewrite Hi.
  - unfold opt. rewrite !append_assoc_s. rewrite (ws_ok _ _ _ (b ++ x)%string n).
    + rewrite skip_spaces; auto. now apply blanks_spaces.
    + rewrite skip_stops by (eapply word_stops; eauto). unfold preceded, p_bind. cbn [append].
      change (String "=" (n ++ b ++ x)) with ("=" ++ n ++ b ++ x)%string. rewrite key_word_read by auto. apply field_ident; auto. now apply blanks_tok.
Qed.
Lemma key_part_stops : forall k i a x, key_part k i a -> k <> EmptyString -> all_chars letter k -> stops is_space x -> stops is_space (a ++ x).
Proof.
  intros k i a x [[-> ->]|(n & w & b & Hn & Hw & Hb & -> & ->)] Hk Hl Hx; auto. rewrite append_assoc_s. eapply word_stops; eauto.
Qed.
Lemma part_stops : forall p s x, path_part p s -> stops is_space (s ++ x).
Proof.
  intros p s x [H|(w & u & Hw & H & ->)]; [ eapply path_stops; eauto | ]. rewrite append_assoc_s. eapply word_stops; [ exact Hw | cbn; unfold letter; cbn; lia | discriminate ].
Qed.
Lemma part_no_key : forall k p s rest, In k ["input"; "output"]%string -> path_part p s -> after_cmd rest -> tag_no_case (k ++ "=") (s ++ rest) = PErr.
Proof.
  intros k p s rest Hk [H|(w & u & Hw & H & ->)] Hr; [ apply (path_no_key k p); auto; destruct Hk as [<-|[<-|[]]]; cbn; auto | ].
  rewrite !append_assoc_s. inversion Hw; subst. cbn [append]. unfold tag_no_case.
  match goal with H : same_letter _ _ |- _ => apply lower_c_same in H; rename H into E end.
  destruct Hk as [<-|[<-|[]]]; cbn [strip_prefix_nc append]; rewrite E; reflexivity.
Qed.
Lemma spath_body : forall i a o b p s, key_part "input" i a -> key_part "output" o b -> path_part p s ->
  reads_body (fun _ => p_spath) (CSPath (mkSPath p (match i with Some f => f | None => "_raw"%string end) o)) (a ++ b ++ s).
Proof.
  intros i a o b p s Hi Ho Hp. assert (L1 : all_chars letter "input") by (cbn; unfold letter; cbn; lia). assert (L2 : all_chars letter "output") by (cbn; unfold letter; cbn; lia).
  assert (S1 : forall x, stops is_space (s ++ x)) by (intro; eapply part_stops; eauto).
  assert (S2 : forall x, stops is_space (b ++ s ++ x)) by (intro; eapply key_part_stops; eauto; discriminate).
  split; [ intro x; rewrite !append_assoc_s; eapply key_part_stops; eauto; discriminate | ].
  intros rest Hr. exists (skip rest). split; auto. apply reads_const. rewrite !append_assoc_s.
  unfold p_spath. unfold p_bind at 1. assert (opt (ws (preceded (tag_no_case "input=") field)) (a ++ b ++ s ++ rest)%string = POk (b ++ s ++ rest)%string i) as ->.
  { apply (key_part_read "input"); auto; [ discriminate | ]. intros _. destruct Ho as [[-> ->]|(n & w & b' & Hn & Hw & Hb & -> & ->)].
      - cbn [append]. now apply (part_no_key "input" p); cbn; auto.
      - rewrite !append_assoc_s. inversion Hw; subst. cbn [append]. unfold tag_no_case. cbn [strip_prefix_nc append].
        match goal with H : same_letter _ _ |- _ => apply lower_c_same in H; rewrite H end. reflexivity. }
  unfold p_bind at 1. assert (opt (ws (preceded (tag_no_case "output=") field)) (b ++ s ++ rest)%string = POk (s ++ rest)%string o) as ->.
  { apply (key_part_read "output"); auto; [ discriminate | ]. intros _. apply (part_no_key "output" p); cbn; auto. }
  unfold p_bind at 1. rewrite (stops_skip _ _ _ rest p); auto.
  unfold preceded, p_bind, opt. destruct Hp as [Hp|(w & u & Hw & Hp & ->)].
  - assert (tag_no_case "path=" (s ++ rest) = PErr) as -> by (apply (path_no_key "path" p); cbn; auto). now apply path_read.
  - rewrite !append_assoc_s. change "path="%string with ("path" ++ "=")%string. rewrite key_word_read by exact Hw. now apply path_read.
Qed.

(** ** return *)
Lemma many_ext : forall A (p q : Parser A) s, (forall x, p x = q x) -> many1 p s = many1 q s.
Proof.
  intros A p q s E. unfold many1, p_bind. rewrite E. destruct (q s) as [r a| | |]; auto. unfold many0.
  assert (forall f x, many0_go p f x = many0_go q f x) as ->; auto.
  induction f as [|f IH]; intro x; cbn [many0_go]; auto. rewrite E. destruct (q x); auto. destruct (Nat.eqb _ _); auto. now rewrite IH.
Qed.
Lemma map_ws : forall A B (f : A -> B) (p : Parser A) s, p_map f (ws p) s = ws (p_map f p) s.
Proof.
  intros A B f p s. unfold ws, delimited, p_map, p_bind, p_ret. rewrite ms0_eq. destruct (p _) as [r a| | |]; auto. rewrite ms0_eq. reflexivity.
Qed.
Lemma return_read : forall (item : FieldOrAlias -> string -> Prop) (p : Parser FieldOrAlias) k l s rest, spaces k ->
  (forall f u x, item f u -> begins (u ++ x)) ->
  (forall f u x, item f u -> tok_end lit_specials x -> p (u ++ x)%string = POk x f) ->
  (forall x, after_cmd x -> p (skip x) = PErr) ->
  listed blanks item l s -> after_cmd rest -> many1 (ws p) (k ++ s ++ rest) = POk (skip rest) l.
Proof.
  intros item p k l s rest Hk Hb Hp He Hl Hr.
  destruct (many_reads blanks item (fun _ => p) after_cmd begins) with (k := k) (l := l) (s := s) (rest := rest) as [[n H] _]; auto.
  - intros f u Hu E. subst. specialize (Hb f EmptyString EmptyString Hu). destruct Hb.
  - exact begins_stops.
  - intros f u x Hu _. eauto.
  - exact blanks_spaces.
  - intros f u x Hu Hx. exists x. split; auto. apply reads_const. apply Hp; auto.
    destruct Hx as [Hx|(b & t & Hb' & _ & ->)]; [ now apply after_ends | now apply blanks_tok ].
  - intros x Hx. exists 0. intros. now apply He.
  - exact (H n (le_n n)).
Qed.

Lemma map_read : forall A B (f : A -> B) (p : Parser A) s r a, p s = POk r a -> p_map f p s = POk r (f a).
Proof. intros A B f p s r a E. unfold p_map, p_bind. now rewrite E. Qed.
Lemma map_err : forall A B (f : A -> B) (p : Parser A) s, p s = PErr -> p_map f p s = PErr.
Proof. intros A B f p s E. unfold p_map, p_bind. now rewrite E. Qed.
Lemma many1_err : forall A (p : Parser A) s, p s = PErr -> many1 p s = PErr.
Proof. intros A p s E. unfold many1, p_bind. now rewrite E. Qed.
Definition to_named (kv : string * string) : FieldOrAlias := FAAlias (efield (snd kv)) (fst kv).
Definition returned : Parser (list FieldOrAlias) :=
      many1 (p_map to_named (ws field_and_value))
  <|> many1 (p_map FAField (ws (preceded (tag "$") field)))
  <|> many1 (p_map FAField (ws field)).
Lemma value_err : forall n x, field_name n -> no_option x -> field_and_value (n ++ x) = PErr.
Proof.
  intros n x Hn [H1 H2]. unfold field_and_value, separated_pair. apply token_then_err; auto; intros; unfold p_bind; now rewrite ws_err.
Qed.
Lemma return_first : forall l s rest, listed blanks return_item l s -> after_cmd rest -> exists n x, (s ++ rest)%string = (n ++ x)%string /\ field_name n /\ no_option x.
Proof.
  intros l s rest H Hr. destruct H as [f u (n & Hn & -> & ->)|f u b l t (n & Hn & -> & ->) Hb Hl]; rewrite ?append_assoc_s.
  - exists n, rest. repeat split; try apply Hn; auto; now apply after_no_option.
  - exists n, (b ++ t ++ rest)%string. split; auto. split; auto. split; [ now apply blanks_tok | ].
    assert (exists n' x', (t ++ rest)%string = (n' ++ x')%string /\ field_name n') as (n' & x' & -> & Hn').
    { destruct Hl as [f u (n' & Hn' & -> & ->)|f u b' l t' (n' & Hn' & -> & ->) Hb' Hl]; rewrite ?append_assoc_s; eauto. }
    rewrite skip_spaces by first [ now apply blanks_spaces | solve [ apply ident_stops; auto ] ].
    destruct (ident_head n' Hn') as (c & r & -> & Hc). cbn [append]. apply head_tag_err. intros ->. unfold letter in Hc. cbn in Hc. destruct Hc as [Hc|Hc]; [ lia | discriminate ].
Qed.
Lemma return_fields : forall k l s rest, spaces k -> after_cmd rest ->
  listed blanks return_item l s \/ listed blanks return_dollar l s \/ listed blanks return_named l s ->
  returned (s ++ rest) = POk (skip rest) l.
Proof.
  intros k l s rest Hk Hr [H|[H|H]]; unfold returned.
  - destruct (return_first l s rest H Hr) as (n & x & E & Hn & Hx).
    rewrite or_err. rewrite or_err.
    + rewrite (many_ext _ _ (ws (p_map FAField field))) by (intro; apply map_ws).
      apply (return_read return_item (p_map FAField field) EmptyString l s rest I); auto.
      * intros f u y (m & Hm & -> & ->). solve [ apply ident_begins; auto ].
      * intros f u y (m & Hm & -> & ->) Hy. apply map_read. solve [ apply field_ident; auto ].
      * intros y Hy. apply map_err. now apply after_field.
    + rewrite E. apply many1_err, map_err, ws_err. rewrite skip_stops by solve [ apply ident_stops; auto ]. unfold preceded, p_bind.
      destruct (ident_head n Hn) as (c & r & -> & Hc). cbn [append]. rewrite head_tag_err; auto. intros ->. unfold letter in Hc. cbn in Hc. destruct Hc as [Hc|Hc]; [ lia | discriminate ].
    + rewrite E. apply many1_err, map_err, ws_err. rewrite skip_stops by solve [ apply ident_stops; auto ]. solve [ apply value_err; auto ].
  - rewrite or_err. apply or_ok.
    + rewrite (many_ext _ _ (ws (p_map FAField (preceded (tag "$") field)))) by (intro; apply map_ws).
      apply (return_read return_dollar (p_map FAField (preceded (tag "$") field)) EmptyString l s rest I); auto.
      * intros f u y (m & Hm & -> & ->). split; [ reflexivity | discriminate ].
      * intros f u y (m & Hm & -> & ->) Hy. apply map_read. unfold preceded, p_bind. cbn [append].
        change (tag "$" (String "$" (m ++ y))) with (POk (m ++ y)%string "$"%string). cbn iota beta. solve [ apply field_ident; auto ].
      * intros y Hy. apply map_err. pose proof (after_tail y Hy) as Ht. revert Ht. generalize (skip y). by_tail.
    + apply many1_err, map_err, ws_err. destruct H as [f u (m & Hm & -> & ->)|f u b l t (m & Hm & -> & ->) Hb Hl]; reflexivity.
  - apply or_ok. rewrite (many_ext _ _ (ws (p_map to_named field_and_value))) by (intro; apply map_ws).
    apply (return_read return_named (p_map to_named field_and_value) EmptyString l s rest I); auto.
    + intros f u y (m & v & b1 & b2 & Hm & _ & _ & _ & _ & ->). rewrite append_assoc_s. solve [ apply ident_begins; auto ].
    + intros f u y (m & v & b1 & b2 & Hm & Hv & H1 & H2 & -> & ->) Hy. apply (map_read _ _ to_named _ _ _ (m, v)).
      rewrite !append_assoc_s. cbn [append]. unfold field_and_value, separated_pair, p_bind.
      rewrite token_ident by (auto; apply spaces_then_tok; auto; split; reflexivity).
      rewrite (ws_ok _ _ _ (b2 ++ v ++ y)%string "="%string) by (rewrite skip_spaces by (auto; reflexivity); reflexivity).
      rewrite skip_spaces by (auto; solve [ apply ident_stops; auto ]). rewrite or_err by solve [ apply quoted_err; auto ]. now rewrite token_ident.
    + intros y Hy. apply map_err. pose proof (after_tail y Hy) as Ht. revert Ht. generalize (skip y). by_tail.
Qed.
Lemma return_body : forall n a l s t, maybe_count n a ->
  listed blanks return_item l s \/ listed blanks return_dollar l s \/ listed blanks return_named l s -> beside a s t ->
  reads_body (fun _ => p_return) (CReturn (match n with Some k => k | None => 1%Z end) l) t.
Proof.
  intros n a l s t Hn Hl Ht.
  assert (Hh : forall x, exists c r, (s ++ x)%string = String c r /\ (letter c \/ c = "_"%char \/ c = "$"%char)).
  { intro x. destruct Hl as [H|[H|H]]; (destruct H as [f u H|f u b l t' H Hb Hl]; destruct H as (m & H); try destruct H as (v & b1 & b2 & H); decompose [and] H; subst);
      rewrite ?append_assoc_s; try (eexists; eexists; split; [ reflexivity | auto ]; fail);
      first [ match goal with Hm : field_name ?w |- context [(?w ++ ?y)%string] => destruct (ident_head w Hm) as (c & r & -> & Hc); cbn [append]; exists c; eexists; split; [ reflexivity | tauto ] end | match goal with Hm : plain_ident ?w |- context [(?w ++ ?y)%string] => destruct (ident_head w Hm) as (c & r & -> & Hc); cbn [append]; exists c; eexists; split; [ reflexivity | tauto ] end ]. }
  assert (Hb : forall x, begins (s ++ x)).
  { intro x. destruct (Hh x) as (c & r & -> & Hc). assert (letter c \/ c = "_"%char \/ c = "$"%char) as [Hc'|[-> | ->]] by exact Hc; [ apply head_begins; now left | apply head_begins; now right | split; [ reflexivity | discriminate ] ]. }
  assert (Hi : forall x, p_int (s ++ x) = PErr).
  { intro x. destruct (Hh x) as (c & r & -> & [Hc|[-> | ->]]); [ apply no_int; auto | apply no_int; auto | reflexivity ]. }
  split.
  { intro x. destruct (count_then n a s t x Hn Ht Hb (Hi x)) as (k & _ & _ & H). apply begins_stops, H. }
  intros rest Hr. exists (skip rest). split; auto. apply reads_const. destruct (count_then n a s t rest Hn Ht Hb (Hi rest)) as (k & Hk & E & H).
  unfold p_return. unfold p_bind at 1. rewrite (stops_skip _ _ _ _ _ (begins_stops _ (H rest)) E). rewrite skip_spaces by (auto; apply begins_stops, Hb).
  unfold p_bind. pose proof (return_fields k l s rest Hk Hr Hl) as E'. unfold returned in E'. unfold to_named in E'. rewrite E'. destruct n; reflexivity.
Qed.

(** ** lookup *)
Definition lookup_field : Parser FieldLike :=
      p_map (fun fa => FLAliasedField (fst fa) (snd fa))
        (verify aliased_field (fun fa => negb (String.eqb (lower (snd fa)) "output")))
  <|> p_map FLField (verify field (fun f => negb (String.eqb (lower f) "output"))).
Definition out_text (x : string) : Prop :=
  exists b1 w b2 t, blanks b1 /\ same_word w "output" /\ blanks b2 /\ not_as t /\ x = (b1 ++ w ++ b2 ++ t)%string.
Definition lookup_final (x : string) : Prop := after_cmd x \/ out_text x.
Lemma not_output : forall n, ~ same_word n "output" -> String.eqb (lower n) "output" = false.
Proof. intros n H. apply String.eqb_neq. intro E. apply H. now apply same_word_lower. Qed.
Lemma output_ident : forall w, same_word w "output" -> plain_ident w.
Proof. intros w H. apply (word_ident "output"); auto; [ now apply ident_by | cbn; lia ]. Qed.
Lemma output_stops : forall w x, same_word w "output" -> stops is_space (w ++ x).
Proof. intros w x H. apply ident_stops. apply ident_field; now apply output_ident. Qed.
Lemma lookup_start : forall f s x, lookup_item f s -> tok_end lit_specials x -> not_as (s ++ x).
Proof.
  intros f s x (n & Hn & _ & Ha & H) Hx.
  assert (exists y, (s ++ x)%string = (n ++ y)%string /\ tok_end lit_specials y) as (y & -> & Hy).
  { destruct H as [[_ ->]|(new & b1 & w & b2 & _ & _ & Hb1 & _ & _ & _ & ->)]; [ exists x; auto | ].
    rewrite !append_assoc_s. eexists. split; [ reflexivity | ]. now apply blanks_tok. }
  split; [ solve [ apply ident_begins; auto ] | ]. apply starts_err; auto; [ cbn; unfold letter; cbn; lia | now apply tok_no_letter ].
Qed.
Lemma final_facts : forall x, lookup_final x ->
  tok_end lit_specials x /\ tag_no_case "AS" (skip x) = PErr /\ tag "," (skip x) = PErr /\ lookup_field (skip x) = PErr.
Proof.
  intros x [H|(b1 & w & b2 & t & Hb1 & Hw & Hb2 & [Ht1 Ht2] & ->)].
  - split; [ now apply after_ends | ]. split; [ now apply after_no_as | ]. split; [ now apply tail_comma | ].
    unfold lookup_field. rewrite or_err; apply map_err; unfold verify, p_bind.
    + now rewrite (proj2 (after_field x H)).
    + unfold aliased_field, separated_pair, p_bind. now rewrite (proj2 (after_field x H)).
  - split; [ now apply blanks_tok | ]. rewrite skip_spaces by first [ now apply blanks_spaces | now apply output_stops ].
    split; [ now apply (clash_err "AS" "output") | ]. split.
    { destruct (word_head "output" w (b2 ++ t) Hw) as (c & r & -> & Hc); [ cbn; unfold letter; cbn; lia | discriminate | ].
      apply head_tag_err. intros ->. unfold letter in Hc. cbn in Hc. lia. }
    pose proof (output_ident w Hw) as Hi. unfold lookup_field. rewrite or_err; apply map_err; unfold verify, p_bind.
    + rewrite field_ident by (auto; now apply blanks_tok). apply same_word_lower in Hw. rewrite Hw. reflexivity.
    + rewrite no_alias; auto; [ now apply blanks_tok | ]. rewrite skip_spaces; auto; [ now apply blanks_spaces | now apply begins_stops ].
Qed.
Lemma lookup_reads : forall f s x, lookup_item f s -> tok_end lit_specials x -> tag_no_case "AS" (skip x) = PErr -> lookup_field (s ++ x) = POk x f.
Proof.
  intros f s x (n & Hn & Ho & Ha & H) Hx Has. unfold lookup_field. destruct H as [[-> ->]|(new & b1 & w & b2 & Hnew & Hno & Hb1 & Hw & Hb2 & -> & ->)].
  - rewrite or_err.
    + apply map_read. unfold verify, p_bind. rewrite field_ident by auto. now rewrite not_output.
    + apply map_err. unfold verify, p_bind. now rewrite no_alias.
  - apply or_ok. apply (map_read _ _ (fun fa => FLAliasedField (fst fa) (snd fa)) _ _ _ (n, new)). rewrite !append_assoc_s.
    unfold verify, p_bind. rewrite as_alias by auto. cbn [snd]. now rewrite not_output.
Qed.
Lemma lookup_list : forall l s rest, listed gap lookup_item l s -> lookup_final rest ->
  field_rep (s ++ rest) = POk rest l /\ not_as (s ++ rest).
Proof.
  intros l s rest H Hr.
  assert (St : forall a s' x, lookup_item a s' -> lookup_final x \/ (exists b t, gap b /\ x = (b ++ t)%string) -> not_as (s' ++ x)).
  { intros a s' x Ha Hx. apply (lookup_start a); auto. destruct Hx as [Hx|(b & t & Hb & ->)]; [ now apply final_facts | now apply gap_tok ]. }
  split.
  - destruct (listed_reads gap lookup_item (fun _ => lookup_field) string comma_or_space_sep (fun x => x) lookup_final not_as) with (l := l) (s := s) (rest := rest)
      as [[n1 H1] _]; auto.
    + intros b s' Hb [Hs _]. now apply gap_read.
    + intros a s' x Ha Hx. apply reads_const. destruct Hx as [Hx|(b & t & Hb & [Ht1 Ht2] & ->)].
      * apply lookup_reads; auto; now apply final_facts.
      * apply lookup_reads; auto; [ now apply gap_tok | ]. destruct Hb as [Hb|Hb].
        -- rewrite skip_spaces by first [ now apply blanks_spaces | now apply begins_stops ]. exact Ht2.
        -- destruct (around_skip "," b t) as (b2 & _ & ->); auto. now apply begins_stops.
    + intros x Hx. exists 0. intros m _. apply gap_end; now apply final_facts.
    + apply (H1 n1). lia.
  - destruct H as [a s H|a s b l t H Hb Hl]; rewrite ?append_assoc_s; apply (St a); eauto.
Qed.
Lemma lookup_body : forall d b fs s out u, plain_ident d -> blanks b -> listed gap lookup_item fs s ->
  (out = None /\ u = EmptyString \/
   exists b1 w b2 gs v, blanks b1 /\ same_word w "output" /\ blanks b2 /\ listed gap lookup_item gs v /\ out = Some (w, gs) /\ u = (b1 ++ w ++ b2 ++ v)%string) ->
  reads_body (fun _ => p_lookup) (CLookup d fs out) (d ++ b ++ s ++ u).
Proof.
  intros d b fs s out u Hd Hb Hs Hu. split; [ intro x; rewrite append_assoc_s; solve [ apply ident_stops; auto ] | ].
  intros rest Hr. exists (skip rest). split; auto. apply reads_const. rewrite !append_assoc_s.
  assert (Hf : lookup_final (u ++ rest)).
  { destruct Hu as [[_ ->]|(b1 & w & b2 & gs & v & Hb1 & Hw & Hb2 & Hv & _ & ->)]; [ now left | right ]. rewrite !append_assoc_s.
    exists b1, w, b2, (v ++ rest)%string. split; auto. split; auto. split; auto. split; auto. apply (lookup_list gs); auto; now left. }
  destruct (lookup_list fs s (u ++ rest)%string Hs Hf) as [E [Hb' _]].
  unfold p_lookup. unfold p_bind at 1. rewrite (stops_skip _ token _ (b ++ s ++ u ++ rest)%string d) by first [ solve [ apply ident_stops; auto ] | apply token_ident; auto; now apply blanks_tok ].
  rewrite skip_spaces by first [ now apply blanks_spaces | now apply begins_stops ].
  unfold p_bind at 1. rewrite (stops_skip _ _ _ _ _ (begins_stops _ Hb') E). unfold p_bind. rewrite ws_skip.
  assert (exists r, opt lookup_output (skip (u ++ rest)) = POk r out /\ skip r = skip rest) as (r & E1 & E2).
  { destruct Hu as [[-> ->]|(b1 & w & b2 & gs & v & Hb1 & Hw & Hb2 & Hv & -> & ->)].
    - exists (skip rest). cbn [append]. rewrite skip_skip. split; auto. unfold opt.
      assert (lookup_output (skip rest) = PErr) as ->; [ | reflexivity ]. pose proof (after_tail rest Hr) as Ht. revert Ht. generalize (skip rest). by_tail.
    - exists rest. split; auto. rewrite !append_assoc_s. rewrite skip_spaces by first [ now apply blanks_spaces | now apply output_stops ].
      unfold opt, lookup_output, separated_pair, p_bind.
      assert (tag_no_case "OUTPUT" (w ++ b2 ++ v ++ rest) = POk (b2 ++ v ++ rest)%string w) as Et.
      { apply tag_nc_read. apply same_word_lower. apply same_word_lower in Hw. exact Hw. }
      rewrite (or_ok _ _ _ _ _ _ Et). destruct (lookup_list gs v rest Hv (or_introl Hr)) as [E3 [Hb3 _]].
      rewrite blanks_read by (auto; now apply begins_stops). rewrite E3. reflexivity. }
  rewrite (ws_ok _ _ _ r out E1). rewrite E2. reflexivity.
Qed.

(** ** Searches in brackets: join, multisearch *)
Lemma sub_read : forall b0 b1 b2 p t rest, spaces b0 -> spaces b1 -> spaces b2 -> reads_all p t ->
  reads sub_search (b0 ++ "[" ++ b1 ++ t ++ b2 ++ "]" ++ rest) (skip rest) p.
Proof.
  intros b0 b1 b2 p t rest H0 H1 H2 [Ht Hp]. set (inner := (t ++ b2 ++ "]" ++ rest)%string).
  assert (closing (b2 ++ "]" ++ rest)) as Hc.
  { split; [ | rewrite skip_spaces by (auto; reflexivity); reflexivity ].
    exists b2, ("]" ++ rest)%string. split; [ reflexivity | ]. split; [ now apply spaces_bool | now right ]. }
  assert (stops is_space inner) as Hst by (apply fresh_stops, Ht).
  destruct (Hp _ Hc) as (rest' & Hrest & n & Hall). exists (S n). intros m Hm.
  unfold sub_search. unfold delimited at 1. unfold p_bind at 1.
  rewrite (ws_ok _ _ _ (b1 ++ inner)%string "["%string) by (rewrite skip_spaces by (auto; reflexivity); reflexivity).
  rewrite skip_spaces by auto. unfold preceded. unfold p_bind at 1. unfold p_bind at 1.
  assert (opt (ws (tag "|")) inner = POk inner None) as ->.
  { unfold opt. rewrite ws_err; auto. rewrite skip_stops by auto. apply fresh_bar, Ht. }
  assert (separated_list0 (ws (tag "|")) (r_command (level m)) inner = POk rest' p) as ->.
  { destruct m as [|m]; [ lia | ]. cbn [level next r_command]. destruct (Hall m) as (r & c & l & -> & E1 & _ & E2); [ lia | ].
    unfold separated_list0, inner. rewrite E1, E2; auto. }
  unfold p_bind. rewrite (ws_ok _ _ _ rest "]"%string); [ reflexivity | ].
  destruct Hrest as [-> | ->]; rewrite ?skip_skip; rewrite skip_spaces by (auto; reflexivity); reflexivity.
Qed.
Lemma join_body : forall o a fs s b1 b2 p t b3 u j, listed0 blanks option_item o a -> listed gap name_item fs s -> spaces b1 -> spaces b2 -> spaces b3 ->
  reads_all p t -> beside a (s ++ b1 ++ "[" ++ b2 ++ t ++ b3 ++ "]") u -> join_says o fs j -> reads_body p_join (CJoin j p) u.
Proof.
  intros o a fs s b1 b2 p t b3 u j Ho H H1 H2 H3 Hp Hu (ty & ut & ea & ow & mx & J1 & J2 & J3 & J4 & J5 & ->).
  assert (Hb : forall y, begins ((s ++ b1 ++ "[" ++ b2 ++ t ++ b3 ++ "]") ++ y)) by (intro y; rewrite append_assoc_s; eapply gap_names_begin; eauto).
  split; [ intro y; apply begins_stops; eapply beside_begins; eauto | ].
  intros rest Hr. exists (skip rest). split; auto. destruct (sub_read b1 b2 b3 p t rest H1 H2 H3 Hp) as [n E]. exists n. intros m Hm.
  set (tail := (b1 ++ "[" ++ b2 ++ t ++ b3 ++ "]" ++ rest)%string) in *.
  assert (no_name tail) as Hn.
  { split; [ apply spaces_then_tok; auto; split; reflexivity | ]. unfold tail. rewrite skip_spaces by (auto; reflexivity). split; reflexivity. }
  assert (no_option tail) as Hno.
  { split; [ apply Hn | ]. unfold tail. rewrite skip_spaces by (auto; reflexivity). reflexivity. }
  assert (Es : ((s ++ b1 ++ "[" ++ b2 ++ t ++ b3 ++ "]") ++ rest)%string = (s ++ tail)%string) by (unfold tail; now rewrite !append_assoc_s).
  unfold p_join. unfold p_bind at 1.
  rewrite (opts_first _ join_options o a (s ++ b1 ++ "[" ++ b2 ++ t ++ b3 ++ "]")%string u rest (mkJoin ty ut ea ow mx [])); auto.
  - rewrite Es. unfold p_bind at 1. rewrite (proj1 (names_read fs s _ H Hn)). unfold p_bind. rewrite (E m Hm). reflexivity.
  - unfold join_options. says. reflexivity.
  - now apply begins_full.
  - apply begins_stops, Hb.
  - rewrite Es. now apply (names_no_key fs).
Qed.
Definition reads_subs (ps : list (list Command)) (s : string) : Prop :=
  (forall x, stops is_space (s ++ x)) /\
  forall b rest, spaces b -> after_cmd rest -> exists n, forall m, n <= m -> forall f, String.length (b ++ s ++ rest)%string < f ->
    many0_go (ws (sub_search (level m))) f (b ++ s ++ rest)%string = POk (skip rest) ps.
Lemma subs_step : forall p b b1 t b2 x, spaces b -> spaces b1 -> spaces b2 -> reads_all p t ->
  reads (fun R => ws (sub_search R)) (b ++ ("[" ++ b1 ++ t ++ b2 ++ "]") ++ x) (skip x) p.
Proof.
  intros p b b1 t b2 x Hb H1 H2 Hp. destruct (sub_read EmptyString b1 b2 p t x I H1 H2 Hp) as [n E]. exists n. intros m Hm.
  rewrite (ws_ok _ _ _ (skip x) p); [ now rewrite skip_skip | ]. rewrite skip_spaces by (auto; reflexivity). rewrite !append_assoc_s. exact (E m Hm).
Qed.
Lemma subs_one : forall p b1 t b2, spaces b1 -> spaces b2 -> reads_all p t -> reads_subs [p] ("[" ++ b1 ++ t ++ b2 ++ "]").
Proof.
  intros p b1 t b2 H1 H2 Hp. split; [ reflexivity | ]. intros b rest Hb Hr.
  destruct (subs_step p b b1 t b2 rest Hb H1 H2 Hp) as [n E]. exists n. intros m Hm [|f] Hf; [ lia | ]. cbn [many0_go]. rewrite (E m Hm).
  assert (String.length (skip rest) < String.length (b ++ ("[" ++ b1 ++ t ++ b2 ++ "]") ++ rest)%string) as Hl.
  { rewrite !length_append. pose proof (skip_length rest). cbn [String.length]. lia. }
  destruct (Nat.eqb_spec (String.length (skip rest)) (String.length (b ++ ("[" ++ b1 ++ t ++ b2 ++ "]") ++ rest)%string)); [ lia | ].
  destruct f as [|f]; [ lia | ]. cbn [many0_go]. rewrite ws_err; [ reflexivity | ]. rewrite skip_skip.
  unfold sub_search, delimited, p_bind. rewrite ws_err; [ reflexivity | ]. rewrite skip_skip.
  pose proof (after_tail rest Hr) as Ht. revert Ht. generalize (skip rest). by_tail.
Qed.
Lemma subs_more : forall p b1 t b2 b ps s, spaces b1 -> spaces b2 -> reads_all p t -> spaces b -> reads_subs ps s ->
  reads_subs (p :: ps) ("[" ++ b1 ++ t ++ b2 ++ "]" ++ b ++ s).
Proof.
  intros p b1 t b2 b ps s H1 H2 Hp Hb [Hs IH]. split; [ reflexivity | ]. intros b0 rest Hb0 Hr.
  destruct (subs_step p b0 b1 t b2 (b ++ s ++ rest)%string Hb0 H1 H2 Hp) as [n E]. destruct (IH EmptyString rest I Hr) as [n' E'].
  exists (max n n'). intros m Hm [|f] Hf; [ lia | ]. rewrite !append_assoc_s in *. cbn [many0_go]. rewrite (E m) by lia.
  rewrite skip_spaces by auto.
  assert (String.length (s ++ rest)%string < String.length (b0 ++ "[" ++ b1 ++ t ++ b2 ++ "]" ++ b ++ s ++ rest)%string) as Hl.
  { rewrite !length_append. cbn [String.length]. lia. }
  destruct (Nat.eqb_spec (String.length (s ++ rest)%string) (String.length (b0 ++ "[" ++ b1 ++ t ++ b2 ++ "]" ++ b ++ s ++ rest)%string)); [ lia | ].
  cbn [append] in E'. rewrite (E' m) by lia. reflexivity.
Qed.
Lemma multisearch_body : forall ps s, reads_subs ps s -> length ps >= 2 -> reads_body p_multisearch (CMultiSearch ps) s.
Proof.
  intros ps s [Hs H] Hl. split; [ exact Hs | ]. intros rest Hr. exists (skip rest). split; auto. destruct (H EmptyString rest I Hr) as [n E].
  exists n. intros m Hm. unfold p_multisearch. apply map_read. unfold many2, verify, p_bind, many0. cbn [append] in E. rewrite (E m Hm) by lia.
  destruct ps as [|x [|y ps]]; cbn in Hl; try lia. reflexivity.
Qed.
