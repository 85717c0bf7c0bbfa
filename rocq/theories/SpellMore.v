(** What the commands with options read (C69). *)
From Coq Require Import Lia.
From Verif Require Import Str SplAst Nom Lexer Parser CmdParser ParserFacts ParserTotal ParserFuel.
From Verif Require Import SpecText SpecExpr SpecSpell LexFacts TokenFacts NameFacts ExprFacts LogicFacts EvalFacts SpellFacts SpellOptions.

Lemma opts_first : forall A (f : Options -> res A) o a b s rest x, listed0 blanks option_item o a -> beside a b s -> f o = Ok x ->
  b <> EmptyString -> stops is_space (b ++ rest) -> no_key (b ++ rest) -> match_options f (s ++ rest) = POk (b ++ rest)%string x.
Proof.
  intros A f o a b s rest x Ho Hs Hf Hb St Hk.
  destruct (opts_then A f o a b s EmptyString rest x Ho Hs Hf Hb St Hk I) as (r & E & _ & Er & _).
  rewrite <- (Er eq_refl). exact E.
Qed.

(** *** head, mvexpand *)
Lemma limit_head_body : forall n s, limit_text n s -> reads_body p_head (CHead (ELeaf (LConstant (KInt n))) false false) s.
Proof.
  intros n s [[Hn ->]|(w & b & u & Hw & Hb & [Hn ->] & ->)]; [ now apply head_body | ].
  assert (Hd : exists c r, w = String c r /\ letter c).
  { inversion Hw as [|c d s t Hl _]; subst. exists c, s. split; auto. unfold letter, same_letter in *. destruct Hl as [-> |Hl]; cbn in *; lia. }
  destruct Hd as (c & r & Ew & Hc).
  assert (St : forall x, stops is_space (w ++ x)).
  { intro x. rewrite Ew. apply begins_stops, head_begins. now left. }
  split; [ intro x; rewrite append_assoc_s; apply St | ]. intros rest Hr. exists (skip rest). split; [ now right | ].
  exists 0. intros m _. unfold p_head. unfold p_bind at 1. rewrite !append_assoc_s.
  rewrite (ws_ok _ _ _ rest (eint n)).
  2:{ rewrite skip_stops by apply St. apply or_ok. unfold p_map. unfold p_bind at 1.
      rewrite or_err by (rewrite Ew; apply no_int; now left).
      unfold preceded. unfold p_bind at 1. rewrite (ws_ok _ _ _ (b ++ decimal n ++ rest)%string w) by (rewrite skip_stops by apply St; now apply tag_nc_read).
      rewrite skip_spaces by (auto; apply decimal_stops). rewrite count_read by (auto; now apply after_ends). reflexivity. }
  assert (forall (p : Parser (option bool)) tail, cmd_tail tail -> p tail = POk tail None -> ws p tail = POk tail None) as W.
  { intros p tail Ht Hp. rewrite (ws_ok _ _ _ tail None); [ now rewrite skip_stops by now apply tail_stops | ].
    now rewrite skip_stops by now apply tail_stops. }
  pose proof (after_tail rest Hr) as Ht. unfold p_bind at 1. rewrite W; auto.
  2:{ revert Ht. generalize (skip rest). by_tail. }
  unfold p_bind at 1. rewrite W; auto. revert Ht. generalize (skip rest). by_tail.
Qed.
(** key = value, with white space around the equals sign *)
Lemma key_eq_read : forall k w b1 b2 x, same_word w k -> all_chars letter k -> k <> EmptyString -> spaces b1 -> spaces b2 -> stops is_space x ->
  pair_ (ws (tag_no_case k)) (ws (tag "=")) (w ++ b1 ++ "=" ++ b2 ++ x) = POk x (w, "="%string).
Proof.
  intros k w b1 b2 x Hw Hk Hn H1 H2 Hx. unfold pair_, p_bind.
  rewrite (ws_ok _ _ _ (b1 ++ "=" ++ b2 ++ x)%string w) by (rewrite skip_stops by (eapply word_stops; eauto); now apply tag_nc_read).
  rewrite skip_spaces by (auto; reflexivity).
  rewrite (ws_ok _ _ _ (b2 ++ x)%string "="%string) by reflexivity. now rewrite skip_spaces.
Qed.
Lemma mvexpand_limit_body : forall f b w b1 b2 n, field_name f -> blanks b -> same_word w "limit" -> spaces b1 -> spaces b2 -> (0 <= n < 2 ^ 63)%Z ->
  reads_body (fun _ => p_mvexpand) (CMvExpand f (Some n)) (f ++ b ++ w ++ b1 ++ "=" ++ b2 ++ decimal n).
Proof.
  intros f b w b1 b2 n Hf Hb Hw H1 H2 Hn. split; [ intro x; rewrite append_assoc_s; solve [ apply ident_stops; auto ] | ].
  intros rest Hr. exists (skip rest). split; [ now right | ]. apply reads_const. rewrite !append_assoc_s. unfold p_mvexpand. unfold p_bind at 1.
  assert (all_chars letter "limit") as L by (unfold letter; cbn; lia).
  rewrite (ws_ok _ _ _ (b ++ w ++ b1 ++ "=" ++ b2 ++ decimal n ++ rest)%string f).
  2:{ rewrite skip_stops by solve [ apply ident_stops; auto ]. apply field_ident; auto. now apply blanks_tok. }
  rewrite skip_spaces; [ | now apply blanks_spaces | eapply word_stops; eauto; discriminate ].
  unfold p_bind at 1, opt, preceded. unfold p_bind at 1. rewrite (key_eq_read "limit"); auto; [ | discriminate | apply decimal_stops ].
  rewrite (ws_ok _ _ _ rest n); [ reflexivity | ]. rewrite skip_stops by apply decimal_stops. apply count_read; auto. now apply after_ends.
Qed.

(** *** Lists of names separated by white space *)
Lemma blank_names_begin : forall fs s x, listed blanks name_item fs s -> begins (s ++ x).
Proof. intros fs s x H. revert H. apply listed_begins. intros a s' x' [Ha ->]. solve [ apply ident_begins; auto ]. Qed.
(** The parser q of one name refuses what comes after the list *)
Lemma blank_names_read : forall (ok : string -> Prop) (q : Parser string) k fs s rest, spaces k ->
  (forall w x, field_name w -> ok w -> tok_end lit_specials x -> q (w ++ x)%string = POk x w) ->
  listed blanks name_item fs s -> Forall ok fs -> tok_end lit_specials rest -> q (skip rest) = PErr ->
  many1 (ws q) (k ++ s ++ rest) = POk (skip rest) fs /\ many0 (ws q) (k ++ s ++ rest) = POk (skip rest) fs.
Proof.
  intros ok q k fs s rest Hk Hq H Hok R1 R2.
  assert (H' : listed blanks (fun f s => name_item f s /\ ok f) fs s).
  { clear - H Hok. induction H; inversion Hok; subst; [ constructor | constructor ]; auto. }
  destruct (many_reads blanks (fun f s => name_item f s /\ ok f) (fun _ => q) (fun x => tok_end lit_specials x /\ q (skip x) = PErr) begins)
    with (k := k) (l := fs) (s := s) (rest := rest) as [[n1 H1] [n2 H2]]; auto.
  - intros a t [[Ha ->] _] ->. exact (ident_begins EmptyString EmptyString Ha).
  - exact begins_stops.
  - intros a t x [[Ha ->] _] _. solve [ apply ident_begins; auto ].
  - exact blanks_spaces.
  - intros a t x [[Ha ->] Ho] Hx. exists x. split; [ now left | ]. apply reads_const. apply Hq; auto.
    destruct Hx as [[Hx _]|(b & u & Hb & _ & ->)]; auto. now apply blanks_tok.
  - intros x [_ Hx]. exists 0. intros m _. exact Hx.
  - split; [ apply (H1 n1); lia | apply (H2 n2); lia ].
Qed.
Lemma Forall_any : forall A (P : A -> Prop) l, (forall a, P a) -> Forall P l.
Proof. intros A P l H. induction l; auto. Qed.
Lemma fields_read : forall k fs s rest, spaces k -> listed blanks name_item fs s -> tok_end lit_specials rest -> field (skip rest) = PErr ->
  many1 (ws field) (k ++ s ++ rest) = POk (skip rest) fs /\ many0 (ws field) (k ++ s ++ rest) = POk (skip rest) fs.
Proof.
  intros k fs s rest Hk H R1 R2. apply (blank_names_read (fun _ => True)); auto.
  - intros w x Hw _ Hx. solve [ apply field_ident; auto ].
  - now apply Forall_any.
Qed.
Lemma after_field : forall rest, after_cmd rest -> field rest = PErr /\ field (skip rest) = PErr.
Proof.
  intros rest H. split; [ | now apply after_no_name ]. destruct H as (b & tail & -> & Hb & Ht). destruct b as [|c b].
  - cbn [append]. revert Ht. revert tail. by_tail.
  - cbn [append]. apply andb_true_iff in Hb. destruct Hb as [Hb _]. destruct (space_char c Hb) as [-> |[-> |[-> | ->]]]; reflexivity.
Qed.
Lemma listed_gap : forall A (item : A -> string -> Prop) l s, listed blanks item l s -> listed gap item l s.
Proof. intros A item l s H. induction H; [ now constructor | constructor; auto; now left ]. Qed.
Lemma names_no_key : forall fs s rest, listed gap name_item fs s -> no_option rest -> no_key (s ++ rest).
Proof. intros fs s rest H Hr. destruct (names_option fs s rest H Hr) as (w & x & -> & Hw & Hx). solve [ apply word_no_key; auto ]. Qed.
Lemma gap_names_begin : forall fs s x, listed gap name_item fs s -> begins (s ++ x).
Proof. intros fs s x H. revert H. apply listed_begins. intros a s' x' [Ha ->]. solve [ apply ident_begins; auto ]. Qed.

(** *** addtotals, makeresults, collect *)
Lemma beside_left : forall a s, beside a EmptyString s -> s = a.
Proof. intros a s [[-> ->]|[[_ ->]|(_ & H & _)]]; auto. congruence. Qed.
Lemma options_stop : forall o s, listed0 blanks option_item o s -> s = EmptyString \/ forall x, stops is_space (s ++ x).
Proof. intros o s [[_ ->]|H]; [ now left | right; intro x; apply begins_stops; eapply options_begin; eauto ]. Qed.
Lemma addtotals_body : forall o a fs s t c, listed0 blanks option_item o a -> listed0 blanks name_item fs s -> beside a s t ->
  addtotals_says o fs c -> reads_body0 (fun _ => p_addtotals) (CAddTotals c) t.
Proof.
  intros o a fs s t c Ho Hs Ht (row & col & fieldname & labelfield & label & H1 & H2 & H3 & H4 & H5 & ->).
  assert (Hf : addtotals_options o = Ok (mkAddTotals [] row col fieldname labelfield label)) by (unfold addtotals_options; says; reflexivity).
  destruct Hs as [[-> ->]|Hs].
  - apply beside_left in Ht. subst t. split; [ eapply options_stop; eauto | ]. intros rest Hr.
    destruct (opts_only _ addtotals_options o a rest _ Ho Hf (after_ends rest Hr) (after_no_key rest Hr)) as (r & E & Er).
    exists r. split; auto. apply reads_const. unfold p_addtotals, p_bind. rewrite E. rewrite many0_none; [ reflexivity | ].
    destruct Er as [-> | ->]; rewrite ?skip_skip; now apply after_field.
  - pose proof (fun x => blank_names_begin fs s x Hs) as Hb. apply body_body0. split.
    { intro x. apply begins_stops. eapply beside_begins; eauto. }
    intros rest Hr. exists (skip rest). split; auto. apply reads_const. unfold p_addtotals, p_bind.
    rewrite (opts_first _ addtotals_options o a s t rest _ Ho Ht Hf).
    + destruct (fields_read EmptyString fs s rest I Hs (after_ends rest Hr) (proj2 (after_field rest Hr))) as [_ E].
      cbn [append] in E. rewrite E. reflexivity.
    + apply begins_full, Hb.
    + apply begins_stops, Hb.
    + apply (names_no_key fs); [ now apply listed_gap | now apply after_no_option ].
Qed.
Lemma makeresults_body : forall o s c, listed0 blanks option_item o s -> makeresults_says o c -> reads_body0 (fun _ => p_makeresults) (CMakeResults c) s.
Proof.
  intros o s c Ho (count & annotate & server & group & H1 & H2 & H3 & H4 & ->).
  assert (Hf : makeresults_options o = Ok (mkMakeResults count annotate server group)) by (unfold makeresults_options; says; reflexivity).
  split; [ eapply options_stop; eauto | ]. intros rest Hr.
  destruct (opts_only _ makeresults_options o s rest _ Ho Hf (after_ends rest Hr) (after_no_key rest Hr)) as (r & E & Er).
  exists r. split; auto. apply reads_const. unfold p_makeresults, p_map, p_bind. now rewrite E.
Qed.
Lemma collect_body : forall o a fs s t c, listed0 blanks option_item o a -> listed0 gap name_item fs s -> beside a s t ->
  collect_says o fs c -> reads_body0 (fun _ => p_collect) (CCollect c) t.
Proof.
  intros o a fs s t c Ho Hs Ht
    (index & addtime & file & host & marker & format & preview & spool & source & sourcetype & testmode & H0 & H1 & H2 & H3 & H4 & H5 & H6 & H7 & H8 & H9 & H10 & ->).
  assert (Hf : collect_options o = Ok (mkCollect index [] addtime file host marker format preview spool source sourcetype testmode)).
  { unfold collect_options. assert (get_string_option o "index" = Ok (Some index)) as ->.
    { unfold get_string_option. destruct H0 as [H0|H0]; now rewrite (given_get _ _ _ H0). }
    cbn [rbind of_option]. says. reflexivity. }
  destruct Hs as [[-> ->]|Hs].
  - apply beside_left in Ht. subst t. split; [ eapply options_stop; eauto | ]. intros rest Hr.
    destruct (opts_only _ collect_options o a rest _ Ho Hf (after_ends rest Hr) (after_no_key rest Hr)) as (r & E & Er).
    exists r. split; auto. apply reads_const. unfold p_collect, p_bind. rewrite E.
    unfold field_list0, comma_or_space_separated_list0, separated_list0. assert (field r = PErr) as ->; [ | reflexivity ].
    destruct Er as [-> | ->]; now apply after_field.
  - pose proof (fun x => gap_names_begin fs s x Hs) as Hb. apply body_body0. split.
    { intro x. apply begins_stops. eapply beside_begins; eauto. }
    intros rest Hr. exists rest. split; auto. apply reads_const. unfold p_collect, p_bind.
    rewrite (opts_first _ collect_options o a s t rest _ Ho Ht Hf).
    + rewrite (proj2 (names_read fs s rest Hs (after_no_name rest Hr))). reflexivity.
    + apply begins_full, Hb.
    + apply begins_stops, Hb.
    + apply (names_no_key fs); auto. now apply after_no_option.
Qed.

(** *** convert *)
Definition conversion : Parser FieldConversion :=
  P: func <- token;
  P: f <- delimited (tag "(") (ws field) (tag ")");
  P: alias <- ws (opt (preceded (ws (tag_no_case "AS")) field));
  p_ret (mkConversion func f alias).
Definition not_as (x : string) : Prop := begins x /\ tag_no_case "AS" x = PErr.
Lemma as_upper : forall w, same_word w "as" -> same_word w "AS".
Proof. intros w Hw. apply same_word_lower. apply same_word_lower in Hw. exact Hw. Qed.
Lemma as_stops : forall w x, same_word w "as" -> stops is_space (w ++ x).
Proof. intros w x H. apply (word_stops "as"); auto; [ unfold letter; cbn; lia | discriminate ]. Qed.
Lemma conversion_read : forall c s rest, conversion_item c s -> tok_end lit_specials rest -> tag_no_case "AS" (skip rest) = PErr ->
  conversion (s ++ rest) = POk (skip rest) c.
Proof.
  intros [func f new] s rest (b1 & b2 & u & Hfn & _ & Hf & H1 & H2 & Hu & ->) Hr Ha. cbn [fc_func fc_field fc_alias] in *. rewrite !append_assoc_s.
  unfold conversion. unfold p_bind at 1. rewrite token_ident by (auto; split; reflexivity).
  unfold p_bind at 1. unfold delimited at 1. unfold p_bind at 1. change (("(" ++ ?x)%string) with (String "(" x). 
  rewrite tag1_read. unfold p_bind at 1.
  rewrite (ws_ok _ _ _ (b2 ++ ")" ++ u ++ rest)%string f).
  2:{ rewrite skip_spaces by (auto; solve [ apply ident_stops; auto ]). apply field_ident; auto. apply spaces_then_tok; auto. split; reflexivity. }
  rewrite skip_spaces by (auto; reflexivity). unfold p_bind at 1. change ((")" ++ u ++ rest)%string) with (String ")" (u ++ rest)). rewrite tag1_read.
  unfold p_ret at 1. unfold p_bind at 1.
  destruct Hu as [[-> ->]|(n & c1 & w & c2 & Hn & Hc1 & Hw & Hc2 & -> & ->)].
  - cbn [append]. rewrite (ws_ok _ _ _ (skip rest) None); [ now rewrite skip_skip | ].
    unfold opt, preceded, p_bind. rewrite ws_err; [ reflexivity | ]. now rewrite skip_skip.
  - rewrite !append_assoc_s. rewrite (ws_ok _ _ _ rest (Some n)); [ reflexivity | ].
    rewrite skip_spaces by (first [ now apply blanks_spaces | now apply as_stops ]).
    unfold opt, preceded, p_bind. rewrite (ws_ok _ _ _ (c2 ++ n ++ rest)%string w).
    + rewrite skip_spaces by (first [ now apply blanks_spaces | solve [ apply ident_stops; auto ] ]). rewrite field_ident; auto.
    + rewrite skip_stops by now apply as_stops. apply tag_nc_read. now apply as_upper.
Qed.
Lemma conversion_start : forall c s x, conversion_item c s -> not_as (s ++ x).
Proof.
  intros c s x (b1 & b2 & u & Hfn & Ha & _ & _ & _ & _ & ->). rewrite append_assoc_s. split; [ solve [ apply ident_begins; auto ] | ].
  apply starts_err; auto; [ unfold letter; cbn; lia | ]. cbn. unfold letter. cbn. lia.
Qed.
Lemma convert_body : forall o a l s t f, listed0 blanks option_item o a -> listed0 blanks conversion_item l s -> beside a s t ->
  text o "timeformat" "%m/%d/%Y %H:%M:%S" f -> reads_body0 (fun _ => p_convert) (CConvert f l) t.
Proof.
  intros o a l s t f Ho Hs Ht H1. set (g := fun o => get_string o "timeformat" "%m/%d/%Y %H:%M:%S").
  assert (Hf : g o = Ok f) by (unfold g; now apply text_get).
  change (reads_body0 (fun _ => P: timeformat <- match_options g; P: convs <- many0 (ws conversion); p_ret (CConvert timeformat convs)) (CConvert f l) t).
  destruct Hs as [[-> ->]|Hs].
  - apply beside_left in Ht. subst t. split; [ eapply options_stop; eauto | ]. intros rest Hr.
    destruct (opts_only _ g o a rest _ Ho Hf (after_ends rest Hr) (after_no_key rest Hr)) as (r & E & Er).
    exists r. split; auto. apply reads_const. unfold p_bind at 1. rewrite E. unfold p_bind. rewrite many0_none; [ reflexivity | ].
    pose proof (after_tail rest Hr) as Htl. assert (skip r = skip rest) as -> by (destruct Er as [-> | ->]; now rewrite ?skip_skip).
    revert Htl. generalize (skip rest). by_tail.
  - assert (Hb : forall x, begins (s ++ x)).
    { intro x. revert Hs. apply listed_begins. intros c s' x' Hc. now apply (conversion_start c). }
    apply body_body0. split.
    { intro x. apply begins_stops. eapply beside_begins; eauto. }
    intros rest Hr. exists (skip rest). split; auto. apply reads_const. unfold p_bind at 1.
    rewrite (opts_first _ g o a s t rest _ Ho Ht Hf).
    + destruct (many_reads blanks conversion_item (fun _ => conversion) after_cmd not_as) with (k := EmptyString) (l := l) (s := s) (rest := rest) as [_ [n Hn]]; auto.
      * intros c s' Hc ->. destruct (conversion_start c EmptyString EmptyString Hc) as [X _]. destruct X.
      * intros x [X _]. now apply begins_stops.
      * intros c s' x Hc _. now apply (conversion_start c).
      * exact blanks_spaces.
      * intros c s' x Hc Hx. exists (skip x). split; [ now right | ]. apply reads_const. destruct Hx as [Hx|(b & u & Hbl & [Hu1 Hu2] & ->)].
        -- apply conversion_read; auto; [ now apply after_ends | ]. pose proof (after_tail x Hx) as Htl. revert Htl. generalize (skip x). by_tail.
        -- apply conversion_read; auto; [ now apply blanks_tok | ]. rewrite skip_spaces; auto; [ now apply blanks_spaces | now apply begins_stops ].
      * intros x Hx. exists 0. intros m _. pose proof (after_tail x Hx) as Htl. revert Htl. generalize (skip x). by_tail.
      * exact I.
      * unfold p_bind. cbn [append] in Hn. rewrite (Hn n) by lia. reflexivity.
    + apply begins_full, Hb.
    + apply begins_stops, Hb.
    + assert (forall c s x, conversion_item c s -> no_key (s ++ x)) as K.
      { intros c s' x (b1 & b2 & u & Hfn & _ & _ & _ & _ & _ & ->). rewrite append_assoc_s. apply word_no_key; auto.
        split; [ split; reflexivity | reflexivity ]. }
      destruct Hs; rewrite ?append_assoc_s; eauto.
Qed.

(** *** Aggregations: stats, eventstats, streamstats *)
Lemma by_final : forall A (item : A -> string -> Prop) by_ u rest, maybe_by item by_ u -> after_cmd rest -> agg_final (u ++ rest).
Proof.
  intros A item by_ u rest [[_ ->]|(fs & _ & b1 & w & b2 & v & H1 & Hw & H2 & _ & ->)] Hr; [ now left | right ].
  rewrite !append_assoc_s. exists b1, w, b2, (v ++ rest)%string. auto.
Qed.
Lemma aggs_begin : forall l s x, listed (around ",") agg_item l s -> begins (s ++ x).
Proof. intros l s x H. revert H. apply listed_begins. exact agg_begins. Qed.
Lemma aggs_no_key : forall l s rest, listed (around ",") agg_item l s -> agg_final rest -> no_key (s ++ rest).
Proof. intros l s rest H Hr. destruct (agg_options l s rest H Hr) as (w & x & -> & Hw & Hx). solve [ apply word_no_key; auto ]. Qed.
Lemma tag_skip : forall k s, ws (tag_no_case k) (skip s) = ws (tag_no_case k) s.
Proof. intros. apply ws_skip. Qed.
(** BY and names, or nothing *)
Lemma by_read : forall A (item : A -> string -> Prop) (p : Parser (list A)) by_ u rest r,
  (forall fs v, listed gap item fs v -> stops is_space (v ++ rest) /\ p (v ++ rest)%string = POk rest fs) ->
  maybe_by item by_ u -> after_cmd rest -> r = (u ++ rest)%string \/ r = skip (u ++ rest) ->
  exists r', opt (preceded (ws (tag_no_case "by")) p) r = POk r' by_ /\ (r' = rest \/ r' = skip rest).
Proof.
  intros A item p by_ u rest r Hp Hby Hr Er.
  assert (W : forall x, ws (tag_no_case "by") (u ++ rest) = x -> ws (tag_no_case "by") r = x).
  { intros x E. destruct Er as [-> | ->]; auto. now rewrite tag_skip. }
  destruct Hby as [[-> ->]|(fs & -> & b1 & w & b2 & v & H1 & Hw & H2 & Hv & ->)].
  - exists r. split; auto. unfold opt, preceded, p_bind. rewrite (W PErr); auto. apply ws_tail_err; auto. by_tail.
  - exists rest. split; auto. destruct (Hp fs v Hv) as [P1 P2]. unfold opt, preceded, p_bind. rewrite !append_assoc_s in W.
    rewrite (W (POk (v ++ rest)%string w)); [ now rewrite P2 | ]. apply as_read; auto. now apply by_stops.
Qed.
Lemma splitvals_none : forall rest r, after_cmd rest -> r = rest \/ r = skip rest ->
  opt (preceded (pair_ (ws (tag_no_case "dedup_splitvals")) (ws (tag "="))) p_bool) r = POk r None.
Proof.
  intros rest r Hr Er. unfold opt, preceded, pair_, p_bind. rewrite ws_err; [ reflexivity | ].
  assert (skip r = skip rest) as -> by (destruct Er as [-> | ->]; now rewrite ?skip_skip).
  pose proof (after_tail rest Hr) as Ht. revert Ht. generalize (skip rest). by_tail.
Qed.
Section Aggregations.
Variables (A : Type) (f : Options -> res A) (o : list (string * Constant)) (a : string) (l : list Expr) (s u t : string) (x : A).
Hypotheses (Ho : listed0 blanks option_item o a) (Hl : listed (around ",") agg_item l s) (Ht : beside a (s ++ u) t) (Hf : f o = Ok x).
Lemma agg_text_begins : forall y, begins (t ++ y).
Proof. eapply beside_begins; eauto. intro y. rewrite append_assoc_s. eapply aggs_begin; eauto. Qed.
Lemma agg_opts : forall rest, agg_final (u ++ rest) -> match_options f (t ++ rest) = POk (s ++ u ++ rest)%string x.
Proof.
  intros rest Hr. rewrite <- append_assoc_s. eapply opts_first; eauto.
  - apply begins_full. intro y. rewrite append_assoc_s. eapply aggs_begin; eauto.
  - rewrite append_assoc_s. apply begins_stops. eapply aggs_begin; eauto.
  - rewrite append_assoc_s. eapply aggs_no_key; eauto.
Qed.
End Aggregations.
Lemma stats_body : forall o a l s by_ u t c, listed0 blanks option_item o a -> listed (around ",") agg_item l s -> maybe_by by_item by_ u ->
  beside a (s ++ u) t -> stats_says o c -> reads_body p_stats (CStats c l by_) t.
Proof.
  intros o a l s by_ u t c Ho Hl Hby Ht (partitions & allnum & delim & H1 & H2 & H3 & H4 & ->).
  assert (Hf : stats_options o = Ok (mkStatsOpts (as_u64 partitions) allnum delim false)) by (unfold stats_options; says; reflexivity).
  split; [ intro y; apply begins_stops; eapply agg_text_begins; eauto | ]. intros rest Hr.
  pose proof (by_final _ _ _ _ rest Hby Hr) as Hfin.
  destruct (by_read _ by_item maybe_spanned_field_list1 by_ u rest (u ++ rest)%string) as (r' & E & Er); auto.
  { intros fs v Hv. split; [ eapply bys_stop; eauto | now apply bys_read ]. }
  exists r'. split; auto. destruct (aggs_read l s _ Hl Hfin) as [n Hn]. exists n. intros m Hm. unfold p_stats. unfold p_bind at 1.
  rewrite (agg_opts _ stats_options o a l s u t _ Ho Hl Ht Hf rest Hfin).
  unfold p_bind at 1. rewrite (Hn m Hm). unfold p_bind at 1. rewrite E. unfold p_bind at 1. rewrite (splitvals_none rest) by auto.
  unfold p_ret. cbn [st_partitions st_all_num st_delim or_default]. rewrite u64_small; auto.
Qed.
Lemma stops_skip : forall A (p : Parser A) s r a, stops is_space s -> p s = POk r a -> ws p s = POk (skip r) a.
Proof. intros A p s r a Hs H. apply ws_ok. now rewrite skip_stops. Qed.
Lemma eventstats_body : forall o a l s by_ u t allnum, listed0 blanks option_item o a -> listed (around ",") agg_item l s -> maybe_by name_item by_ u ->
  beside a (s ++ u) t -> flag o "allnum" false allnum ->
  reads_body p_eventstats (CEventStats allnum l (match by_ with Some fs => fs | None => [] end)) t.
Proof.
  intros o a l s by_ u t allnum Ho Hl Hby Ht H1. set (g := fun o => get_boolean o "allnum" false).
  assert (Hf : g o = Ok allnum) by (unfold g; now apply flag_get).
  split; [ intro y; apply begins_stops; eapply agg_text_begins; eauto | ]. intros rest Hr.
  pose proof (by_final _ _ _ _ rest Hby Hr) as Hfin.
  destruct (by_read _ name_item field_list0 by_ u rest (skip (u ++ rest))%string) as (r' & E & Er); auto.
  { intros fs v Hv. split; [ eapply names_stop; eauto | apply names_read; auto; now apply after_no_name ]. }
  exists r'. split; auto. destruct (aggs_read l s _ Hl Hfin) as [n Hn]. exists n. intros m Hm. unfold p_eventstats. fold g. unfold p_bind at 1.
  rewrite (agg_opts _ g o a l s u t _ Ho Hl Ht Hf rest Hfin).
  unfold p_bind at 1. rewrite (stops_skip _ _ _ _ _ (begins_stops _ (aggs_begin l s _ Hl)) (Hn m Hm)).
  unfold p_bind at 1. rewrite E. destruct by_; reflexivity.
Qed.
Lemma streamstats_body : forall o a l s by_ u t current window, listed0 blanks option_item o a -> listed (around ",") agg_item l s -> maybe_by by_item by_ u ->
  beside a (s ++ u) t -> flag o "current" true current -> number o "window" 0%Z window ->
  reads_body p_streamstats (CStreamStats l (match by_ with Some fs => fs | None => [] end) current window) t.
Proof.
  intros o a l s by_ u t current window Ho Hl Hby Ht H1 H2.
  assert (Hf : streamstats_options o = Ok (current, window)) by (unfold streamstats_options; says; reflexivity).
  split; [ intro y; apply begins_stops; eapply agg_text_begins; eauto | ]. intros rest Hr.
  pose proof (by_final _ _ _ _ rest Hby Hr) as Hfin.
  destruct (by_read _ by_item maybe_spanned_field_list1 by_ u rest (skip (u ++ rest))%string) as (r' & E & Er); auto.
  { intros fs v Hv. split; [ eapply bys_stop; eauto | now apply bys_read ]. }
  exists r'. split; auto. destruct (aggs_read l s _ Hl Hfin) as [n Hn]. exists n. intros m Hm. unfold p_streamstats. unfold p_bind at 1.
  rewrite (agg_opts _ streamstats_options o a l s u t _ Ho Hl Ht Hf rest Hfin).
  unfold p_bind at 1. rewrite (stops_skip _ _ _ _ _ (begins_stops _ (aggs_begin l s _ Hl)) (Hn m Hm)).
  unfold p_bind at 1. rewrite E. destruct by_; reflexivity.
Qed.

(** *** Counts before options: dedup, top, rare, return *)
Lemma count_stops : forall n a x, maybe_count n a -> stops is_space x -> stops is_space (a ++ x).
Proof. intros n a x [[_ ->]|(k & _ & _ & ->)] Hx; auto. apply decimal_stops. Qed.
Lemma count_begins : forall n a x, maybe_count n a -> begins x -> begins (a ++ x).
Proof.
  intros n a x [[_ ->]|(k & _ & _ & ->)] Hx; auto. destruct (decimal_numeral k) as (m & d & -> & Hd & _).
  destruct (numeral_chars m d x Hd) as (c & r & -> & Hc). split; [ now apply numeral_head_facts | ].
  destruct Hc as [-> |Hc]; [ discriminate | intros ->; discriminate ].
Qed.
(** What is left after the count: white space and the remainder *)
Lemma count_then : forall n a t' t rest, maybe_count n a -> beside a t' t -> (forall x, begins (t' ++ x)) -> p_int (t' ++ rest) = PErr ->
  exists k, spaces k /\ opt p_int (t ++ rest) = POk (k ++ t' ++ rest)%string n /\ forall x, begins (t ++ x).
Proof.
  intros n a t' t rest Hn Ht Hb Hi. pose proof (begins_full t' Hb) as Hne.
  destruct Hn as [[-> ->]|(v & -> & Hv & ->)].
  - exists EmptyString. split; [ exact I | ]. destruct Ht as [[_ ->]|[[-> _]|(X & _)]]; [ | congruence | congruence ].
    split; auto. unfold opt. now rewrite Hi.
  - assert (decimal v <> EmptyString) as Hd.
    { intro E. pose proof (count_begins (Some v) (decimal v) t') as X. rewrite E in X.
      destruct (decimal_numeral v) as (m & d & Ed & Hdg & _). destruct (numeral_head m d Hdg) as (c & r & Ec & _). rewrite Ed, Ec in E. discriminate. }
    destruct Ht as [[E _]|[[-> _]|(_ & _ & k & Hk & ->)]]; [ congruence | congruence | ].
    exists k. split; [ now apply blanks_spaces | ]. rewrite !append_assoc_s. split.
    + unfold opt. rewrite count_read; auto. now apply blanks_tok.
    + intro x. rewrite append_assoc_s. destruct (decimal_numeral v) as (m & d & -> & Hdg & _).
      destruct (numeral_chars m d ((k ++ t') ++ x)%string Hdg) as (c & r & -> & Hc).
      split; [ now apply numeral_head_facts | ]. destruct Hc as [-> |Hc]; [ discriminate | intros ->; discriminate ].
Qed.
Lemma options_head : forall o a b s x, listed0 blanks option_item o a -> beside a b s ->
  (exists c r, (b ++ x)%string = String c r /\ (letter c \/ c = "_"%char)) -> exists c r, (s ++ x)%string = String c r /\ (letter c \/ c = "_"%char).
Proof.
  intros o a b s x Ho Hs Hb.
  assert (K : forall y, listed blanks option_item o a -> exists c r, (a ++ y)%string = String c r /\ (letter c \/ c = "_"%char)).
  { intros y H. assert (forall kv t y, option_item kv t -> exists c r, (t ++ y)%string = String c r /\ (letter c \/ c = "_"%char)) as K.
    { intros kv t y' (b1 & b2 & u & Hk & _ & _ & _ & ->). rewrite append_assoc_s. destruct (ident_head _ Hk) as (c & r & -> & Hc). cbn [append]. eauto. }
    destruct H; rewrite ?append_assoc_s; eauto. }
  destruct Ho as [[-> ->]|Ho].
  - destruct Hs as [[_ ->]|[[-> ->]|(H & _)]]; [ auto | exact Hb | congruence ].
  - pose proof (begins_full a (fun x => options_begin o a x Ho)) as Hne.
    destruct Hs as [[-> _]|[[-> ->]|(_ & _ & k & _ & ->)]]; rewrite ?append_assoc_s; [ congruence | auto | auto ].
Qed.
Lemma blank_names_head : forall fs s x, listed blanks name_item fs s -> exists c r, (s ++ x)%string = String c r /\ (letter c \/ c = "_"%char).
Proof. intros fs s x H. eapply names_head. apply listed_gap. eauto. Qed.
