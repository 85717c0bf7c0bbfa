(** Written pipelines are read back (C69): all commands together. *)
From Coq Require Import Lia.
From Verif Require Import Str SplAst Nom Lexer Parser CmdParser ParserFacts ParserTotal ParserFuel.
From Verif Require Import SpecText SpecExpr SpecSpell LexFacts TokenFacts NameFacts ExprFacts LogicFacts EvalFacts SpellFacts WhereFacts SpellOptions SpellMore SpellBodies SpellForms SpellTails SpellTstats.

Scheme body_ind2 := Minimality for body Sort Prop
  with spells_ind2 := Minimality for spells Sort Prop
  with spells_all_ind2 := Minimality for spells_all Sort Prop
  with spells_subs_ind2 := Minimality for spells_subs Sort Prop.
Combined Scheme written_ind from body_ind2, spells_ind2, spells_all_ind2, spells_subs_ind2.
Definition known (k : string) (c : Command) (s : string) : Prop :=
  exists P, body_of k = Some P /\ all_chars letter k /\ k <> EmptyString /\ reads_body0 P c s.
Definition reads_command (c : Command) (s : string) : Prop :=
  reads_body command c s /\ forall x, fresh (s ++ x).
Ltac a_known0 L := eexists; split; [ reflexivity | split; [ unfold letter; cbn; repeat split; lia | split; [ discriminate | eapply L; eauto ] ] ].
Ltac a_known L := eexists; split; [ reflexivity | split; [ unfold letter; cbn; repeat split; lia | split; [ discriminate | apply body_body0; eapply L; eauto ] ] ].
Lemma command_read : forall k w b c s, same_word w k -> blanks b -> known k c s -> reads_command c (w ++ b ++ s).
Proof.
  intros k w b c s Hw Hb (P & HP & Hk & Hn & Hst & H). split.
  - split.
    + intro x. rewrite !append_assoc_s. apply fresh_stops, letter_fresh. eapply word_head; eauto.
    + intros rest Hr. destruct Hst as [-> |Hst].
      * destruct (H (skip rest) (after_skipped rest Hr)) as (rest' & Hrest & n & Hread). exists rest'. split; [ rewrite skip_skip in Hrest; tauto | ].
        exists n. intros m Hm. destruct Hr as (b' & tail & -> & Hb' & Ht). rewrite after_skip in * by auto.
        rewrite append_nil_r, !append_assoc_s. rewrite <- (append_assoc_s b). assert (Hbb : blanks (b ++ b')).
        { split; [ destruct b; [ destruct Hb; congruence | discriminate ] | ]. apply spaces_app; [ now apply blanks_spaces | now apply bool_spaces ]. }
        apply (dispatch k P HP); auto; now apply tail_stops.
      * destruct (H rest Hr) as (rest' & Hrest & n & Hread). exists rest'. split; auto. exists n. intros m Hm.
        rewrite !append_assoc_s. eapply dispatch; eauto.
  - intro x. rewrite append_assoc_s. apply letter_fresh. eapply word_head; eauto.
Qed.
Lemma name_err : forall k s rest, no_command s -> In k command_names -> after_cmd rest -> match_name k (s ++ rest) = PErr.
Proof.
  intros k s rest H Hk Hr. unfold match_name, match_word, p_bind, tag_no_case.
  destruct (strip_prefix_nc k (s ++ rest)) as [r|] eqn:E; auto.
  assert (all_chars letter k) as Lk.
  { revert Hk. clear. intro Hk. unfold letter. repeat (destruct Hk as [<-|Hk]; [ cbn; repeat split; lia | ]). destruct Hk. }
  destruct (strip_nc_inv k s rest r Lk (tok_no_letter _ (after_ends rest Hr)) E) as (a & b & -> & Ha & ->).
  pose proof (H k a b Hk eq_refl Ha) as Hb. destruct b as [|c b]; [ contradiction | ]. cbn [append].
  assert (is_space c = false) as Hc by (apply not_true_iff_false; intro X; apply Hb; now apply is_space_spec).
  unfold p_or, multispace1, take_while1. cbn [span]. rewrite Hc. reflexivity.
Qed.
Lemma search_fresh : forall c s, body "search" c s -> forall x, fresh (s ++ x).
Proof.
  intros c s H x. inversion H; subst.
  - destruct (written_head _ _ _ H1 H0 x) as (d & r & E & _ & Hd). exists d, r. split; auto. split; auto.
    pose proof (et_stops _ _ _ (written_reads _ _ _ H1 H0) x) as Hs. now rewrite E in Hs.
  - destruct H0 as [a s Ha|a s b l t Ha Hb Hl]; rewrite ?append_assoc_s; destruct (item_head a s Ha) as (d & r & -> & Hd);
      cbn [append]; eexists _, _; (split; [ reflexivity | split; [ apply (term_stops d EmptyString Hd) | apply term_head_not; auto; cbn; tauto ] ]).
Qed.
Lemma implicit_read : forall c s, body "search" c s -> known "search" c s -> no_command s -> reads_command c s.
Proof.
  intros c s Hb (P & HP & _ & _ & _ & H) Hn. injection HP as <-. pose proof (search_fresh c s Hb) as Hf.
  assert (Hst : forall x, stops is_space (s ++ x)) by (intro; apply fresh_stops, Hf). split; auto. split; auto.
  intros rest Hr. destruct (H rest Hr) as (rest' & Hrest & n & Hread). exists rest'. split; auto. exists n. intros m Hm.
  assert (N : forall k, In k command_names -> match_name k (s ++ rest) = PErr) by (intros k Hk; now apply name_err).
  assert (C : forall k p, In k command_names -> cmd k p (s ++ rest) = PErr) by (intros k p Hk; unfold cmd, preceded, p_bind; now rewrite N).
  assert (B : match_word (tag_no_case "bin" <|> tag_no_case "bucket") (s ++ rest) = PErr).
  { assert (In "bin" command_names /\ In "bucket" command_names)%string as [I1 I2] by (cbn; tauto).
    pose proof (N _ I1) as N1. pose proof (N _ I2) as N2. unfold match_name, match_word, p_or, p_bind in *.
    destruct (tag_no_case "bin" (s ++ rest)%string) as [r1 a1| | |]; auto. }
  unfold command. rewrite !or_err by (try (apply C; cbn; tauto); unfold preceded, p_bind; now rewrite B).
  unfold p_search, preceded. unfold p_bind at 1. rewrite or_err by (apply N; cbn; tauto). unfold p_map at 1. unfold p_bind at 1.
  rewrite ms0_eq, span_stops by apply Hst. cbn [fst snd]. unfold p_ret at 1. apply (Hread m Hm).
Qed.
Lemma upto_parses : forall (Q : string -> Prop) p s lead trail, reads_upto Q p s -> spaces lead \/ around "|" lead -> spaces trail -> Q trail ->
  parse (lead ++ s ++ trail) = Some (Ok p).
Proof.
  intros Q p s lead trail H Hl Ht Hc. destruct H as [Hs Hp].
  destruct (Hp trail Hc) as (rest' & Hrest & n & Hn).
  assert (stops is_space (s ++ trail)) as Hst by (apply fresh_stops, Hs).
  set (m := S (max n (String.length (lead ++ s ++ trail)))).
  assert (parse_with m (lead ++ s ++ trail)%string = Some (Ok p)) as E.
  { unfold parse_with, pipeline, preceded, p_bind.
    assert (exists x, (x = (s ++ trail)%string \/ x = (lead ++ s ++ trail)%string /\ spaces lead) /\
            exists o, opt (ws (tag "|")) (lead ++ s ++ trail)%string = POk x o) as (x & Hx & o & ->).
    { destruct Hl as [Hl|Hl].
      - exists (lead ++ s ++ trail)%string. split; [ now right | ]. exists None. unfold opt. rewrite ws_err; auto.
        rewrite skip_spaces by auto. apply fresh_bar, Hs.
      - exists (s ++ trail)%string. split; [ now left | ]. exists (Some "|"%string). unfold opt.
        now rewrite (proj1 (around_read "|"%char lead (s ++ trail)%string eq_refl Hl Hst)). }
    assert (skip x = (s ++ trail)%string) as Es.
    { destruct Hx as [-> |[-> Hx]]; [ now apply skip_stops | now apply skip_spaces ]. }
    unfold all_consuming, p_bind.
    assert (separated_list0 (ws (tag "|")) (command (level m)) (skip x) = POk rest' p) as E2.
    { rewrite Es. destruct (Hn m) as (r & c & l & -> & E1 & _ & E2); [ subst m; lia | ]. unfold separated_list0. rewrite E1, E2; auto. }
    rewrite (ws_ok _ _ _ _ _ E2). replace (skip rest') with EmptyString; [ reflexivity | ].
    destruct Hrest as [-> | ->]; rewrite ?skip_skip, skip_all; auto. }
  rewrite <- E. symmetry. apply parse_fuel. subst m. lia.
Qed.
Lemma all_parses : forall p s lead trail, reads_all p s -> spaces lead \/ around "|" lead -> spaces trail ->
  parse (lead ++ s ++ trail) = Some (Ok p).
Proof.
  intros p s lead trail H Hl Ht. apply (upto_parses closing); auto.
  split; [ | now rewrite skip_all ]. exists trail, EmptyString. rewrite append_nil_r. split; [ reflexivity | ]. split; [ now apply spaces_bool | exact I ].
Qed.
(** *** map *)
Lemma quoted_read : forall w b1 b2 q p rest, same_word w "search" -> spaces b1 -> spaces b2 -> parse q = Some (Ok p) ->
  reads quoted_search (w ++ b1 ++ "=" ++ b2 ++ in_quotes (escape q) ++ rest) rest p.
Proof.
  intros w b1 b2 q p rest Hw H1 H2 Hq. exists (S (S (String.length q))). intros [|n] Hn; [ lia | ].
  rewrite <- (quoted_search_escape q p n rest Hq ltac:(lia)). unfold quoted_search, preceded. unfold p_bind.
  assert (stops is_space (w ++ b1 ++ "=" ++ b2 ++ in_quotes (escape q) ++ rest)) as St.
  { apply (SpellFacts.word_stops "search"); auto; [ unfold letter; cbn; lia | discriminate ]. }
  assert (forall s, s = (w ++ b1 ++ "=" ++ b2 ++ in_quotes (escape q) ++ rest)%string ->
    exists v, pair_ (ws (tag_no_case "search")) (ws (tag "=")) s = POk (in_quotes (escape q) ++ rest)%string v) as P.
  { intros s ->. exists (w, "="%string). unfold pair_, p_bind.
    rewrite (ws_ok _ _ _ (b1 ++ "=" ++ b2 ++ in_quotes (escape q) ++ rest)%string w) by (rewrite skip_stops by exact St; now apply tag_nc_read).
    rewrite skip_spaces by (auto; reflexivity).
    rewrite (ws_ok _ _ _ (b2 ++ in_quotes (escape q) ++ rest)%string "="%string) by reflexivity.
    now rewrite skip_spaces by (auto; reflexivity). }
  destruct (P _ eq_refl) as [v ->].
  assert (exists v, pair_ (ws (tag_no_case "search")) (ws (tag "=")) ("search=" ++ in_quotes (escape q) ++ rest)%string = POk (in_quotes (escape q) ++ rest)%string v) as [v' ->].
  { eexists. unfold pair_, p_bind. rewrite (ws_ok _ _ _ ("=" ++ in_quotes (escape q) ++ rest)%string "search"%string) by (rewrite skip_stops by reflexivity; apply (tag_nc_read "search" "search"); apply same_word_lower; reflexivity). reflexivity. }
  reflexivity.
Qed.
Lemma map_body : forall w b1 b2 lead p t trail k o a n, same_word w "search" -> spaces b1 -> spaces b2 -> spaces lead \/ around "|" lead -> reads_all p t ->
  spaces trail -> listed0 blanks option_item o a -> spaces k -> (a = EmptyString -> k = EmptyString) -> number o "maxsearches" 10%Z n ->
  reads_body p_map_cmd (CMap p n) (w ++ b1 ++ "=" ++ b2 ++ in_quotes (escape (lead ++ t ++ trail)) ++ k ++ a).
Proof.
  intros w b1 b2 lead p t trail k o a n Hw H1 H2 Hl Hp Ht Ho Hk Ha Hn. split.
  { intro x. rewrite append_assoc_s. apply (SpellFacts.word_stops "search"); auto; [ unfold letter; cbn; lia | discriminate ]. }
  intros rest Hr. apply number_get in Hn. set (g := fun o => get_int o "maxsearches" 10) in *. assert (Hg : g o = Ok n) by exact Hn.
  assert (exists r, match_options g (k ++ a ++ rest) = POk r n /\ (r = rest \/ r = skip rest)) as (r & E & Er).
  { destruct Ho as [[-> ->]|Ho].
    - rewrite (Ha eq_refl). exists rest. split; auto. eapply options_of; eauto. apply many0_none. now apply after_no_key.
    - exists (skip rest). split; auto. eapply options_of; eauto. apply opts_read; auto; [ now apply after_ends | now apply after_no_key ]. }
  exists r. split; auto.
  destruct (quoted_read w b1 b2 _ p (k ++ a ++ rest)%string Hw H1 H2 (all_parses p t lead trail Hp Hl Ht)) as [m0 Hm0].
  exists m0. intros m Hm. unfold p_map_cmd. fold g. unfold p_bind at 1. rewrite !append_assoc_s. rewrite (Hm0 m Hm).
  unfold p_bind. now rewrite E.
Qed.
Lemma written_read : (forall k c s, body k c s -> known k c s) /\ (forall c s, spells c s -> reads_command c s)
  /\ (forall p s, spells_all p s -> reads_all p s) /\ (forall ps s, spells_subs ps s -> reads_subs ps s).
Proof.
  apply written_ind; intros.
  - a_known search_body.
  - a_known search_terms_body.
  - a_known where_body.
  - a_known eval_body.
  - a_known head_full_body.
  - a_known0 datamodel_body.
  - a_known0 format_body.
  - a_known tail_body.
  - a_known table_body.
  - a_known fields_body0.
  - a_known (fields_body fs s "+"%char).
  - a_known (fields_body fs s "-"%char).
  - a_known rename_body.
  - a_known sort_full_body.
  - a_known stats_body.
  - a_known mvexpand_body.
  - a_known mvexpand_limit_body.
  - a_known0 addtotals_body.
  - a_known0 makeresults_body.
  - a_known0 collect_body.
  - a_known0 convert_body.
  - a_known dedup_body.
  - a_known eventstats_body.
  - a_known streamstats_body.
  - a_known fillnull_body.
  - a_known fillnull_value_body.
  - a_known fillnull_both_body.
  - a_known0 fillnull_bare_body.
  - a_known top_body.
  - a_known rare_body.
  - a_known regex_body.
  - a_known regex_field_body.
  - a_known rex_body.
  - a_known mvcombine_body.
  - a_known mvcombine_delim_body.
  - a_known lookup_body.
  - a_known inputlookup_body.
  - a_known (inputlookup_where_body o a d b1 w b2 e s t c).
  - a_known bin_body.
  - a_known bin_body.
  - a_known spath_body.
  - a_known return_body.
  - a_known (join_body o a fs s b1 b2 p t b3 u j).
  - a_known multisearch_body.
  - a_known tstats_body.
  - a_known (map_body w b1 b2 lead p t trail k o a n).
  - eapply command_read; eauto.
  - now apply implicit_read.
  - destruct H0. now apply all_one.
  - destruct H0. now apply all_more.
  - now apply subs_one.
  - now apply subs_more.
Qed.
(** A command that needs no arguments may end the text with its name *)
Lemma bare_read : forall k w c, same_word w k -> known k c EmptyString -> reads_upto (eq EmptyString) [c] w.
Proof.
  intros k w c Hw (P & HP & Hk & Hn & _ & H). split; [ intro x; apply letter_fresh; eapply word_head; eauto | ].
  intros rest <-. assert (A : after_cmd EmptyString) by (exists EmptyString, EmptyString; repeat split).
  destruct (H EmptyString A) as (rest' & Hrest & n & Hread).
  assert (rest' = EmptyString) as -> by (destruct Hrest as [-> | ->]; reflexivity).
  exists EmptyString. split; [ now left | ]. exists n. intros m Hm. exists EmptyString, c, []. split; [ reflexivity | ]. split; [ | split ].
  - rewrite append_nil_r. rewrite <- (append_nil_r w). apply (dispatch_end k P HP (level m) w EmptyString EmptyString); auto; [ now right | exact I ].
  - cbn. lia.
  - intros [|f] Hf; [ lia | reflexivity ].
Qed.
Lemma text_read : forall p s, spells_text p s -> exists s' trail, s = (s' ++ trail)%string /\ spaces trail /\ (reads_all p s' \/ trail = EmptyString /\ reads_upto (eq EmptyString) p s').
Proof.
  destruct written_read as (B & C & A & _). induction 1 as [p s trail H Ht|k w c Hw H|c s b p t H Hb _ (t' & trail & -> & Ht & IH)].
  - exists s, trail. split; [ reflexivity | ]. split; [ exact Ht | ]. left. now apply A.
  - exists w, EmptyString. rewrite append_nil_r. split; [ reflexivity | ]. split; [ exact I | ]. right. split; [ reflexivity | ].
    eapply bare_read; [ exact Hw | ]. now apply B.
  - destruct (C c s H) as [R F]. exists (s ++ b ++ t')%string, trail. rewrite !append_assoc_s. split; [ reflexivity | ]. split; [ exact Ht | ].
    destruct IH as [IH|[-> IH]]; [ left; now apply all_more | right; split; [ reflexivity | now apply upto_more ] ].
Qed.
Theorem text_parses : forall p s lead, spells_text p s -> spaces lead \/ around "|" lead -> parse (lead ++ s) = Some (Ok p).
Proof.
  intros p s lead H Hl. destruct (text_read p s H) as (s' & trail & -> & Ht & [R|[-> R]]).
  - now apply all_parses.
  - now apply (upto_parses (eq EmptyString)).
Qed.
Theorem written_parses : forall p s lead trail, spells_all p s -> spaces lead \/ around "|" lead -> spaces trail ->
  parse (lead ++ s ++ trail) = Some (Ok p).
Proof. intros p s lead trail H. apply all_parses. exact (proj1 (proj2 (proj2 written_read)) p s H). Qed.

(** ** Deciding the side conditions for concrete texts *)
Lemma strip_nc_word : forall a k b, same_word a k -> strip_prefix_nc k (a ++ b) = Some b.
Proof.
  intros a k b H. pose proof (tag_nc_read k a b H) as E. unfold tag_no_case in E.
  destruct (strip_prefix_nc k (a ++ b)); congruence.
Qed.
Lemma starts_by : forall k s, strip_prefix_nc k s = None -> ~ starts_word k s.
Proof. intros k s E (a & b & -> & H). rewrite (strip_nc_word a k b H) in E. discriminate. Qed.
Lemma in_by : forall s, match strip_prefix_nc "IN" s with
                       | None => True
                       | Some r => match skip r with EmptyString => False | String c _ => c <> "("%char end end -> ~ starts_in s.
Proof.
  intros s E (a & b & y & -> & H & Hb & Hy). rewrite (strip_nc_word a "IN" _ H) in E.
  destruct y as [|c y].
  - rewrite append_nil_r, skip_all in E; auto.
  - subst c. rewrite skip_spaces in E by (auto; reflexivity). congruence.
Qed.
Lemma no_command_by : forall s,
  forallb (fun k => match strip_prefix_nc k s with
                    | None => true
                    | Some (String c _) => negb (is_space c)
                    | Some EmptyString => false end) command_names = true -> no_command s.
Proof.
  intros s E k a b Hk -> H. rewrite forallb_forall in E. specialize (E k Hk). rewrite (strip_nc_word a k b H) in E.
  destruct b as [|c b]; [ discriminate | ]. intro W. apply is_space_spec in W. rewrite W in E. discriminate.
Qed.
