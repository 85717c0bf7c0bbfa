(** What further commands read (C69). *)
From Coq Require Import Lia.
From Verif Require Import Str SplAst Nom Lexer Parser CmdParser ParserFacts ParserTotal ParserFuel.
From Verif Require Import SpecText SpecExpr SpecSpell LexFacts TokenFacts NameFacts ExprFacts LogicFacts EvalFacts SpellFacts SpellOptions SpellMore.

Lemma word_ident : forall k w, plain_ident k -> 2 <= String.length k -> same_word w k -> plain_ident w.
Proof.
  intros k w (H1 & H2 & H3 & H4) Hk Hw.
  assert (L : forall c d, same_letter c d -> (letter c <-> letter d) /\ (name_char d -> name_char c) /\ (d = "_"%char -> c = "_"%char)).
  { intros c d Hl. unfold same_letter in Hl. destruct Hl as [-> |Hl]; [ tauto | ]. split; [ unfold letter; lia | ]. split.
    - intros _. left. unfold letter. lia.
    - intros ->. cbn in Hl. lia. }
  assert (N : forall s t, same_word s t -> all_chars name_char t -> all_chars name_char s).
  { intros s t H. induction H as [|c d s t Hl _ IH]; cbn; auto. intros [A B]. split; auto. now apply (L c d). }
  split; [ | split ].
  - destruct Hw as [|c d s t Hl Hw]; [ exact H1 | ]. destruct H1 as [A B]. split; [ | now apply (N s t) ].
    destruct A as [A|A]; [ left; now apply (L c d) | right; now apply (L c d) ].
  - intros (r & Hr & Hs). apply H2. exists r. split; auto. apply same_word_lower. apply same_word_lower in Hw, Hs. congruence.
  - apply same_word_lower in Hw. assert (String.length w = String.length k) as E.
    { assert (forall s, String.length (lower s) = String.length s) as Ls by (induction s as [|c s IH]; cbn; auto; unfold lower in IH; now rewrite IH).
      rewrite <- (Ls w), <- (Ls k). now rewrite Hw. }
    split; intros ->; cbn in E; lia.
Qed.
Lemma sortby_ident : forall w, same_word w "sortby" -> plain_ident w.
Proof. intros w H. apply (word_ident "sortby"); auto; [ now apply ident_by | cbn; lia ]. Qed.

(** *** dedup *)
Definition dedup_name : Parser string := verify field (fun f => negb (String.eqb (lower f) "sortby")).
Lemma dedup_name_ok : forall w x, field_name w -> ~ same_word w "sortby" -> tok_end lit_specials x -> dedup_name (w ++ x)%string = POk x w.
Proof.
  intros w x Hw Hn Hx. unfold dedup_name, verify, p_bind. rewrite field_ident by auto.
  destruct (String.eqb_spec (lower w) "sortby") as [E|]; [ | reflexivity ]. exfalso. apply Hn. now apply same_word_lower.
Qed.
Lemma dedup_name_err : forall w x, same_word w "sortby" -> tok_end lit_specials x -> dedup_name (w ++ x)%string = PErr.
Proof.
  intros w x Hw Hx. unfold dedup_name, verify, p_bind. rewrite field_ident by (auto; apply ident_field; now apply sortby_ident).
  apply same_word_lower in Hw. rewrite Hw. reflexivity.
Qed.
Definition sort_name : Parser (option string * Expr) := pair_ (opt plus_minus) (p_map efield field).
Lemma signed_begins : forall a s x, signed_item a s -> begins (s ++ x).
Proof.
  intros a s x (sign & n & Hn & Hs & _ & ->). rewrite append_assoc_s. destruct Hs as [[-> _]|[[-> | ->] _]]; cbn [append].
  - solve [ apply ident_begins; auto ].
  - split; [ reflexivity | discriminate ].
  - split; [ reflexivity | discriminate ].
Qed.
Lemma signed_read : forall a s rest, signed_item a s -> tok_end lit_specials rest -> sort_name (s ++ rest) = POk rest a.
Proof.
  intros [o e] s rest (sign & n & Hn & Hs & He & ->) Hr. cbn [fst snd] in *. subst e. rewrite append_assoc_s. unfold sort_name, pair_.
  assert (opt plus_minus (sign ++ n ++ rest)%string = POk (n ++ rest)%string o) as E.
  { destruct Hs as [[-> ->]|[[-> | ->] ->]]; [ | reflexivity | reflexivity ]. cbn [append]. destruct (ident_head n Hn) as (c & r & -> & Hc).
    unfold opt. cbn [append]. now rewrite sign_err. }
  unfold p_bind at 1. rewrite E. unfold p_bind, p_map, p_bind. now rewrite field_ident.
Qed.
Lemma signed_list : forall l s rest, listed blanks signed_item l s -> after_cmd rest -> many1 (ws sort_name) (s ++ rest) = POk (skip rest) l.
Proof.
  intros l s rest H Hr.
  destruct (many_reads blanks signed_item (fun _ => sort_name) after_cmd begins) with (k := EmptyString) (l := l) (s := s) (rest := rest) as [[n Hn] _]; auto.
  - intros a t Ha ->. exact (signed_begins a EmptyString EmptyString Ha).
  - exact begins_stops.
  - intros a t x Ha _. now apply (signed_begins a).
  - exact blanks_spaces.
  - intros a t x Ha Hx. exists x. split; [ now left | ]. apply reads_const. apply signed_read; auto.
    destruct Hx as [Hx|(b & u & Hb & _ & ->)]; [ now apply after_ends | now apply blanks_tok ].
  - intros x Hx. exists 0. intros m _. pose proof (after_tail x Hx) as Ht. revert Ht. generalize (skip x). by_tail.
  - exact I.
  - apply (Hn n). lia.
Qed.
Lemma dedup_body : forall n a o b fs s d u t keepevents keepempty consecutive,
  maybe_count n a -> listed0 blanks option_item o b -> listed blanks name_item fs s -> Forall (fun f => ~ same_word f "sortby") fs ->
  (d = [(Some "+"%string, ELeaf (LConstant (KField "_no")))] /\ u = EmptyString \/
   exists b1 w b2 v, blanks b1 /\ same_word w "sortby" /\ blanks b2 /\ listed blanks signed_item d v /\ u = (b1 ++ w ++ b2 ++ v)%string) ->
  (exists t', beside b (s ++ u) t' /\ beside a t' t) ->
  flag o "keepevents" false keepevents -> flag o "keepempty" false keepempty -> flag o "consecutive" false consecutive ->
  reads_body (fun _ => p_dedup) (CDedup (match n with Some k => k | None => 1%Z end) fs keepevents keepempty consecutive d 0%Z false) t.
Proof.
  intros n a o b fs s d u t keepevents keepempty consecutive Hn Ho Hs Hok Hd (t' & Ht' & Ht) H1 H2 H3.
  assert (Hf : dedup_options o = Ok (keepevents, keepempty, consecutive)) by (unfold dedup_options; says; reflexivity).
  assert (Hb : forall x, begins (t' ++ x)).
  { eapply beside_begins; eauto. intro x. rewrite append_assoc_s. eapply blank_names_begin; eauto. }
  assert (Hi : forall rest, p_int (t' ++ rest) = PErr).
  { intro rest. destruct (options_head o b (s ++ u)%string t' rest Ho Ht') as (c & r & -> & Hc); [ | now apply no_int ].
    rewrite append_assoc_s. eapply blank_names_head; eauto. }
  split; [ intro x; destruct (count_then n a t' t EmptyString Hn Ht Hb (Hi _)) as (_ & _ & _ & X); apply begins_stops, X | ].
  intros rest Hr. exists (skip rest). split; auto. apply reads_const.
  assert (U : tok_end lit_specials (u ++ rest) /\ no_option (u ++ rest) /\ dedup_name (skip (u ++ rest)) = PErr /\
    exists x, opt (preceded (ws (tag_no_case "sortby")) (many1 (ws sort_name))) (skip (u ++ rest)) = POk (skip rest) x
      /\ or_default [(Some "+"%string, efield "_no")] x = d).
  { destruct Hd as [[-> ->]|(b1 & w & b2 & v & B1 & Hw & B2 & Hv & ->)].
    - cbn [append]. split; [ now apply after_ends | split; [ now apply after_no_option | split ] ].
      + unfold dedup_name, verify, p_bind. now rewrite (proj2 (after_field rest Hr)).
      + exists None. split; [ | reflexivity ]. unfold opt, preceded, p_bind. rewrite ws_err; [ reflexivity | ]. rewrite skip_skip.
        pose proof (after_tail rest Hr) as Htl. revert Htl. generalize (skip rest). by_tail.
    - rewrite !append_assoc_s.
      assert (Sw : forall x, stops is_space (w ++ x)) by (intro x; apply (word_stops "sortby"); auto; [ unfold letter; cbn; lia | discriminate ]).
      assert (skip (b1 ++ w ++ b2 ++ v ++ rest) = (w ++ b2 ++ v ++ rest)%string) as Es by (apply skip_spaces; auto; now apply blanks_spaces).
      assert (stops is_space (v ++ rest)) as Sv by (apply begins_stops; revert Hv; apply listed_begins; exact signed_begins).
      split; [ now apply blanks_tok | split; [ | split ] ].
      + apply letter_no_option; auto. apply (word_head "sortby"); auto; [ unfold letter; cbn; lia | discriminate ].
      + rewrite Es. apply dedup_name_err; auto. now apply blanks_tok.
      + exists (Some d). split; [ | reflexivity ]. rewrite Es. unfold opt, preceded. unfold p_bind at 1.
        rewrite (ws_ok _ _ _ (b2 ++ v ++ rest)%string w) by (rewrite skip_stops by auto; now apply tag_nc_read).
        rewrite skip_spaces by (auto; now apply blanks_spaces). now rewrite (signed_list d v rest). }
  destruct U as (U1 & U2 & U3 & x & U4 & U5).
  destruct (count_then n a t' t rest Hn Ht Hb (Hi _)) as (k & Hk & E & _).
  unfold p_dedup. unfold p_bind at 1. rewrite E. unfold p_bind at 1.
  destruct (opts_then _ dedup_options o b (s ++ u)%string t' k rest _ Ho Ht' Hf) as (r & E2 & _ & _ & k' & Hk' & ->); auto.
  { apply begins_full. intro y. rewrite append_assoc_s. eapply blank_names_begin; eauto. }
  { rewrite append_assoc_s. apply begins_stops. eapply blank_names_begin; eauto. }
  { rewrite append_assoc_s. apply (names_no_key fs); auto. now apply listed_gap. }
  rewrite E2. unfold p_bind at 1. unfold dedup_field_rep. fold dedup_name. rewrite append_assoc_s.
  rewrite (proj1 (blank_names_read (fun f => ~ same_word f "sortby") dedup_name k' fs s (u ++ rest)%string Hk' dedup_name_ok Hs Hok U1 U3)).
  unfold p_bind at 1. fold sort_name. rewrite U4, U5. destruct n; reflexivity.
Qed.

(** *** top, rare *)
Lemma by_no_name : forall A (item : A -> string -> Prop) by_ u rest, maybe_by item by_ u -> after_cmd rest -> no_name (u ++ rest).
Proof.
  intros A item by_ u rest [[_ ->]|(fs & _ & b1 & w & b2 & v & H1 & Hw & H2 & _ & ->)] Hr; [ now apply after_no_name | ].
  rewrite !append_assoc_s. split; [ now apply blanks_tok | ]. rewrite by_skip by auto.
  destruct (by_head w (b2 ++ v ++ rest)%string Hw) as (c & r & E & Hc). split; [ | now apply by_token ].
  rewrite E. apply letter_tag_err; auto. apply not_letter_code. cbn. lia.
Qed.
Lemma by_no_option : forall A (item : A -> string -> Prop) by_ u rest, maybe_by item by_ u -> after_cmd rest -> no_option (u ++ rest).
Proof.
  intros A item by_ u rest [[_ ->]|(fs & _ & b1 & w & b2 & v & H1 & Hw & H2 & _ & ->)] Hr; [ now apply after_no_option | ].
  rewrite !append_assoc_s. apply letter_no_option; auto. now apply by_head.
Qed.
Lemma ws_spaces : forall A (p : Parser A) k s r a, spaces k -> stops is_space s -> p s = POk r a -> ws p (k ++ s) = POk (skip r) a.
Proof. intros A p k s r a Hk Hs H. apply ws_ok. now rewrite skip_spaces. Qed.
Lemma toprare_start : forall n a o b fs s by_ u t c rest, maybe_count n a -> listed0 blanks option_item o b -> listed gap name_item fs s ->
  maybe_by name_item by_ u -> (exists t', beside b (s ++ u) t' /\ beside a t' t) -> toprare_says o n fs by_ c -> absent o "limit" -> after_cmd rest ->
  exists x, ws (opt p_int) (t ++ rest) = POk x n /\ exists c', ws (match_options toprare_options) x = POk (s ++ u ++ rest)%string c' /\ toprare c' n fs by_ = c.
Proof.
  intros n a o b fs s by_ u t c rest Hn Ho Hs Hby (t' & Ht' & Ht) (countfield & other & percentfield & showcount & showperc & useother & H1 & H2 & H3 & H4 & H5 & H6 & ->) Hlim Hr.
  assert (Hf : toprare_options o = Ok (mkTopRare [] (as_u64 10) None countfield other percentfield showcount showperc useother)).
  { unfold toprare_options. assert (Hl : number o "limit" 10 10) by (left; auto). apply number_get in Hl.
    apply text_get in H1. rewrite H1. cbn [rbind]. rewrite Hl. cbn [rbind]. says. reflexivity. }
  assert (Hb : forall x, begins (t' ++ x)).
  { eapply beside_begins; eauto. intro x. rewrite append_assoc_s. eapply gap_names_begin; eauto. }
  assert (Hi : p_int (t' ++ rest) = PErr).
  { destruct (options_head o b (s ++ u)%string t' rest Ho Ht') as (c & r & -> & Hc); [ | now apply no_int ].
    rewrite append_assoc_s. eapply names_head; eauto. }
  destruct (count_then n a t' t rest Hn Ht Hb Hi) as (k & Hk & E & Hst).
  exists (t' ++ rest)%string. split.
  { rewrite (stops_skip _ _ _ (k ++ t' ++ rest)%string n); [ | apply begins_stops, Hst | exact E ]. now rewrite skip_spaces by (auto; apply begins_stops, Hb). }
  eexists. split.
  { rewrite (stops_skip _ _ _ ((s ++ u) ++ rest)%string (mkTopRare [] (as_u64 10) None countfield other percentfield showcount showperc useother)).
    - rewrite skip_stops; rewrite append_assoc_s; [ reflexivity | ]. apply begins_stops. eapply gap_names_begin; eauto.
    - apply begins_stops, Hb.
    - eapply opts_first; eauto.
      + apply begins_full. intro y. rewrite append_assoc_s. eapply gap_names_begin; eauto.
      + rewrite append_assoc_s. apply begins_stops. eapply gap_names_begin; eauto.
      + rewrite append_assoc_s. apply (names_no_key fs); auto. eapply by_no_option; eauto. }
  unfold toprare. cbn. destruct Hn as [[-> _]|(k' & -> & Hk' & _)]; [ reflexivity | ]. now rewrite u64_small.
Qed.
Lemma toprare_begins : forall n a o b fs s u t x, maybe_count n a -> listed0 blanks option_item o b -> listed gap name_item fs s ->
  (exists t', beside b (s ++ u) t' /\ beside a t' t) -> begins (t ++ x).
Proof.
  intros n a o b fs s u t x Hn Ho Hs (t' & Ht' & Ht).
  assert (Hb : forall x, begins (t' ++ x)).
  { eapply beside_begins; eauto. intro y. rewrite append_assoc_s. eapply gap_names_begin; eauto. }
  destruct (count_then n a t' t EmptyString Hn Ht Hb) as (_ & _ & _ & X); auto.
  destruct (options_head o b (s ++ u)%string t' EmptyString Ho Ht') as (c & r & -> & Hc); [ | now apply no_int ].
  rewrite append_assoc_s. eapply names_head; eauto.
Qed.
Lemma no_limit_key : forall o a, listed0 blanks option_item o a -> absent o "limit".
Proof.
  assert (N : ~ plain_ident "limit").
  { intros (_ & Hr & _). apply Hr. exists "LIMIT"%string. split; [ unfold spl_reserved; cbn; tauto | now apply same_word_lower ]. }
  intros o a [[-> _]|H]; [ intros [] | ]. unfold absent. induction H as [kv s (b1 & b2 & u & Hk & _)|kv s b l t (b1 & b2 & u & Hk & _) _ _ IH]; cbn [map In].
  - intros [E|[]]. rewrite E in Hk. auto.
  - intros [E|E]; auto. rewrite E in Hk. auto.
Qed.
Lemma maybe_by_read : forall by_ u rest r (p : Parser (list string)),
  (forall fs v, listed gap name_item fs v -> p (v ++ rest)%string = POk rest fs) ->
  maybe_by name_item by_ u -> after_cmd rest -> r = (u ++ rest)%string \/ r = skip (u ++ rest) ->
  ws (opt (preceded (ws (tag_no_case "BY")) p)) r = POk (skip rest) by_.
Proof.
  intros by_ u rest r p Hp Hby Hr Er. assert (Es : skip r = skip (u ++ rest)) by (destruct Er as [-> | ->]; now rewrite ?skip_skip).
  destruct (by_read _ name_item p by_ u rest (skip (u ++ rest))) as (r' & E & Er'); auto.
  { intros fs v Hv. split; [ eapply names_stop; eauto | auto ]. }
  rewrite (ws_ok _ _ _ r' by_); [ destruct Er' as [-> | ->]; now rewrite ?skip_skip | ]. rewrite Es. exact E.
Qed.
Lemma top_body : forall n a o b fs s by_ u t c, maybe_count n a -> listed0 blanks option_item o b -> listed gap name_item fs s ->
  maybe_by name_item by_ u -> (exists t', beside b (s ++ u) t' /\ beside a t' t) -> toprare_says o n fs by_ c -> reads_body (fun _ => p_top) (CTop c) t.
Proof.
  intros n a o b fs s by_ u t c Hn Ho Hs Hby Ht Hc. split; [ intro x; apply begins_stops; eapply toprare_begins; eauto | ].
  intros rest Hr. exists (skip rest). split; auto. apply reads_const.
  destruct (toprare_start n a o b fs s by_ u t c rest Hn Ho Hs Hby Ht Hc (no_limit_key o b Ho) Hr) as (x & E1 & c' & E2 & <-).
  unfold p_top. unfold p_bind at 1. rewrite E1. unfold p_bind at 1. rewrite E2. unfold p_bind at 1.
  rewrite (proj1 (names_read fs s _ Hs (by_no_name _ _ _ _ rest Hby Hr))). unfold p_bind at 1.
  rewrite (maybe_by_read by_ u rest); auto. intros fs' v Hv. apply names_read; auto. now apply after_no_name.
Qed.
Lemma rare_body : forall n a o b fs s by_ u t c, maybe_count n a -> listed0 blanks option_item o b -> listed gap name_item fs s ->
  maybe_by name_item by_ u -> (exists t', beside b (s ++ u) t' /\ beside a t' t) -> toprare_says o n fs by_ c -> reads_body (fun _ => p_rare) (CRare c) t.
Proof.
  intros n a o b fs s by_ u t c Hn Ho Hs Hby Ht Hc. split; [ intro x; apply begins_stops; eapply toprare_begins; eauto | ].
  intros rest Hr. exists (skip rest). split; auto. apply reads_const.
  destruct (toprare_start n a o b fs s by_ u t c rest Hn Ho Hs Hby Ht Hc (no_limit_key o b Ho) Hr) as (x & E1 & c' & E2 & <-).
  unfold p_rare. unfold p_bind at 1. rewrite E1. unfold p_bind at 1. rewrite E2. unfold p_bind at 1.
  rewrite (stops_skip _ _ _ _ _ (names_stop fs s _ Hs) (proj2 (names_read fs s _ Hs (by_no_name _ _ _ _ rest Hby Hr)))). unfold p_bind at 1.
  rewrite (maybe_by_read by_ u rest); auto. intros fs' v Hv. apply names_read; auto. now apply after_no_name.
Qed.

(** *** fillnull *)
Lemma tag_of_nc : forall k s, tag_no_case k s = PErr -> tag k s = PErr.
Proof.
  intros k s. unfold tag, tag_no_case. destruct (strip_prefix k s) as [r|] eqn:E; auto. intro H. exfalso.
  assert (strip_prefix_nc k s = Some r) as E'; [ | rewrite E' in H; discriminate ].
  clear H. revert s E. induction k as [|c k IH]; intros [|d s] E; cbn in *; try discriminate; auto.
  destruct (Ascii.eqb_spec c d) as [<-|]; [ | discriminate ]. rewrite Ascii.eqb_refl. auto.
Qed.
Lemma fill_text : forall v u rest, fill_value v u -> tok_end lit_specials rest -> (double_quoted <|> token) (u ++ rest)%string = POk rest v.
Proof.
  intros v u rest [[Hv ->]|[(n & Hn & -> & ->)|[Hv ->]]] Hr.
  - destruct (ident_head v Hv) as (c & r & E & Hc). rewrite or_err; [ now apply token_ident | ].
    rewrite E. cbn [append]. unfold double_quoted, delimited, p_or, p_bind, dq.
    now rewrite !tag1_err by (apply (head_not c); auto; [ apply not_letter_code; cbn; lia | discriminate ]).
  - destruct (decimal_numeral n) as (m & d & -> & Hd & _). rewrite or_err by now apply quoted_err.
    now apply token_numeral.
  - destruct (plain_string_facts v Hv) as (Hne & Hp & Hw & _). apply or_ok. now apply double_quoted_plain.
Qed.
Lemma fillnull_body : forall v s, listed blanks name_item v s -> reads_body (fun _ => p_fillnull) (CFillNull "0" (Some v)) s.
Proof.
  intros v s H. split; [ intro x; apply begins_stops; eapply blank_names_begin; eauto | ]. intros rest Hr. exists (skip rest). split; auto.
  apply reads_const. unfold p_fillnull. unfold p_bind at 1.
  assert (opt (preceded (tag "value=") (double_quoted <|> token)) (s ++ rest)%string = POk (s ++ rest)%string None) as ->.
  { unfold opt, preceded, p_bind. rewrite tag_of_nc; [ reflexivity | ].
    assert (exists w x, (s ++ rest)%string = (w ++ x)%string /\ field_name w /\ no_eq x) as (w & x & -> & Hw & Hx).
    { destruct H as [a s [Ha ->]|a s b l t [Ha ->] Hb _]; rewrite ?append_assoc_s.
      - exists a, rest. split; auto. split; auto. now apply after_no_eq.
      - exists a, (b ++ t ++ rest)%string. split; auto. split; auto. apply gap_no_eq. now left. }
    apply (word_eq_err "value"); auto; [ unfold letter; cbn; lia | now apply fname_chars ]. }
  unfold p_bind at 1. unfold opt.
  pose proof (proj1 (fields_read EmptyString v s rest I H (after_ends rest Hr) (proj2 (after_field rest Hr)))) as E. cbn [append] in E. now rewrite E.
Qed.
Lemma many1_none : forall A (p : Parser A) s, p (skip s) = PErr -> many1 (ws p) s = PErr.
Proof. intros A p s E. unfold many1, p_bind. now rewrite ws_err. Qed.
Lemma fillnull_bare_body : reads_body0 (fun _ => p_fillnull) (CFillNull "0" None) EmptyString.
Proof.
  split; [ now left | ]. intros rest Hr. exists rest. split; auto. apply reads_const. cbn [append]. unfold p_fillnull. unfold p_bind at 1.
  assert (opt (preceded (tag "value=") (double_quoted <|> token)) rest = POk rest None) as ->.
  { unfold opt, preceded, p_bind. assert (tag "value=" rest = PErr) as ->; [ | reflexivity ].
    destruct Hr as (b & tail & -> & Hb & Ht). destruct b as [|c b].
    - cbn [append]. revert Ht. revert tail. by_tail.
    - cbn [append]. apply andb_true_iff in Hb. destruct Hb as [Hb _]. destruct (space_char c Hb) as [-> |[-> |[-> | ->]]]; reflexivity. }
  unfold p_bind, opt. rewrite many1_none by (now apply after_field). reflexivity.
Qed.
Lemma fill_stops : forall v u x, fill_value v u -> stops is_space (u ++ x).
Proof.
  intros v u x [[Hv ->]|[(n & Hn & -> & ->)|[Hv ->]]]; [ solve [ apply ident_stops; auto ] | apply decimal_stops | reflexivity ].
Qed.
Lemma fillnull_value_body : forall v u, fill_value v u -> reads_body (fun _ => p_fillnull) (CFillNull v None) ("value=" ++ u).
Proof.
  intros v u Hu. split; [ reflexivity | ]. intros rest Hr. exists rest. split; auto. apply reads_const. rewrite append_assoc_s.
  unfold p_fillnull. unfold p_bind at 1. unfold opt at 1, preceded. unfold p_bind at 1.
  change (tag "value=" ("value=" ++ u ++ rest)%string) with (POk (u ++ rest)%string "value="%string). cbn iota beta.
  rewrite (fill_text v u rest) by (auto; now apply after_ends). unfold p_bind, opt. rewrite many1_none by (now apply after_field). reflexivity.
Qed.
Lemma fillnull_both_body : forall v u b fs s, fill_value v u -> blanks b -> listed blanks name_item fs s ->
  reads_body (fun _ => p_fillnull) (CFillNull v (Some fs)) ("value=" ++ u ++ b ++ s).
Proof.
  intros v u b fs s Hu Hb Hs. split; [ reflexivity | ]. intros rest Hr. exists (skip rest). split; auto. apply reads_const. rewrite !append_assoc_s.
  unfold p_fillnull. unfold p_bind at 1. unfold opt at 1, preceded. unfold p_bind at 1.
  change (tag "value=" ("value=" ++ u ++ b ++ s ++ rest)%string) with (POk (u ++ b ++ s ++ rest)%string "value="%string). cbn iota beta.
  rewrite (fill_text v u (b ++ s ++ rest)%string) by (auto; now apply blanks_tok). unfold p_bind, opt.
  rewrite (proj1 (fields_read b fs s rest (blanks_spaces b Hb) Hs (after_ends rest Hr) (proj2 (after_field rest Hr)))). reflexivity.
Qed.

(** *** Quoted text as it stands: regex, rex *)
Lemma raw_items : forall s, raw s -> forall rest fuel, String.length s < fuel ->
  exists l, many0_go dq_item fuel (s ++ String dquote rest) = POk (String dquote rest) l.
Proof.
  intros s H. induction H as [|c s H1 H2 H IH|c s H IH]; intros rest [|fuel] Hf; try lia; cbn [append many0_go].
  - replace (dq_item (String dquote rest)) with (@PErr string) by reflexivity. eauto.
  - assert (Eq : Ascii.eqb c dquote = false) by (apply Ascii.eqb_neq; intros ->; now apply H1).
    assert (Eb : Ascii.eqb c backslash = false) by (apply Ascii.eqb_neq; intros ->; now apply H2).
    assert (dq_item (String c (s ++ String dquote rest)) = POk (s ++ String dquote rest)%string (String c EmptyString)) as ->.
    { unfold dq_item, p_or, escaped_char, recognize, pair_, p_bind, tag, bs. cbn [strip_prefix]. rewrite (Ascii.eqb_sym backslash), Eb.
      unfold none_of, satisfy, has_char, sexists. cbn [sforall]. rewrite Eq, Eb.
      cbn -[consumed]. f_equal. apply (consumed_app (String c EmptyString)). }
    match goal with |- context [Nat.eqb ?x ?y] => destruct (Nat.eqb_spec x y) as [X|_]; [ cbn in X; lia | ] end.
    cbn in Hf. destruct (IH rest fuel ltac:(lia)) as [l ->]. eauto.
  - change (ascii_of_nat 92) with backslash.
    assert (dq_item (String backslash (String c (s ++ String dquote rest))) = POk (s ++ String dquote rest)%string (String backslash (String c EmptyString))) as ->.
    { unfold dq_item, p_or, escaped_char, recognize, pair_, p_bind, tag, bs. cbn [strip_prefix]. rewrite Ascii.eqb_refl.
      cbn -[consumed]. f_equal. apply (consumed_app (String backslash (String c EmptyString))). }
    match goal with |- context [Nat.eqb ?x ?y] => destruct (Nat.eqb_spec x y) as [X|_]; [ cbn in X; lia | ] end.
    cbn in Hf. destruct (IH rest fuel ltac:(lia)) as [l ->]. eauto.
Qed.
Lemma raw_read : forall x s rest, raw_item x s -> double_quoted (s ++ rest) = POk rest x.
Proof.
  intros x s rest (Hx & Hh & ->). rewrite in_quotes_eq.
  assert (Hs : stops is_space (x ++ String dquote rest)).
  { destruct x as [|c x]; [ destruct Hh | ]. cbn. now apply is_space_false. }
  assert (Q : quoted_content dquote (x ++ String dquote rest) = POk (String dquote rest) x).
  { change (quoted_content dquote (x ++ String dquote rest)) with (ws (recognize (many0 dq_item)) (x ++ String dquote rest)).
    rewrite (ws_ok _ _ _ (String dquote rest) x); [ reflexivity | ]. rewrite skip_stops by auto.
    unfold recognize, p_bind, many0. destruct (raw_items x Hx rest (S (String.length (x ++ String dquote rest)))) as [l ->].
    - rewrite length_append. lia.
    - now rewrite consumed_app. }
  unfold double_quoted. rewrite or_err.
  - unfold delimited, p_bind. change (tag dq (String dquote (x ++ String dquote rest))) with (POk (x ++ String dquote rest)%string dq).
    cbn iota beta. rewrite Q. reflexivity.
  - unfold delimited, p_bind. change (tag dq (String dquote (x ++ String dquote rest))) with (POk (x ++ String dquote rest)%string dq).
    cbn iota beta. unfold recognize, p_bind. inversion Hx; subst; [ destruct Hh | | reflexivity ]. cbn [append]. unfold dq. rewrite tag1_err; [ reflexivity | ].
    apply Ascii.eqb_neq. intros <-. now apply H.
Qed.
