(** Written pipelines are read back (C69). *)
From Coq Require Import Lia.
From Verif Require Import Str SplAst Nom Lexer Parser CmdParser ParserFacts ParserTotal ParserFuel.
From Verif Require Import SpecText SpecExpr SpecSpell LexFacts TokenFacts NameFacts ExprFacts LogicFacts EvalFacts.

(** ** White space *)
Lemma spaces_bool : forall b, spaces b -> sforall is_space b = true.
Proof. induction b as [|c b IH]; cbn; auto. intros [H1 H2]. rewrite IH by auto. rewrite (proj2 (is_space_spec c) H1). reflexivity. Qed.
Lemma spaces_app : forall a b, spaces a -> spaces b -> spaces (a ++ b).
Proof. intros a b Ha Hb. now apply all_chars_app. Qed.
Lemma blanks_spaces : forall b, blanks b -> spaces b.
Proof. intros b [_ H]. exact H. Qed.
Lemma skip_spaces : forall b s, spaces b -> stops is_space s -> skip (b ++ s) = s.
Proof. intros b s Hb Hs. apply skip_blanks; auto. now apply spaces_bool. Qed.
Lemma skip_all : forall b, spaces b -> skip b = EmptyString.
Proof. intros b Hb. rewrite <- (append_nil_r b). now apply skip_spaces. Qed.
Lemma skip_skip : forall s, skip (skip s) = skip s.
Proof. intro s. apply skip_stops, span_rest_stops. Qed.
Lemma ws_err : forall A (p : Parser A) s, p (skip s) = PErr -> ws p s = PErr.
Proof. intros A p s H. unfold ws, delimited, p_bind. rewrite ms0_eq. unfold skip in H. now rewrite H. Qed.
Lemma blanks_read : forall b s, blanks b -> stops is_space s -> multispace1 (b ++ s) = POk s b.
Proof.
  intros b s Hb Hs. unfold multispace1, take_while1. rewrite span_app by now apply blanks_space.
  rewrite span_stops by auto. destruct (blanks_head b Hb) as (c & r & -> & _). cbn. now rewrite append_nil_r.
Qed.

(** ** The end of a command *)
Lemma after_tail : forall rest, after_cmd rest -> cmd_tail (skip rest).
Proof. intros rest (b & tail & -> & Hb & Ht). now rewrite after_skip. Qed.
Lemma after_skipped : forall rest, after_cmd rest -> after_cmd (skip rest).
Proof.
  intros rest H. exists EmptyString, (skip rest). repeat split. now apply after_tail.
Qed.
Lemma tail_after : forall tail, cmd_tail tail -> after_cmd tail.
Proof. intros tail H. exists EmptyString, tail. repeat split; auto. Qed.
Ltac by_tail := let c := fresh in let t := fresh in let H := fresh in
  intros [|c t] H; [ reflexivity | destruct H as [-> | ->]; reflexivity ].
Lemma after_closed : forall rest, after_cmd rest -> closed rest /\ op9 rest = PErr.
Proof.
  intros rest H. destruct (after_cmd_term rest H) as [H1 H2].
  repeat split; auto; apply ws_tail_err; auto; by_tail.
Qed.
Lemma after_ends : forall rest, after_cmd rest -> tok_end lit_specials rest.
Proof. intros rest H. apply (after_cmd_term rest H). Qed.

(** ** Lists *)
(** How an item of a list begins *)
Definition begins (s : string) : Prop :=
  match s with String c _ => is_space c = false /\ c <> ","%char | EmptyString => False end.
Lemma begins_stops : forall s, begins s -> stops is_space s.
Proof. intros [|c s]; cbn; tauto. Qed.
Lemma listed_begins : forall A sep (item : A -> string -> Prop), (forall a s x, item a s -> begins (s ++ x)) ->
  forall l s x, listed sep item l s -> begins (s ++ x).
Proof. intros A sep item Hb l s x H. destruct H; rewrite ?append_assoc_s; eauto. Qed.
Section Lists.
Context {A : Type}.
Variables (sep : string -> Prop) (item : A -> string -> Prop) (p : Recs -> Parser A) (B : Type) (sepP : Parser B)
  (eat : string -> string) (final start : string -> Prop).
Definition goes_on (rest : string) : Prop := exists b t, sep b /\ start t /\ rest = (b ++ t)%string.
Hypotheses
  (Hstop : forall a s x, item a s -> final x \/ (exists b t, sep b /\ x = (b ++ t)%string) -> start (s ++ x))
  (Heat : forall s, String.length (eat s) <= String.length s)
  (Hsep : forall b s, sep b -> start s -> exists u, sepP (eat (b ++ s)) = POk s u /\ String.length s < String.length (eat (b ++ s)))
  (Hread : forall a s rest, item a s -> final rest \/ goes_on rest -> reads p (s ++ rest) (eat rest) a)
  (Hend : forall rest, final rest -> exists n, forall m, n <= m ->
     sepP (eat rest) = PErr \/
     exists r u, sepP (eat rest) = POk r u /\ String.length r < String.length (eat rest) /\ p (level m) r = PErr).
Lemma listed_start : forall l s x, listed sep item l s -> final x -> start (s ++ x).
Proof. intros l s x H Hx. destruct H; rewrite ?append_assoc_s; eauto 10. Qed.
Lemma listed_go : forall l s, listed sep item l s -> forall rest, final rest ->
  exists n, forall m, n <= m -> exists r a l', l = a :: l' /\ p (level m) (s ++ rest)%string = POk r a /\
    String.length r <= String.length (s ++ rest)%string /\ forall fuel, String.length r < fuel -> sep_go sepP (p (level m)) fuel r = POk (eat rest) l'.
Proof.
  intros l s H. induction H as [a s Hi|a s b l t Hi Hb Hl IH]; intros rest Hr.
  - destruct (Hread a s rest Hi (or_introl Hr)) as [n1 H1]. destruct (Hend rest Hr) as [n2 H2].
    exists (max n1 n2). intros m Hm. exists (eat rest), a, []. split; [ reflexivity | split; [ apply H1; lia | split ] ].
    { rewrite length_append. pose proof (Heat rest). lia. }
    intros [|fuel] Hf; [ lia | ]. cbn [sep_go].
    destruct (H2 m ltac:(lia)) as [-> |(r & u & -> & Hlen & ->)]; [ reflexivity | ].
    match goal with |- context [Nat.eqb ?x ?y] => destruct (Nat.eqb_spec x y); [ lia | reflexivity ] end.
  - destruct (IH rest Hr) as [n1 H1].
    assert (goes_on (b ++ t ++ rest)) as G.
    { exists b, (t ++ rest)%string. repeat split; auto. eapply listed_start; eauto. }
    destruct (Hread a s _ Hi (or_intror G)) as [n2 H2].
    exists (max n1 n2). intros m Hm. destruct (H1 m ltac:(lia)) as (r & a' & l' & -> & E1 & E3 & E2).
    exists (eat (b ++ t ++ rest)), a, (a' :: l'). rewrite !append_assoc_s.
    split; [ reflexivity | split; [ apply H2; lia | split ] ].
    { rewrite (length_append s). pose proof (Heat (b ++ t ++ rest)%string). lia. }
    intros [|fuel] Hf; [ lia | ]. cbn [sep_go].
    destruct (Hsep b (t ++ rest)%string Hb) as (u & -> & Hlen); [ eapply listed_start; eauto | ].
    match goal with |- context [Nat.eqb ?x ?y] => destruct (Nat.eqb_spec x y); [ lia | ] end.
    rewrite E1. rewrite E2; [ reflexivity | lia ].
Qed.
Lemma listed_reads : forall l s rest, listed sep item l s -> final rest ->
  reads (fun R => separated_list1 sepP (p R)) (s ++ rest) (eat rest) l
  /\ reads (fun R => separated_list0 sepP (p R)) (s ++ rest) (eat rest) l.
Proof.
  intros l s rest H Hr. destruct (listed_go l s H rest Hr) as [n Hn].
  split; exists n; intros m Hm; destruct (Hn m Hm) as (r & a & l' & -> & E1 & _ & E2).
  - unfold separated_list1, p_bind. rewrite E1, E2 by lia. reflexivity.
  - unfold separated_list0. rewrite E1, E2 by lia. reflexivity.
Qed.
End Lists.

(** ** Separators *)
Lemma around_skip : forall c b s, is_space c = false -> around (String c "") b -> stops is_space s ->
  exists b2, spaces b2 /\ skip (b ++ s) = String c (b2 ++ s).
Proof.
  intros c b s Hc (b1 & b2 & H1 & H2 & ->) Hs. exists b2. split; auto.
  rewrite !append_assoc_s. rewrite skip_spaces by (auto; exact Hc). reflexivity.
Qed.
Lemma skip_length : forall s, String.length (skip s) <= String.length s.
Proof.
  induction s as [|c s IH]; cbn; auto. unfold skip in *. cbn [span].
  destruct (is_space c); [ | cbn; lia ]. destruct (span is_space s). cbn in *. lia.
Qed.
Lemma around_read : forall c b s, is_space c = false -> around (String c "") b -> stops is_space s ->
  ws (tag (String c "")) (b ++ s) = POk s (String c "") /\ ws (tag (String c "")) (skip (b ++ s)) = POk s (String c "")
  /\ String.length s < String.length (skip (b ++ s)) <= String.length (b ++ s)%string.
Proof.
  intros c b s Hc Hb Hs. destruct (around_skip c b s Hc Hb Hs) as (b2 & H2 & E).
  assert (ws (tag (String c "")) (b ++ s) = POk s (String c "")) as W.
  { rewrite (ws_ok _ _ _ (b2 ++ s)%string (String c "")); [ | rewrite E; apply tag1_read ]. now rewrite skip_spaces. }
  split; [ exact W | split ].
  - rewrite (ws_ok _ _ _ (b2 ++ s)%string (String c "")); [ | rewrite skip_skip, E; apply tag1_read ]. now rewrite skip_spaces.
  - split; [ rewrite E; cbn; rewrite length_append; lia | apply skip_length ].
Qed.
Lemma around_head : forall c b, is_space c = false -> around (String c "") b ->
  exists d r, b = String d r /\ (is_space d = true \/ d = c).
Proof.
  intros c b Hc (b1 & b2 & H1 & H2 & ->). destruct b1 as [|d b1]; cbn [append]; eauto.
  exists d. eexists. split; [ reflexivity | ]. left. destruct H1 as [H1 _]. now apply is_space_spec.
Qed.
Lemma gap_read : forall b s, gap b -> begins s ->
  exists u, comma_or_space_sep (b ++ s) = POk s u /\ String.length s < String.length (b ++ s)%string.
Proof.
  intros b s Hb Hs. pose proof (begins_stops s Hs) as Hst. destruct Hb as [Hb|Hb]; unfold comma_or_space_sep.
  - exists b. split.
    + rewrite or_err; [ now apply blanks_read | ]. apply ws_err. rewrite skip_spaces by (auto; now apply blanks_spaces).
      destruct s as [|c s]; [ reflexivity | ]. apply tag1_err. destruct Hs as [_ Hs]. destruct (Ascii.eqb_spec ","%char c); congruence.
    + rewrite length_append. destruct (blanks_head b Hb) as (c & r & -> & _). cbn. lia.
  - destruct (around_read ","%char b s eq_refl Hb Hst) as (W & _ & L). exists ","%string. split; [ | lia ]. now apply or_ok.
Qed.
Lemma gap_head : forall b, gap b -> exists d r, b = String d r /\ (is_space d = true \/ d = ","%char).
Proof.
  intros b [Hb|Hb]; [ | now apply around_head ]. destruct (blanks_head b Hb) as (c & r & -> & _).
  exists c, r. split; auto. left. destruct Hb as [_ [Hb _]]. now apply is_space_spec.
Qed.

(** ** Names *)
Lemma ident_begins : forall w x, field_name w -> begins (w ++ x).
Proof.
  intros w x Hw. destruct (ident_head w Hw) as (c & r & -> & Hc). cbn. split.
  - destruct Hc as [Hc| ->]; [ | reflexivity ]. apply name_char_facts. now left.
  - intros ->. destruct Hc as [Hc|Hc]; [ unfold letter in Hc; cbn in Hc; lia | discriminate ].
Qed.
Lemma ident_stops : forall w x, field_name w -> stops is_space (w ++ x).
Proof. intros w x H. now apply begins_stops, ident_begins. Qed.
Lemma space_tok : forall d r, is_space d = true -> tok_end lit_specials (String d r).
Proof. intros d r H. destruct (space_char d H) as [-> |[-> |[-> | ->]]]; split; reflexivity. Qed.
Lemma head_tok : forall d r, is_space d = true \/ d = ","%char -> tok_end lit_specials (String d r).
Proof. intros d r [H| ->]; [ now apply space_tok | split; reflexivity ]. Qed.
Lemma blanks_tok : forall b x, blanks b -> tok_end lit_specials (b ++ x).
Proof.
  intros b x Hb. destruct (blanks_head b Hb) as (c & r & -> & _). apply space_tok. destruct Hb as [_ [Hb _]]. now apply is_space_spec.
Qed.
Definition word_end (rest : string) : Prop := tok_end lit_specials rest.
Lemma gap_tok : forall b x, gap b -> tok_end lit_specials (b ++ x).
Proof. intros b x Hb. destruct (gap_head b Hb) as (d & r & -> & Hd). now apply head_tok. Qed.
Lemma spaces_then_tok : forall b c x, spaces b -> tok_end lit_specials (String c x) -> tok_end lit_specials (b ++ String c x).
Proof. intros [|d b] c x Hb Hc; auto. apply space_tok. destruct Hb as [Hb _]. now apply is_space_spec. Qed.

Lemma span_parts : forall f s, s = (fst (span f s) ++ snd (span f s))%string.
Proof.
  intros f s. induction s as [|c s IH]; [ reflexivity | ]. cbn [span]. destruct (f c); [ | reflexivity ].
  destruct (span f s). cbn in *. now rewrite IH at 1.
Qed.
(** After the last name of a list comes something that is no name *)
Definition no_name (rest : string) : Prop :=
  tok_end lit_specials rest /\ tag "," (skip rest) = PErr /\ field (skip rest) = PErr.
Lemma gap_end : forall A (p : Parser A) rest, tag "," (skip rest) = PErr -> p (skip rest) = PErr ->
  comma_or_space_sep rest = PErr \/
  exists r u, comma_or_space_sep rest = POk r u /\ String.length r < String.length rest /\ p r = PErr.
Proof.
  intros A p rest H2 H3. unfold comma_or_space_sep. rewrite or_err by now apply ws_err.
  unfold multispace1, take_while1. pose proof (span_parts is_space rest) as E. unfold skip in H3.
  destruct (span is_space rest) as [a r] eqn:S1. cbn [fst snd] in *. destruct a as [|c a]; [ now left | right ].
  exists r, (String c a). split; auto. split; auto. rewrite E, length_append. cbn. lia.
Qed.
Lemma after_no_name : forall rest, after_cmd rest -> no_name rest.
Proof.
  intros rest H. split; [ now apply after_ends | ]. pose proof (after_tail rest H) as Ht.
  revert Ht. generalize (skip rest). intros [|c t] Ht; [ split; reflexivity | destruct Ht as [-> | ->]; split; reflexivity ].
Qed.
Lemma names_read : forall fs s rest, listed gap name_item fs s -> no_name rest ->
  field_list1 (s ++ rest) = POk rest fs /\ field_list0 (s ++ rest) = POk rest fs.
Proof.
  intros fs s rest H Hr.
  destruct (listed_reads gap name_item (fun _ => field) string comma_or_space_sep (fun x => x) no_name begins) with (l := fs) (s := s) (rest := rest)
    as [[n1 H1] [n2 H2]]; auto.
  - intros a s' x [Ha ->]. intros _; solve [ apply ident_begins; auto ].
  - intros b s' Hb Hs. now apply gap_read.
  - intros a s' rest' [Ha ->] Hf. apply reads_const. apply field_ident; auto.
    destruct Hf as [[Hf _]|(b & t & Hb & _ & ->)]; auto. now apply gap_tok.
  - intros rest' (_ & Hc & Hn). exists 0. intros m _. now apply gap_end.
  - split; [ apply (H1 n1); lia | apply (H2 n2); lia ].
Qed.

(** ** The names of commands *)
Fixpoint clash (t k : string) : bool :=
  match t, k with
  | EmptyString, _ => false
  | String a _, EmptyString => negb (is_space a)
  | String a t', String c k' => if Ascii.eqb (lower_c a) (lower_c c) then clash t' k' else true
  end.
(** What ends the name of a command: white space, or the end of the text *)
Definition name_end (b x : string) : Prop := blanks b \/ b = EmptyString /\ x = EmptyString.
Lemma end_read : forall b x, name_end b x -> stops is_space x -> exists v, (multispace1 <|> eof) (b ++ x)%string = POk x v.
Proof.
  intros b x [Hb|[-> ->]] Hx; [ exists b; unfold p_or; now rewrite blanks_read | eexists; reflexivity ].
Qed.
Lemma clash_end : forall t k w b x, clash t k = true -> same_word w k -> name_end b x -> tag_no_case t (w ++ b ++ x) = PErr.
Proof.
  intros t k w b x Hc Hw Hb. unfold tag_no_case.
  assert (strip_prefix_nc t (w ++ b ++ x) = None) as ->; [ | reflexivity ].
  revert t Hc. induction Hw as [|c d w k Hl Hw IH]; intros [|a t] Hc; try discriminate.
  - destruct Hb as [Hb|[-> ->]]; [ | reflexivity ]. destruct (blanks_head b Hb) as (d & r & -> & _). cbn [append strip_prefix_nc].
    destruct (Ascii.eqb_spec (lower_c a) (lower_c d)) as [E|]; [ | reflexivity ]. exfalso.
    destruct Hb as [_ [Hb _]]. apply is_space_spec in Hb. cbn [clash] in Hc. apply negb_true_iff in Hc.
    apply lower_c_same in E. assert (a = d); [ | congruence ].
    destruct (space_char d Hb) as [-> |[-> |[-> | ->]]]; unfold same_letter in E; cbn in E; destruct E as [E|[E|E]]; auto; lia.
  - cbn [append strip_prefix_nc clash] in *. assert (lower_c c = lower_c d) as -> by now apply lower_c_same.
    destruct (Ascii.eqb (lower_c a) (lower_c d)); auto.
Qed.
Lemma clash_err : forall t k w b x, clash t k = true -> same_word w k -> blanks b -> tag_no_case t (w ++ b ++ x) = PErr.
Proof. intros t k w b x Hc Hw Hb. apply (clash_end t k); auto. now left. Qed.
Lemma name_read : forall k w b x, same_word w k -> name_end b x -> stops is_space x -> match_name k (w ++ b ++ x) = POk x tt.
Proof.
  intros k w b x Hw Hb Hx. unfold match_name, match_word, p_bind. rewrite tag_nc_read by auto.
  destruct (end_read b x Hb Hx) as [v ->]. reflexivity.
Qed.
Definition body_of (k : string) : option (Recs -> Parser Command) :=
  if String.eqb k "search" then Some (fun R => P: l <- comma_or_space_separated_list1 (expr R);
                                               P: e <- p_unwrap (combine_all_expressions l "AND"); p_ret (CSearch e))
  else if String.eqb k "bin" then Some (fun _ => p_bin)
  else if String.eqb k "bucket" then Some (fun _ => p_bin)
  else if String.eqb k "addtotals" then Some (fun _ => p_addtotals)
  else if String.eqb k "collect" then Some (fun _ => p_collect)
  else if String.eqb k "convert" then Some (fun _ => p_convert)
  else if String.eqb k "datamodel" then Some (fun _ => p_datamodel)
  else if String.eqb k "dedup" then Some (fun _ => p_dedup)
  else if String.eqb k "eval" then Some p_eval
  else if String.eqb k "eventstats" then Some p_eventstats
  else if String.eqb k "fields" then Some (fun _ => p_fields)
  else if String.eqb k "fillnull" then Some (fun _ => p_fillnull)
  else if String.eqb k "format" then Some (fun _ => p_format)
  else if String.eqb k "head" then Some p_head
  else if String.eqb k "inputlookup" then Some p_inputlookup
  else if String.eqb k "join" then Some p_join
  else if String.eqb k "lookup" then Some (fun _ => p_lookup)
  else if String.eqb k "makeresults" then Some (fun _ => p_makeresults)
  else if String.eqb k "map" then Some p_map_cmd
  else if String.eqb k "multisearch" then Some p_multisearch
  else if String.eqb k "mvcombine" then Some (fun _ => p_mvcombine)
  else if String.eqb k "mvexpand" then Some (fun _ => p_mvexpand)
  else if String.eqb k "rare" then Some (fun _ => p_rare)
  else if String.eqb k "regex" then Some (fun _ => p_regex)
  else if String.eqb k "rename" then Some (fun _ => p_rename)
  else if String.eqb k "return" then Some (fun _ => p_return)
  else if String.eqb k "rex" then Some (fun _ => p_rex)
  else if String.eqb k "sort" then Some p_sort
  else if String.eqb k "spath" then Some (fun _ => p_spath)
  else if String.eqb k "stats" then Some p_stats
  else if String.eqb k "streamstats" then Some p_streamstats
  else if String.eqb k "table" then Some (fun _ => p_table)
  else if String.eqb k "tail" then Some (fun _ => p_tail)
  else if String.eqb k "top" then Some (fun _ => p_top)
  else if String.eqb k "tstats" then Some p_tstats
  else if String.eqb k "where" then Some p_where
  else None.
Lemma cmd_clash : forall t k body w b x, clash t k = true -> same_word w k -> name_end b x -> cmd t body (w ++ b ++ x) = PErr.
Proof.
  intros t k body w b x H Hw Hb. unfold cmd, preceded, match_name, match_word, p_bind. now rewrite (clash_end t k).
Qed.
Lemma word2_clash : forall t u k (body : Parser Command) w b x, clash t k = true -> clash u k = true -> same_word w k -> name_end b x ->
  preceded (match_word (tag_no_case t <|> tag_no_case u)) body (w ++ b ++ x) = PErr.
Proof.
  intros t u k body w b x H H' Hw Hb. unfold preceded, match_word, p_bind, p_or. now rewrite (clash_end t k), (clash_end u k).
Qed.
Lemma word2_read : forall t u k w b x, k = t \/ k = u /\ clash t u = true -> same_word w k -> name_end b x -> stops is_space x ->
  match_word (tag_no_case t <|> tag_no_case u) (w ++ b ++ x) = POk x tt.
Proof.
  intros t u k w b x Hk Hw Hb Hx. unfold match_word. unfold p_bind at 1.
  assert ((tag_no_case t <|> tag_no_case u) (w ++ b ++ x)%string = POk (b ++ x)%string w) as ->.
  { destruct Hk as [<-|[-> Hc]]; [ apply or_ok; now apply tag_nc_read | ].
    rewrite or_err by now apply (clash_end t u). now apply tag_nc_read. }
  unfold p_bind. destruct (end_read b x Hb Hx) as [v ->]. reflexivity.
Qed.
Lemma dispatch_end : forall k P, body_of k = Some P -> forall R w b s r c, same_word w k -> name_end b s -> stops is_space s ->
  P R s = POk r c -> command R (w ++ b ++ s) = POk r c.
Proof.
  intros k P HP R w b s r c Hw Hb Hs H.
  Ltac go k := unfold command;
    repeat first [ rewrite or_err by (apply (cmd_clash _ k); auto; reflexivity)
                 | rewrite or_err by (apply (word2_clash _ _ k); auto; reflexivity) ];
    first [ apply or_ok; unfold cmd, preceded, p_bind; rewrite (name_read k); auto
          | apply or_ok; unfold preceded; unfold p_bind at 1; rewrite (word2_read "bin" "bucket" k); auto
          | unfold p_search, preceded; unfold p_bind at 1; rewrite (or_ok _ _ _ _ _ _ (name_read k _ _ _ ltac:(eassumption) ltac:(eassumption) ltac:(eassumption))); auto ].
  unfold body_of in HP.
  repeat match type of HP with
         | (if String.eqb k ?n then _ else _) = _ =>
             destruct (String.eqb_spec k n) as [E|_]; [ rewrite E in Hw; injection HP as <-; go n | ]
         end.
  discriminate.
Qed.
Lemma dispatch : forall k P, body_of k = Some P -> forall R w b s r c, same_word w k -> blanks b -> stops is_space s ->
  P R s = POk r c -> command R (w ++ b ++ s) = POk r c.
Proof. intros k P HP R w b s r c Hw Hb. apply (dispatch_end k P HP); auto. now left. Qed.

(** ** What each command reads *)
Definition reads_body (P : Recs -> Parser Command) (c : Command) (s : string) : Prop :=
  (forall x, stops is_space (s ++ x)) /\
  forall rest, after_cmd rest -> exists rest', (rest' = rest \/ rest' = skip rest) /\ reads P (s ++ rest) rest' c.
Lemma tail_expr : forall R tail, cmd_tail tail -> expr R tail = PErr.
Proof. intros R. by_tail. Qed.
Lemma tail_comma : forall rest, after_cmd rest -> tag "," (skip rest) = PErr.
Proof. intros rest H. now apply after_no_name. Qed.

Lemma search_body : forall t s, wf t -> writes 9 t s ->
  reads_body (fun R => P: l <- comma_or_space_separated_list1 (expr R);
                       P: e <- p_unwrap (combine_all_expressions l "AND"); p_ret (CSearch e)) (CSearch (meaning t)) s.
Proof.
  intros t s Ht Hs. pose proof (written_reads 9 t s Hs Ht) as E. split; [ apply (et_stops _ _ _ E) | ].
  intros rest Hr. exists rest. split; [ now left | ].
  destruct (after_closed rest Hr) as [C1 C2]. destruct (ex_reads _ _ E rest C1 C2) as [n H]. exists n. intros m Hm.
  unfold p_bind at 1. unfold comma_or_space_separated_list1, separated_list1. unfold p_bind at 1. rewrite (H m Hm).
  assert (sep_go comma_or_space_sep (expr (level m)) (S (String.length rest)) rest = POk rest []) as G.
  { cbn [sep_go]. destruct (gap_end _ (expr (level m)) rest (tail_comma rest Hr) (tail_expr _ _ (after_tail rest Hr)))
      as [-> |(r & u & -> & Hl & ->)]; [ reflexivity | ].
    match goal with |- context [Nat.eqb ?x ?y] => destruct (Nat.eqb_spec x y); [ lia | reflexivity ] end. }
  unfold p_bind at 1. rewrite G. reflexivity.
Qed.
(** *** eval *)
Lemma comma_closed : forall b x, around "," b -> begins x -> closed (b ++ x) /\ op9 (b ++ x) = PErr /\ tok_end lit_specials (b ++ x).
Proof.
  intros b x Hb Hx. destruct (around_skip ","%char b x eq_refl Hb (begins_stops x Hx)) as (b2 & H2 & E).
  assert (tok_end lit_specials (b ++ x)) as T.
  { destruct (around_head ","%char b eq_refl Hb) as (d & r & -> & Hd). now apply head_tok. }
  repeat split; auto; try (apply ws_err; rewrite E; reflexivity).
  destruct (around_head ","%char b eq_refl Hb) as (d & r & -> & [Hd| ->]); [ | discriminate ].
  cbn. intros ->. discriminate.
Qed.

(** ** Search terms *)
Definition no_letter_head (x : string) : Prop := match x with String c _ => ~ letter c | EmptyString => True end.
Lemma strip_nc_inv : forall k s x r, all_chars letter k -> no_letter_head x -> strip_prefix_nc k (s ++ x) = Some r ->
  exists a b, s = (a ++ b)%string /\ same_word a k /\ r = (b ++ x)%string.
Proof.
  induction k as [|d k IH]; intros s x r Hk Hx H.
  - injection H as <-. exists EmptyString, s. repeat split. constructor.
  - destruct Hk as [Hd Hk]. destruct s as [|c s].
    + exfalso. cbn in H. destruct x as [|c x]; [ discriminate | ]. destruct (Ascii.eqb_spec (lower_c d) (lower_c c)) as [E|]; [ | discriminate ].
      apply Hx. apply lower_c_same in E. unfold letter, same_letter in *. destruct E as [<-|E]; lia.
    + cbn in H. destruct (Ascii.eqb_spec (lower_c d) (lower_c c)) as [E|]; [ | discriminate ].
      destruct (IH s x r Hk Hx H) as (a & b & -> & Ha & ->). exists (String c a), b. repeat split. constructor; auto.
      apply lower_c_same. now symmetry.
Qed.
Lemma starts_err : forall k s x, all_chars letter k -> no_letter_head x -> ~ starts_word k s -> tag_no_case k (s ++ x) = PErr.
Proof.
  intros k s x Hk Hx H. unfold tag_no_case. destruct (strip_prefix_nc k (s ++ x)) as [r|] eqn:E; auto.
  destruct (strip_nc_inv k s x r Hk Hx E) as (a & b & Es & Ha & _). exfalso. apply H. exists a, b. auto.
Qed.
Lemma tok_no_letter : forall x, tok_end lit_specials x -> no_letter_head x.
Proof.
  intros [|c x] H; [ exact I | ]. destruct H as [H _]. cbn. intro Hl. pose proof (name_char_tok c (or_introl Hl)) as [_ E]. congruence.
Qed.
Definition term_head (c : ascii) : Prop := letter c \/ digit c \/ In c ["_"%char; "("%char; ascii_of_nat 34].
Lemma term_head_not : forall c x, term_head c -> In x ["*"; "/"; "+"; "-"; "."; "="; "!"; "<"; ">"; ":"; ","; "|"; "]"]%char -> c <> x.
Proof.
  intros c x Hc Hx ->. destruct Hc as [Hc|[Hc|Hc]].
  - unfold letter in Hc. repeat (destruct Hx as [<-|Hx]; [ cbn in Hc; lia | ]). destruct Hx.
  - unfold digit in Hc. repeat (destruct Hx as [<-|Hx]; [ cbn in Hc; lia | ]). destruct Hx.
  - repeat (destruct Hx as [<-|Hx]; [ repeat (destruct Hc as [Hc|Hc]; [ discriminate | ]); destruct Hc | ]). destruct Hx.
Qed.
Lemma head_nc_err : forall c r x k, c <> x -> (nat_of_ascii x < 65) -> tag_no_case (String x k) (String c r) = PErr.
Proof.
  intros c r x k Hn Hx. unfold tag_no_case. cbn. destruct (Ascii.eqb_spec (lower_c x) (lower_c c)) as [E|]; auto.
  apply lower_c_same in E. unfold same_letter in E. destruct E as [E|E]; [ congruence | lia ].
Qed.
Lemma head_tag_err : forall c r x k, c <> x -> tag (String x k) (String c r) = PErr.
Proof. intros c r x k H. unfold tag. cbn. destruct (Ascii.eqb_spec x c); congruence. Qed.
Lemma term_stops : forall c r, term_head c -> begins (String c r).
Proof.
  intros c r Hc. split.
  - destruct Hc as [Hc|[Hc|Hc]].
    + apply name_char_facts. now left.
    + apply name_char_facts. now right; left.
    + repeat (destruct Hc as [<-|Hc]; [ reflexivity | ]). destruct Hc.
  - apply (term_head_not c ","%char Hc). cbn. tauto.
Qed.
Lemma bool_spaces : forall b, sforall is_space b = true -> spaces b.
Proof. induction b as [|c b IH]; cbn; auto. intro H. apply andb_true_iff in H. destruct H as [H1 H2]. split; [ now apply is_space_spec | now apply IH ]. Qed.
Lemma span_space : forall f s, sforall f (fst (span f s)) = true.
Proof. intros f s. induction s as [|c s IH]; cbn; auto. destruct (f c) eqn:E; auto. destruct (span f s). cbn in *. now rewrite E. Qed.
Lemma term_closed : forall b s x, blanks b -> no_letter_head x ->
  (exists c r, s = String c r /\ term_head c) -> ~ starts_word "AND" s -> ~ starts_word "OR" s -> ~ starts_in s ->
  closed (b ++ s ++ x) /\ op9 (b ++ s ++ x) = PErr /\ tok_end lit_specials (b ++ s ++ x).
Proof.
  intros b s x Hb Hx (c & r & E & Hc) HA HO HI.
  assert (forall k, all_chars letter k -> ~ starts_word k s -> tag_no_case k (s ++ x) = PErr) as K by (intros; now apply starts_err).
  assert (skip (b ++ s ++ x) = (s ++ x)%string) as S1.
  { apply skip_spaces; [ now apply blanks_spaces | ]. rewrite E. now apply begins_stops, term_stops. }
  assert (forall A (p : Parser A), p (s ++ x)%string = PErr -> ws p (b ++ s ++ x) = PErr) as W.
  { intros A p H. apply ws_err. now rewrite S1. }
  assert (forall y k, In y ["*"; "/"; "+"; "-"; "."; "="; "!"; "<"; ">"; ":"]%char -> tag_no_case (String y k) (s ++ x)%string = PErr) as N.
  { intros y k Hy. rewrite E. cbn [append]. apply head_nc_err; [ apply term_head_not; auto; cbn in Hy |- *; tauto | ].
    cbn in Hy. repeat (destruct Hy as [<-|Hy]; [ cbn; lia | ]). destruct Hy. }
  assert (forall y k, In y ["*"; "/"; "+"; "-"; "."; "="; "!"; "<"; ">"; ":"]%char -> tag (String y k) (s ++ x)%string = PErr) as T.
  { intros y k Hy. rewrite E. cbn [append]. apply head_tag_err. apply term_head_not; auto; cbn in Hy |- *; tauto. }
  assert (In "AND"%string ["AND"]%string) as _ by now left.
  assert (all_chars letter "AND" /\ all_chars letter "OR" /\ all_chars letter "IN") as (LA & LO & LI) by (unfold letter; cbn; repeat split; lia).
  split; [ split; [ split; [ now apply blanks_tok | split ] | ] | split ].
  - destruct (blanks_head b Hb) as (d & r' & -> & _ & [-> |[-> |[-> | ->]]]); discriminate.
  - apply W. unfold p_bind, tag_no_case. destruct (strip_prefix_nc "IN" (s ++ x)) as [v|] eqn:Ev; auto.
    destruct (strip_nc_inv "IN" s x v LI Hx Ev) as (a & b' & Es & Ha & ->).
    rewrite ms0_eq. rewrite (span_parts is_space b') in Es |- *. set (b1 := fst (span is_space b')) in *. set (y := snd (span is_space b')) in *.
    assert (sforall is_space b1 = true) as Sb by apply span_space.
    assert (stops is_space (y ++ x)) as Sy.
    { destruct y as [|d y'] eqn:Ey; [ exfalso | ].
      - apply HI. exists a, b1, EmptyString. repeat split; auto. now apply bool_spaces.
      - pose proof (span_rest_stops is_space b') as Q. fold y in Q. rewrite Ey in Q. exact Q. }
    rewrite append_assoc_s, span_exact by auto. cbn [fst snd].
    destruct y as [|d y'] eqn:Ey.
    + exfalso. apply HI. exists a, b1, EmptyString. repeat split; auto. now apply bool_spaces.
    + cbn [append]. rewrite head_tag_err; auto. intros ->. apply HI. exists a, b1, (String "(" y'). repeat split; auto. now apply bool_spaces.
  - repeat split; apply W.
    + unfold p_or. now rewrite !N by (cbn; tauto).
    + unfold p_or. now rewrite !N by (cbn; tauto).
    + unfold op_concat, delimited, p_bind. rewrite ms0_eq, span_stops; [ | rewrite E; now apply begins_stops, term_stops ].
      cbn [fst snd]. now rewrite T by (cbn; tauto).
    + unfold comparison_op_text, op_equals, p_or. now rewrite !N, !T by (cbn; tauto).
    + apply K; auto.
  - apply W. unfold op_and, p_or. rewrite K by auto. rewrite E. apply head_tag_err. intros ->.
    pose proof (term_stops " "%char r Hc) as [Y _]. discriminate.
  - now apply blanks_tok.
Qed.
Lemma item_head : forall e s, search_item e s -> exists c r, s = String c r /\ term_head c.
Proof. intros e s (t & _ & _ & _ & H & _). destruct s as [|c r]; [ destruct H | ]. exists c, r. auto. Qed.
Lemma terms_read : forall l s rest, listed gap search_item l s -> after_cmd rest ->
  reads (fun R => comma_or_space_separated_list1 (expr R)) (s ++ rest) rest l.
Proof.
  intros l s rest H Hr.
  destruct (listed_reads gap search_item expr string comma_or_space_sep (fun x => x) after_cmd
    (fun t => exists e u x, t = (u ++ x)%string /\ search_item e u /\ no_letter_head x)) with (l := l) (s := s) (rest := rest) as [R _]; auto.
  - intros a s' x Ha Hx. exists a, s', x. repeat split; auto. apply tok_no_letter.
    destruct Hx as [Hx|(b & t & Hb & ->)]; [ now apply after_ends | now apply gap_tok ].
  - intros b s' Hb (e & u & x & -> & Hu & _). destruct (item_head e u Hu) as (c & r & -> & Hc).
    apply gap_read; auto. cbn [append]. now apply term_stops.
  - intros a s' x (t & Ht & Hw & -> & _) Hx. pose proof (written_reads 9 t s' Hw Ht) as E.
    assert (closed x /\ op9 x = PErr) as [C1 C2].
    { destruct Hx as [Hx|(b & y & [Hb|Hb] & (e & u & z & -> & Hu & Hz) & ->)].
      - now apply after_closed.
      - pose proof (item_head e u Hu) as Hh. destruct Hu as (_ & _ & _ & _ & _ & H1 & H2 & H3).
        destruct (term_closed b u z Hb Hz Hh H1 H2 H3) as (A1 & A2 & _). auto.
      - destruct (item_head e u Hu) as (c & r & -> & Hc).
        destruct (comma_closed b (String c r ++ z)%string Hb (term_stops c _ Hc)) as (A1 & A2 & _). auto. }
    apply (ex_reads _ _ E x C1 C2).
  - intros x Hx. exists 0. intros m _. apply gap_end; [ now apply tail_comma | apply tail_expr; now apply after_tail ].
Qed.
Lemma search_terms_body : forall l s, listed gap search_item l s ->
  reads_body (fun R => P: l <- comma_or_space_separated_list1 (expr R);
                       P: e <- p_unwrap (combine_all_expressions l "AND"); p_ret (CSearch e)) (CSearch (joined_meaning "AND" l)) s.
Proof.
  intros l s H. split.
  { intro x. apply begins_stops. revert H. apply listed_begins. intros a s' x' Ha. destruct (item_head a s' Ha) as (c & r & -> & Hc).
    cbn [append]. now apply term_stops. }
  intros rest Hr. exists rest. split; [ now left | ]. destruct (terms_read l s rest H Hr) as [n Hn]. exists n. intros m Hm.
  unfold p_bind at 1. rewrite (Hn m Hm). destruct H; reflexivity.
Qed.
Lemma list_closed : forall rest, after_cmd rest \/ goes_on (around ",") begins rest ->
  closed rest /\ op9 rest = PErr /\ tok_end lit_specials rest.
Proof.
  intros rest [H|(b & t & Hb & Ht & ->)].
  - destruct (after_closed rest H). repeat split; auto; try apply H0.
  - now apply comma_closed.
Qed.
Lemma comma_end : forall rest, after_cmd rest -> comma_sep rest = PErr /\ comma_sep (skip rest) = PErr.
Proof. intros rest H. split; apply ws_err; rewrite ?skip_skip; now apply tail_comma. Qed.
Lemma assign_reads2 : forall a s rest, assign_item a s -> after_cmd rest \/ goes_on (around ",") begins rest ->
  reads assign (s ++ rest) (skip rest) a.
Proof.
  intros a s rest (f & t & u & b1 & b2 & Hf & Ht & Hu & H1 & H2 & -> & ->) Hr.
  destruct (list_closed rest Hr) as (C1 & C2 & C3).
  pose proof (written_reads 9 t u Hu Ht) as E. destruct (ex_reads _ _ E rest C1 C2) as [n H]. exists n. intros m Hm.
  rewrite !append_assoc_s. unfold assign, separated_pair, p_bind.
  assert (St : stops is_space (String "=" (b2 ++ u ++ rest))) by reflexivity.
  rewrite (ws_ok _ _ _ (b1 ++ "=" ++ b2 ++ u ++ rest)%string f).
  2:{ rewrite skip_stops by solve [ apply ident_stops; auto ]. apply field_ident; auto.
      change ("=" ++ b2 ++ u ++ rest)%string with (String "=" (b2 ++ u ++ rest)). apply spaces_then_tok; auto. split; reflexivity. }
  change ("=" ++ b2 ++ u ++ rest)%string with (String "=" (b2 ++ u ++ rest)).
  rewrite skip_spaces by auto.
  rewrite (ws_ok _ _ _ (b2 ++ u ++ rest)%string "="%string) by (rewrite skip_stops; auto; apply tag1_read).
  pose proof (et_stops _ _ _ E rest) as Sr. rewrite skip_spaces by auto.
  rewrite (ws_ok _ _ _ rest (meaning t)) by (rewrite skip_stops; auto). reflexivity.
Qed.
Lemma assign_begins : forall a s x, assign_item a s -> begins (s ++ x).
Proof. intros a s x (f & t & u & b1 & b2 & Hf & _ & _ & _ & _ & _ & ->). rewrite append_assoc_s. solve [ apply ident_begins; auto ]. Qed.
Lemma eval_body : forall l s, listed (around ",") assign_item l s -> reads_body p_eval (CEval l) s.
Proof.
  intros l s H. split.
  { intro x. apply begins_stops. revert H. apply listed_begins. exact assign_begins. }
  intros rest Hr. exists (skip rest). split; [ now right | ].
  destruct (listed_reads (around ",") assign_item assign string comma_sep skip after_cmd begins) with (l := l) (s := s) (rest := rest)
    as [_ [n Hn]]; auto.
  - intros a s' x Ha _. now apply (assign_begins a).
  - apply skip_length.
  - intros b s' Hb Hs. destruct (around_read ","%char b s' eq_refl Hb (begins_stops _ Hs)) as (_ & W & L). exists ","%string. split; [ exact W | lia ].
  - apply assign_reads2.
  - intros rest' H'. exists 0. intros m _. left. now apply comma_end.
  - exists n. intros m Hm. unfold p_eval, p_map, p_bind, comma_separated_list0. fold (assign (level m)). now rewrite (Hn m Hm).
Qed.

(** *** head, tail *)
Lemma tok_no_digit : forall rest, tok_end lit_specials rest -> no_digit rest.
Proof.
  intros [|c r]; cbn; auto. intros [H _] D. apply is_digit_spec in D. unfold tok_char in H. apply orb_false_iff in H.
  destruct H as [_ H]. unfold is_alnum in H. rewrite D, ?orb_true_r in H. discriminate.
Qed.
Lemma count_read : forall n rest, (0 <= n < 2 ^ 63)%Z -> tok_end lit_specials rest -> p_int (decimal n ++ rest) = POk rest n.
Proof. intros n rest Hn Hr. apply p_int_decimal_ok; [ unfold int64_nonmin; lia | now apply tok_no_digit ]. Qed.
Lemma decimal_stops : forall n x, stops is_space (decimal n ++ x).
Proof.
  intros n x. destruct (decimal_numeral n) as (m & d & -> & Hd & _). destruct (numeral_chars m d x Hd) as (c & r & -> & Hc).
  cbn. now apply numeral_head_facts.
Qed.
Lemma head_body : forall n, (0 <= n < 2 ^ 63)%Z -> reads_body p_head (CHead (ELeaf (LConstant (KInt n))) false false) (decimal n).
Proof.
  intros n Hn. split; [ apply decimal_stops | ]. intros rest Hr. exists (skip rest). split; [ now right | ].
  exists 0. intros m _. unfold p_head. unfold p_bind at 1.
  rewrite (ws_ok _ _ _ rest (eint n)).
  2:{ rewrite skip_stops by apply decimal_stops. apply or_ok. unfold p_map. unfold p_bind at 1.
      rewrite (or_ok _ _ _ _ _ _ (count_read n rest Hn (after_ends rest Hr))). reflexivity. }
  assert (forall (p : Parser (option bool)) tail, cmd_tail tail -> p tail = POk tail None -> ws p tail = POk tail None) as W.
  { intros p tail Ht Hp. rewrite (ws_ok _ _ _ tail None); [ now rewrite skip_stops by now apply tail_stops | ].
    now rewrite skip_stops by now apply tail_stops. }
  pose proof (after_tail rest Hr) as Ht. unfold p_bind at 1. rewrite W; auto.
  2:{ revert Ht. generalize (skip rest). by_tail. }
  unfold p_bind at 1. rewrite W; auto. revert Ht. generalize (skip rest). by_tail.
Qed.
Lemma u64_small : forall n, (0 <= n < 2 ^ 63)%Z -> as_u64 n = n.
Proof. intros n Hn. unfold as_u64. apply Z.mod_small. lia. Qed.
Lemma tail_body : forall n, (0 <= n < 2 ^ 63)%Z -> reads_body (fun _ => p_tail) (CTail n) (decimal n).
Proof.
  intros n Hn. split; [ apply decimal_stops | ]. intros rest Hr. exists rest. split; [ now left | ].
  apply reads_const. unfold p_tail, p_map, p_bind. rewrite count_read by (auto; now apply after_ends). unfold p_ret. now rewrite u64_small.
Qed.

(** *** table, fields *)
Lemma names_stop : forall fs s x, listed gap name_item fs s -> stops is_space (s ++ x).
Proof.
  intros fs s x H. apply begins_stops. revert H. apply listed_begins. intros a s' x' [Ha ->]. solve [ apply ident_begins; auto ].
Qed.
Lemma names_head : forall fs s x, listed gap name_item fs s -> exists c r, (s ++ x)%string = String c r /\ (letter c \/ c = "_"%char).
Proof.
  intros fs s x H. destruct H as [a s [Ha ->]|a s b l t [Ha ->] _ _]; rewrite ?append_assoc_s;
    destruct (ident_head a Ha) as (c & r & -> & Hc); cbn [append]; eauto.
Qed.
Lemma table_body : forall fs s, listed gap name_item fs s -> reads_body (fun _ => p_table) (CTable fs) s.
Proof.
  intros fs s H. split; [ intro x; eapply names_stop; eauto | ]. intros rest Hr. exists rest. split; [ now left | ].
  apply reads_const. unfold p_table, p_map, p_bind. now rewrite (proj1 (names_read fs s rest H (after_no_name rest Hr))).
Qed.
Lemma fields_body : forall fs s sign b, listed gap name_item fs s -> spaces b -> sign = "+"%char \/ sign = "-"%char ->
  reads_body (fun _ => p_fields) (CFields (Ascii.eqb sign "-") fs) (String sign (b ++ s)).
Proof.
  intros fs s sign b H Hb Hs. split; [ destruct Hs as [-> | ->]; reflexivity | ]. intros rest Hr. exists rest. split; [ now left | ].
  apply reads_const. unfold p_fields. unfold p_bind at 1. cbn [append]. rewrite append_assoc_s.
  assert (opt (ws plus_minus) (String sign (b ++ s ++ rest)) = POk (s ++ rest)%string (Some (String sign ""))) as ->.
  { unfold opt. rewrite (ws_ok _ _ _ (b ++ s ++ rest)%string (String sign "")).
    - rewrite skip_spaces; auto. eapply names_stop; eauto.
    - destruct Hs as [-> | ->]; reflexivity. }
  unfold p_bind at 1. rewrite (proj1 (names_read fs s rest H (after_no_name rest Hr))).
  destruct Hs as [-> | ->]; reflexivity.
Qed.
Lemma sign_err : forall c r, letter c \/ c = "_"%char -> plus_minus (String c r) = PErr.
Proof.
  intros c r Hc. unfold plus_minus. rewrite or_err; apply tag1_err; apply (head_not c); auto; try discriminate;
    apply not_letter_code; cbn; lia.
Qed.
Lemma fields_body0 : forall fs s, listed gap name_item fs s -> reads_body (fun _ => p_fields) (CFields false fs) s.
Proof.
  intros fs s H. split; [ intro x; eapply names_stop; eauto | ]. intros rest Hr. exists rest. split; [ now left | ].
  apply reads_const. unfold p_fields. unfold p_bind at 1.
  assert (opt (ws plus_minus) (s ++ rest)%string = POk (s ++ rest)%string None) as ->.
  { unfold opt. rewrite ws_err; [ reflexivity | ]. rewrite skip_stops by (eapply names_stop; eauto).
    destruct (names_head fs s rest H) as (c & r & -> & Hc). now apply sign_err. }
  unfold p_bind at 1. now rewrite (proj1 (names_read fs s rest H (after_no_name rest Hr))).
Qed.

(** *** rename *)
Lemma as_read : forall k b1 w b2 x, same_word w k -> blanks b1 -> blanks b2 -> stops is_space x ->
  stops is_space (w ++ b2 ++ x) -> ws (tag_no_case k) (b1 ++ w ++ b2 ++ x) = POk x w.
Proof.
  intros k b1 w b2 x Hw H1 H2 Hx Hs. rewrite (ws_ok _ _ _ (b2 ++ x)%string w).
  - rewrite skip_spaces; auto. now apply blanks_spaces.
  - rewrite skip_spaces by (auto; now apply blanks_spaces). now apply tag_nc_read.
Qed.
Lemma word_stops : forall k w x, same_word w k -> all_chars letter k -> k <> EmptyString -> stops is_space (w ++ x).
Proof.
  intros k w x H Hk Hn. destruct H as [|c d s t Hl H]; [ congruence | ]. cbn. destruct Hk as [Hk _].
  apply is_space_false. unfold white, letter, same_letter in *. intro Hw. cbn in Hw.
  destruct Hl as [-> |Hl]; lia.
Qed.
Lemma new_name_read : forall n u rest, new_name n u -> tok_end lit_specials rest -> (token <|> double_quoted) (u ++ rest)%string = POk rest n.
Proof.
  intros n u rest [[Hn ->]|[Hn ->]] Hr.
  - apply or_ok. now apply token_ident.
  - destruct (plain_string_facts n Hn) as (Hne & Hp & Hw & _). rewrite or_err by reflexivity. now apply double_quoted_plain.
Qed.
Lemma new_name_stops : forall n u x, new_name n u -> stops is_space (u ++ x).
Proof. intros n u x [[Hn ->]|[Hn ->]]; [ solve [ apply ident_stops; auto ] | reflexivity ]. Qed.
Definition renames : Parser (Expr * string) := p_map (fun fa => (efield (fst fa), snd fa)) aliased_field.
Lemma rename_reads : forall a s rest, rename_item a s -> tok_end lit_specials rest -> renames (s ++ rest) = POk rest a.
Proof.
  intros a s rest (f & n & u & b1 & b2 & w & Hf & Hn & H1 & H2 & Hw & -> & ->) Hr. rewrite !append_assoc_s.
  unfold renames, p_map, p_bind, aliased_field, separated_pair, p_bind. rewrite field_ident by (auto; now apply blanks_tok).
  rewrite (as_read "AS"); auto.
  - now rewrite (new_name_read n u rest).
  - apply same_word_lower. apply same_word_lower in Hw. exact Hw.
  - now apply (new_name_stops n).
  - apply (word_stops "as"); auto; [ unfold letter; cbn; lia | discriminate ].
Qed.
Lemma map_separated : forall A B C (f : A -> B) (sep : Parser C) (p : Parser A) s,
  separated_list1 sep (p_map f p) s = p_map (map f) (separated_list1 sep p) s.
Proof.
  intros A B C f sep p s.
  assert (forall fuel s, sep_go sep (p_map f p) fuel s = match sep_go sep p fuel s with POk r l => POk r (map f l) | PErr => PErr | PPanic => PPanic | PFuel => PFuel end) as G.
  { induction fuel as [|fuel IH]; intro x; cbn [sep_go]; auto. destruct (sep x); auto.
    destruct (Nat.eqb _ _); auto. unfold p_map at 1, p_bind at 1. destruct (p rest); auto. unfold p_ret at 1. rewrite IH.
    destruct (sep_go sep p fuel rest0); auto. }
  unfold separated_list1, p_map, p_bind. destruct (p s); auto. unfold p_ret at 1. fold (p_map f p). rewrite G.
  destruct (sep_go sep p (S (String.length rest)) rest); auto.
Qed.
(** Lists separated by commas whose items leave what follows untouched *)
Lemma commas_read : forall A (item : A -> string -> Prop) (p : Recs -> Parser A) final l s rest,
  (forall a s x, item a s -> begins (s ++ x)) ->
  (forall a s rest, item a s -> final rest \/ goes_on (around ",") begins rest -> reads p (s ++ rest) rest a) ->
  (forall rest, final rest -> comma_sep rest = PErr) ->
  listed (around ",") item l s -> final rest ->
  reads (fun R => separated_list1 comma_sep (p R)) (s ++ rest) rest l.
Proof.
  intros A item p final l s rest H1 H2 H3 H Hr.
  apply (listed_reads (around ",") item p string comma_sep (fun x => x) final begins); auto.
  - intros a s' x Ha _. now apply (H1 a).
  - intros b s' Hb Hs. destruct (around_read ","%char b s' eq_refl Hb (begins_stops _ Hs)) as (W & _ & L). exists ","%string. split; [ exact W | lia ].
  - intros rest' H'. exists 0. intros m _. left. auto.
Qed.
Lemma rename_body : forall l s, listed (around ",") rename_item l s -> reads_body (fun _ => p_rename) (CRename l) s.
Proof.
  intros l s H.
  assert (Hb : forall a s x, rename_item a s -> begins (s ++ x)).
  { intros a s' x (f & n & u & b1 & b2 & w & Hf & _ & _ & _ & _ & _ & ->). rewrite append_assoc_s. solve [ apply ident_begins; auto ]. }
  split.
  { intro x. apply begins_stops. revert H. now apply listed_begins. }
  intros rest Hr. exists rest. split; [ now left | ].
  destruct (commas_read _ rename_item (fun _ => renames) after_cmd l s rest) as [n Hn]; auto.
  - intros a s' rest' Ha Hf. apply reads_const. apply rename_reads; auto. now apply list_closed.
  - intros rest' H'. now apply comma_end.
  - exists n. intros m Hm. pose proof (Hn m Hm) as E. unfold renames in E. rewrite map_separated in E.
    unfold p_rename, comma_separated_list1. unfold p_map, p_bind in *.
    destruct (separated_list1 comma_sep aliased_field (s ++ rest)%string); try discriminate.
    unfold p_ret in *. injection E as -> E. now rewrite <- E.
Qed.

(** *** sort *)
Lemma key_text : forall t, (match t with TField _ | TCall _ _ => True | _ => False end) -> wf t ->
  forall x, exists c r, (show t ++ x)%string = String c r /\ (letter c \/ c = "_"%char).
Proof.
  intros [f| | | | |n args| |] H Hw x; try contradiction; cbn [show].
  - destruct (ident_head f Hw) as (c & r & -> & Hc). cbn [append]. eauto.
  - destruct Hw as [Hw _]. destruct (ident_head n Hw) as (c & r & -> & Hc). cbn [append]. eauto.
Qed.
Lemma head_begins : forall c r, letter c \/ c = "_"%char -> begins (String c r).
Proof.
  intros c r Hc. cbn. split.
  - destruct Hc as [Hc| ->]; [ | reflexivity ]. apply name_char_facts. now left.
  - intros ->. destruct Hc as [Hc|Hc]; [ unfold letter in Hc; cbn in Hc; lia | discriminate ].
Qed.
Lemma sort_begins : forall a s x, sort_item a s -> begins (s ++ x).
Proof.
  intros a s x (sign & t & Ht & Hw & Hs & _ & ->). rewrite append_assoc_s.
  destruct Hs as [[-> _]|[[-> | ->] _]]; cbn [append]; try (split; [ reflexivity | discriminate ]).
  destruct (key_text t Ht Hw x) as (c & r & -> & Hc). now apply head_begins.
Qed.
Lemma show_reads : forall t rest, wf t -> closed rest -> op9 rest = PErr -> reads expr (show t ++ rest) rest (meaning t).
Proof. intros t rest Hw C1 C2. apply (ex_reads _ _ (written_reads 9 t (show t) (proj1 (show_writes t)) Hw)); auto. Qed.
Lemma sort_reads : forall a s rest, sort_item a s -> closed rest -> op9 rest = PErr ->
  reads (fun R => pair_ (opt plus_minus) (expr R)) (s ++ rest) rest a.
Proof.
  intros [o e] s rest (sign & t & Ht & Hw & Hs & He & ->) C1 C2. cbn [fst snd] in *. subst e.
  destruct (show_reads t rest Hw C1 C2) as [n H]. exists n. intros m Hm. rewrite append_assoc_s. unfold pair_, p_bind.
  destruct Hs as [[-> ->]|[[-> | ->] ->]]; cbn [append]; unfold opt.
  - destruct (key_text t Ht Hw rest) as (c & r & E & Hc). rewrite E, sign_err by auto. rewrite <- E. now rewrite (H m Hm).
  - change (plus_minus (String "+" (show t ++ rest))) with (POk (show t ++ rest)%string "+"%string). cbn iota. now rewrite (H m Hm).
  - change (plus_minus (String "-" (show t ++ rest))) with (POk (show t ++ rest)%string "-"%string). cbn iota. now rewrite (H m Hm).
Qed.
Lemma no_int : forall c r, letter c \/ c = "_"%char -> p_int (String c r) = PErr.
Proof.
  intros c r Hc. unfold p_int, p_sign, opt. unfold p_bind at 1. fold plus_minus. rewrite sign_err by auto.
  unfold p_bind, unwrapped, p_map, p_bind. rewrite digit1_head_err; auto. now apply head_no_digit.
Qed.
Lemma signed_no_int : forall sign c r, sign = "+"%char \/ sign = "-"%char -> letter c \/ c = "_"%char -> p_int (String sign (String c r)) = PErr.
Proof.
  intros sign c r Hs Hc. unfold p_int, p_bind.
  assert (p_sign (String sign (String c r)) = POk (String c r) (Some (String sign ""))) as -> by (destruct Hs as [-> | ->]; reflexivity).
  unfold unwrapped, p_map, p_bind. rewrite digit1_head_err; auto. now apply head_no_digit.
Qed.
Lemma keys_head : forall l s x, listed (around ",") sort_item l s -> exists sign c r,
  (s ++ x)%string = (sign ++ String c r)%string /\ (letter c \/ c = "_"%char) /\ (sign = EmptyString \/ sign = "+"%string \/ sign = "-"%string).
Proof.
  assert (forall a s x, sort_item a s -> exists sign c r,
    (s ++ x)%string = (sign ++ String c r)%string /\ (letter c \/ c = "_"%char) /\ (sign = EmptyString \/ sign = "+"%string \/ sign = "-"%string)) as K.
  { intros a s x (sign & t & Ht & Hw & Hs & _ & ->). destruct (key_text t Ht Hw x) as (c & r & E & Hc).
    exists sign, c, r. rewrite append_assoc_s, E. repeat split; auto. destruct Hs as [[-> _]|[[-> | ->] _]]; auto. }
  intros l s x H. destruct H as [a s Ha|a s b l t Ha _ _]; rewrite ?append_assoc_s; eapply K; eauto.
Qed.
(** A word that is not followed by an equals sign begins no option *)
Definition no_eq (x : string) : Prop := match x with EmptyString => True | String c _ => c <> "="%char /\ ~ letter c end.
Lemma word_eq_err : forall k w x, all_chars letter k -> all_chars fchar w -> no_eq x -> tag_no_case (k ++ "=") (w ++ x) = PErr.
Proof.
  intros k w x Hk Hw Hx. unfold tag_no_case.
  assert (strip_prefix_nc (k ++ "=") (w ++ x) = None) as ->; [ | reflexivity ].
  assert (E0 : forall c, lower_c "="%char = lower_c c -> c = "="%char).
  { intros c E. apply lower_c_same in E. destruct E as [<-|E]; auto. cbn in E. lia. }
  revert w Hw. induction k as [|a k IH]; intros w Hw.
  - destruct w as [|c w]; cbn [append strip_prefix_nc].
    + destruct x as [|c x]; auto. destruct (Ascii.eqb_spec (lower_c "="%char) (lower_c c)) as [E|]; auto.
      apply E0 in E. destruct Hx; congruence.
    + destruct Hw as [Hc _]. destruct (Ascii.eqb_spec (lower_c "="%char) (lower_c c)) as [E|]; auto.
      apply E0 in E. subst c. exfalso. now apply (fchar_neq "="%char) in Hc; [ | nl | unfold digit; cbn; lia | cbn; intuition discriminate ].
  - destruct Hk as [Ha Hk]. destruct w as [|c w]; cbn [append strip_prefix_nc].
    + destruct x as [|c x]; auto. destruct (Ascii.eqb_spec (lower_c a) (lower_c c)) as [E|]; auto.
      exfalso. destruct Hx as [_ Hx]. apply Hx. apply lower_c_same in E. unfold letter, same_letter in *. destruct E as [<-|E]; auto. lia.
    + destruct (Ascii.eqb (lower_c a) (lower_c c)); auto. apply IH; auto. apply Hw.
Qed.
Lemma space_no_eq : forall d r, is_space d = true \/ d = ","%char \/ d = "("%char \/ d = "|"%char \/ d = "]"%char \/ d = "["%char -> no_eq (String d r).
Proof.
  intros d r [H|H]; [ destruct (space_char d H) as [-> |[-> |[-> | ->]]]; split; [ discriminate | unfold letter; cbn; lia | .. ] | ];
    try discriminate; try (unfold letter; cbn; lia); try (split; [ discriminate | unfold letter; cbn; lia ]).
  destruct H as [-> |[-> |[-> |[-> | ->]]]]; split; try discriminate; unfold letter; cbn; lia.
Qed.
Lemma after_no_eq : forall rest, after_cmd rest -> no_eq rest.
Proof.
  intros rest (b & tail & -> & Hb & Ht). destruct b as [|c b]; cbn [append].
  - destruct tail as [|c tail]; [ exact I | ]. apply space_no_eq. destruct Ht as [-> | ->]; tauto.
  - apply space_no_eq. apply andb_true_iff in Hb. left. apply Hb.
Qed.
Lemma comma_no_eq : forall b x, around "," b -> no_eq (b ++ x).
Proof. intros b x Hb. destruct (around_head ","%char b eq_refl Hb) as (d & r & -> & Hd). apply space_no_eq. tauto. Qed.
Lemma keys_word : forall l s rest, listed (around ",") sort_item l s -> no_eq rest -> exists sign w x,
  (s ++ rest)%string = (sign ++ w ++ x)%string /\ field_name w /\ no_eq x /\ (sign = EmptyString \/ sign = "+"%string \/ sign = "-"%string).
Proof.
  assert (forall a s x, sort_item a s -> no_eq x -> exists sign w x',
    (s ++ x)%string = (sign ++ w ++ x')%string /\ field_name w /\ no_eq x' /\ (sign = EmptyString \/ sign = "+"%string \/ sign = "-"%string)) as K.
  { intros a s x (sign & t & Ht & Hw & Hs & _ & ->) Hx. exists sign.
    assert (sign = EmptyString \/ sign = "+"%string \/ sign = "-"%string) as Hs' by (destruct Hs as [[-> _]|[[-> | ->] _]]; auto).
    rewrite append_assoc_s. destruct t as [f| | | | |n args| |]; try contradiction; cbn [show].
    - exists f, x. auto.
    - destruct Hw as [Hw _]. exists n, ("(" ++ (commas (map show args) ++ ")") ++ x)%string. rewrite !append_assoc_s.
      split; [ reflexivity | split; [ exact (ident_field _ Hw) | split; [ apply (space_no_eq "("%char); tauto | exact Hs' ] ] ]. }
  intros l s rest H Hr. destruct H as [a s Ha|a s b l t Ha Hb _].
  - eapply K; eauto.
  - rewrite !append_assoc_s. eapply K; eauto. now apply comma_no_eq.
Qed.
Lemma limit_err : forall l s rest, listed (around ",") sort_item l s -> no_eq rest ->
  opt (preceded (opt (ws (tag_no_case "limit="))) (ws p_int)) (s ++ rest)%string = POk (s ++ rest)%string None.
Proof.
  intros l s rest H Hr. unfold opt at 1, preceded. unfold p_bind at 1.
  assert (stops is_space (s ++ rest)) as St.
  { apply begins_stops. revert H. apply listed_begins. exact sort_begins. }
  assert (opt (ws (tag_no_case "limit=")) (s ++ rest)%string = POk (s ++ rest)%string None) as ->.
  { unfold opt. rewrite ws_err; [ reflexivity | ]. rewrite skip_stops by auto.
    destruct (keys_word l s rest H Hr) as (sign & w & x & -> & Hw & Hx & Hs). destruct Hs as [-> |[-> | ->]]; try reflexivity.
    destruct (fname_chars w Hw) as [_ Hc]. cbn [append]. apply (word_eq_err "limit"); auto. unfold letter. cbn. lia. }
  rewrite ws_err; [ reflexivity | ]. rewrite skip_stops by auto.
  destruct (keys_head l s rest H) as (sign & c & r & -> & Hc & Hs). destruct Hs as [-> |[-> | ->]]; cbn [append].
  - now apply no_int.
  - apply signed_no_int; auto.
  - apply signed_no_int; auto.
Qed.
Definition keys_final (rest : string) : Prop := closed rest /\ op9 rest = PErr /\ comma_sep rest = PErr.
Lemma keys_read : forall l s rest, listed (around ",") sort_item l s -> keys_final rest ->
  reads (fun R => comma_separated_list1 (pair_ (opt plus_minus) (expr R))) (s ++ rest) rest l.
Proof.
  intros l s rest H Hr. apply (commas_read _ sort_item (fun R => pair_ (opt plus_minus) (expr R)) keys_final l s rest); auto.
  - exact sort_begins.
  - intros a s' rest' Ha [(C1 & C2 & _)|(b & x & Hb & Hx & ->)]; [ now apply sort_reads | ].
    destruct (comma_closed b x Hb Hx) as (C1 & C2 & _). now apply sort_reads.
  - intros rest' H'. apply H'.
Qed.
Lemma desc_none : forall rest, after_cmd rest -> opt (ws (tag_no_case "desc")) rest = POk rest None.
Proof. intros rest H. unfold opt. rewrite ws_tail_err; auto. by_tail. Qed.
(** *** stats *)
Definition no_option (x : string) : Prop := tok_end lit_specials x /\ tag "=" (skip x) = PErr.
Lemma options_none : forall A (f : Options -> res A) a w x, field_name w -> no_option x -> f [] = Ok a ->
  match_options f (w ++ x) = POk (w ++ x)%string a.
Proof.
  intros A f a w x Hw [Hx He] Hf. unfold match_options, unwrapped, p_map, command_options, many0, p_bind. cbn [many0_go].
  assert (ws field_and_constant (w ++ x)%string = PErr) as ->.
  { apply ws_err. rewrite skip_stops by solve [ apply ident_stops; auto ]. apply token_then_err; auto; intros; unfold p_bind; now rewrite ws_err. }
  unfold p_ret. now rewrite Hf.
Qed.
Lemma call_reads : forall n ts rest, plain_ident n -> Forall wf ts ->
  reads call ((n ++ "(" ++ commas (map show ts) ++ ")") ++ rest) rest (ECall n (map meaning ts)).
Proof.
  intros n ts rest Hn Ht.
  assert (Forall (fun p => expression (fst p) (snd p)) (map (fun t => (show t, meaning t)) ts)) as F.
  { clear - Ht. induction Ht as [|t ts H _ IH]; constructor; auto. cbn. apply (written_reads 9 t); auto. apply show_writes. }
  destruct (paren_args _ rest F) as [k H]. exists k. intros m Hm. rewrite !map_map in H. cbn [fst snd] in H.
  change (fun x : Tree => show x) with show in H. change (fun x : Tree => meaning x) with meaning in H.
  rewrite !append_assoc_s. unfold call, p_bind. rewrite token_ident; [ | auto | split; reflexivity ].
  now rewrite (H m Hm).
Qed.
Definition agg : Recs -> Parser Expr := fun R =>
      aliased_call R
  <|> call R
  <|> p_map (fun fa => EAlias (ECall (fst fa) []) (snd fa)) aliased_field
  <|> p_map (fun v => ECall v []) (verify token (fun v => negb (String.eqb (lower v) "by"))).
Definition agg_end (x : string) : Prop :=
  tok_end lit_specials x /\ match x with String c _ => c <> "("%char | _ => True end /\ tag_no_case "AS" (skip x) = PErr.
Lemma call_word_err : forall R n x, field_name n -> tok_end lit_specials x -> match x with String c _ => c <> "("%char | _ => True end ->
  call R (n ++ x) = PErr.
Proof. intros R n x Hn Hx Hp. apply token_then_err; auto; intros; unfold p_bind; rewrite paren_err; auto; discriminate. Qed.
Lemma blanks_no_paren : forall b x, blanks b -> match (b ++ x)%string with String c _ => c <> "("%char | _ => True end.
Proof.
  intros b x Hb. destruct (blanks_head b Hb) as (c & r & -> & _). cbn. destruct Hb as [_ [Hb _]]. apply is_space_spec in Hb.
  intros ->. discriminate.
Qed.
Lemma ident_not_by : forall n, plain_ident n -> String.eqb (lower n) "by" = false.
Proof.
  intros n Hn. apply String.eqb_neq. intro E. destruct Hn as (_ & Hr & _). apply Hr. exists "BY"%string. split.
  - unfold spl_reserved. cbn. tauto.
  - apply same_word_lower. exact E.
Qed.
Lemma agg_reads : forall e s rest, agg_item e s -> agg_end rest -> reads agg (s ++ rest) rest e.
Proof.
  intros e s rest (n & args & u & Hn & Hu & He) (R1 & R2 & R3).
  assert (W0 : ws (tag_no_case "as") rest = PErr) by (apply ws_err; exact R3).
  assert (W1 : ws (tag_no_case "AS") rest = PErr) by (apply ws_err; exact R3).
  destruct He as [[-> ->]|(new & b1 & b2 & w & Hnew & H1 & H2 & Hw & -> & ->)].
  - destruct Hu as [[-> ->]|(ts & Hts & -> & ->)].
    + exists 0. intros m _. unfold agg.
      rewrite or_err by (unfold aliased_call, separated_pair, p_bind; rewrite call_word_err by auto; reflexivity).
      rewrite or_err by solve [ apply call_word_err; auto ].
      rewrite or_err by (unfold p_map, p_bind, aliased_field, separated_pair, p_bind; rewrite field_ident by auto; now rewrite W1).
      unfold p_map, p_bind, verify, p_bind. rewrite token_ident by auto. now rewrite ident_not_by.
    + destruct (call_reads n ts rest Hn Hts) as [k H]. exists k. intros m Hm. unfold agg.
      rewrite or_err by (unfold aliased_call, separated_pair, p_bind; rewrite (H m Hm); now rewrite W0).
      apply or_ok. exact (H m Hm).
  - assert (L : stops is_space (new ++ rest)) by solve [ apply ident_stops; auto ].
    assert (L2 : stops is_space (w ++ b2 ++ new ++ rest)).
    { apply (word_stops "as"); auto; [ unfold letter; cbn; lia | discriminate ]. }
    assert (Hw' : same_word w "AS") by (apply same_word_lower; apply same_word_lower in Hw; exact Hw).
    destruct Hu as [[-> ->]|(ts & Hts & -> & ->)].
    + exists 0. intros m _. unfold agg. rewrite !append_assoc_s.
      rewrite or_err by (unfold aliased_call, separated_pair, p_bind; rewrite call_word_err; auto; [ now apply blanks_tok | now apply blanks_no_paren ]).
      rewrite or_err by (apply call_word_err; auto; [ now apply blanks_tok | now apply blanks_no_paren ]).
      apply or_ok. unfold p_map, p_bind, aliased_field, separated_pair, p_bind. rewrite field_ident by (auto; now apply blanks_tok).
      rewrite (as_read "AS") by auto. rewrite (or_ok _ _ _ _ _ _ (token_ident new rest Hnew R1)). reflexivity.
    + destruct (call_reads n ts (b1 ++ w ++ b2 ++ new ++ rest)%string Hn Hts) as [k H]. exists k. intros m Hm. unfold agg. apply or_ok.
      rewrite (append_assoc_s (n ++ "(" ++ commas (map show ts) ++ ")")). rewrite !(append_assoc_s b1), !(append_assoc_s w), !(append_assoc_s b2).
      unfold aliased_call, separated_pair, p_bind. rewrite (H m Hm). rewrite (as_read "as") by auto. now rewrite token_ident.
Qed.
Lemma agg_begins : forall e s x, agg_item e s -> begins (s ++ x).
Proof.
  intros e s x (n & args & u & Hn & Hu & He).
  assert (forall y, begins (u ++ y)) as B.
  { intro y. destruct Hu as [[_ ->]|(ts & _ & _ & ->)]; rewrite ?append_assoc_s; solve [ apply ident_begins; auto ]. }
  destruct He as [[_ ->]|(new & b1 & b2 & w & _ & _ & _ & _ & _ & ->)]; rewrite ?append_assoc_s; apply B.
Qed.
(** What follows the aggregations: the end of the command, or BY and names *)
Definition by_text (x : string) : Prop := exists b1 w b2 y, x = (b1 ++ w ++ b2 ++ y)%string /\ blanks b1 /\ same_word w "by" /\ blanks b2.
Definition agg_final (x : string) : Prop := after_cmd x \/ by_text x.
Lemma by_stops : forall w x, same_word w "by" -> stops is_space (w ++ x).
Proof. intros w x H. apply (word_stops "by"); auto; [ unfold letter; cbn; lia | discriminate ]. Qed.
Lemma by_skip : forall b1 w b2 y, blanks b1 -> same_word w "by" -> skip (b1 ++ w ++ b2 ++ y) = (w ++ b2 ++ y)%string.
Proof. intros b1 w b2 y H1 Hw. apply skip_spaces; [ now apply blanks_spaces | now apply by_stops ]. Qed.
Lemma by_tag_err : forall t w b2 y, clash t "by" = true -> same_word w "by" -> blanks b2 -> tag_no_case t (w ++ b2 ++ y) = PErr.
Proof. intros t w b2 y Hc Hw Hb. now apply (clash_err t "by"). Qed.
Lemma by_head : forall w x, same_word w "by" -> exists c r, (w ++ x)%string = String c r /\ letter c.
Proof.
  intros w x H. inversion H as [|c d s t Hl _]; subst. cbn [append]. exists c, (s ++ x)%string. split; auto.
  unfold same_letter, letter in *. destruct Hl as [-> |Hl]; cbn in *; lia.
Qed.
Lemma letter_tag_err : forall x c r, letter c -> ~ letter x -> tag (String x "") (String c r) = PErr.
Proof. intros x c r Hc Hx. apply tag1_err. destruct (Ascii.eqb_spec x c); congruence. Qed.
Lemma by_token : forall w b2 y, same_word w "by" -> blanks b2 -> token (w ++ b2 ++ y) = PErr /\ field (w ++ b2 ++ y) = PErr.
Proof.
  intros w b2 y Hw Hb.
  assert (all_chars letter w /\ w <> EmptyString) as [Hl Hne].
  { inversion Hw as [|c d s t L1 Hw1]; subst. inversion Hw1 as [|c' d' s' t' L2 Hw2]; subst. inversion Hw2; subst.
    split; [ | discriminate ]. unfold same_letter, letter in *. cbn.
    destruct L1 as [-> |L1]; destruct L2 as [-> |L2]; cbn in *; lia. }
  assert (T : token (w ++ b2 ++ y) = PErr).
  { change token with (token_of tok_specials). rewrite token_of_read; auto.
    - destruct (is_not_reserved_word w) eqn:E; [ | reflexivity ]. exfalso. apply not_reserved in E. apply E.
      exists "BY"%string. split; [ unfold spl_reserved; cbn; tauto | ]. apply same_word_lower. apply same_word_lower in Hw. exact Hw.
    - clear - Hl. induction w as [|c w IH]; [ reflexivity | ]. destruct Hl as [Hc Hl]. cbn [sforall].
      rewrite IH by auto. rewrite andb_true_r. apply name_char_tok. now left.
    - destruct (blanks_head b2 Hb) as (c & r & -> & _). cbn [append].
      destruct Hb as [_ [Hb _]]. apply is_space_spec in Hb. destruct (space_char c Hb) as [-> |[-> |[-> | ->]]]; split; reflexivity. }
  split; auto. destruct (by_head w (b2 ++ y)%string Hw) as (c & r & E & Hc).
  assert (Q : forall x, ~ letter x -> tag (String x "") (w ++ b2 ++ y) = PErr) by (intros x Hx; rewrite E; now apply letter_tag_err).
  assert (D : double_quoted (w ++ b2 ++ y) = PErr).
  { unfold double_quoted, delimited, p_or, p_bind, dq. now rewrite !Q by (apply not_letter_code; cbn; lia). }
  unfold field. rewrite or_err.
  - unfold single_quoted, delimited, p_bind, sq. now rewrite !Q by (apply not_letter_code; cbn; lia).
  - unfold field_fmt, recognize, separated_list1, p_bind, p_or, token_not_t_f, verify, p_bind. now rewrite T, D.
Qed.
Lemma by_not_agg : forall R w b2 y, same_word w "by" -> blanks b2 -> agg R (w ++ b2 ++ y) = PErr.
Proof.
  intros R w b2 y Hw Hb. destruct (by_token w b2 y Hw Hb) as [T F].
  assert (C : call R (w ++ b2 ++ y) = PErr) by (unfold call, p_bind; now rewrite T).
  unfold agg, aliased_call, aliased_field, separated_pair, p_or, p_map, verify, p_bind. now rewrite C, T, F.
Qed.
Lemma agg_final_end : forall x, agg_final x -> agg_end x.
Proof.
  intros x [H|(b1 & w & b2 & y & -> & H1 & Hw & H2)].
  - destruct (after_cmd_term x H) as [A1 A2]. repeat split; auto. pose proof (after_tail x H) as Ht.
    revert Ht. generalize (skip x). by_tail.
  - repeat split; [ now apply blanks_tok | now apply blanks_no_paren | ].
    rewrite by_skip by auto. now apply by_tag_err.
Qed.
Lemma aggs_read : forall l s rest, listed (around ",") agg_item l s -> agg_final rest -> reads stats_call (s ++ rest) rest l.
Proof.
  intros l s rest H Hr.
  destruct (listed_reads (around ",") agg_item agg string comma_or_space_sep (fun x => x) agg_final begins) with (l := l) (s := s) (rest := rest)
    as [[n Hn] _]; auto.
  - intros a s' x Ha _. now apply (agg_begins a).
  - intros b s' Hb Hs. apply gap_read; auto. now right.
  - intros a s' x Ha [Hf|(b & t & Hb & Ht & ->)]; apply agg_reads; auto.
    + now apply agg_final_end.
    + destruct (comma_closed b t Hb Ht) as ((E1 & _) & _ & _). destruct E1 as (E1 & E2 & _). repeat split; auto.
      destruct (around_skip ","%char b t eq_refl Hb (begins_stops _ Ht)) as (b2 & _ & ->). reflexivity.
  - intros x Hx. exists 0. intros m _. apply gap_end.
    + destruct Hx as [Hx|(b1 & w & b2 & y & -> & H1 & Hw & H2)]; [ now apply tail_comma | ].
      rewrite by_skip by auto. destruct (by_head w (b2 ++ y)%string Hw) as (c & r & -> & Hc).
      apply letter_tag_err; auto. apply not_letter_code. cbn. lia.
    + destruct Hx as [Hx|(b1 & w & b2 & y & -> & H1 & Hw & H2)].
      * pose proof (after_tail x Hx) as Ht. revert Ht. generalize (skip x). by_tail.
      * rewrite by_skip by auto. now apply by_not_agg.
  - exists n. intros m Hm. exact (Hn m Hm).
Qed.
Lemma comma_no_option : forall b x, around "," b -> stops is_space x -> no_option (b ++ x).
Proof.
  intros b x Hb Hx. split.
  - destruct (around_head ","%char b eq_refl Hb) as (d & r & -> & Hd). now apply head_tok.
  - destruct (around_skip ","%char b x eq_refl Hb Hx) as (b2 & _ & ->). reflexivity.
Qed.
Lemma after_no_option : forall rest, after_cmd rest -> no_option rest.
Proof.
  intros rest H. split; [ now apply after_ends | ]. pose proof (after_tail rest H) as Ht. revert Ht. generalize (skip rest). by_tail.
Qed.
Lemma letter_no_option : forall b w x, blanks b -> (exists c r, (w ++ x)%string = String c r /\ letter c) -> no_option (b ++ w ++ x).
Proof.
  intros b w x Hb (c & r & E & Hc). split; [ now apply blanks_tok | ]. rewrite E. rewrite skip_spaces.
  - apply letter_tag_err; auto. apply not_letter_code. cbn. lia.
  - now apply blanks_spaces.
  - apply begins_stops, head_begins. now left.
Qed.
Lemma word_head : forall k w x, same_word w k -> all_chars letter k -> k <> EmptyString -> exists c r, (w ++ x)%string = String c r /\ letter c.
Proof.
  intros k w x H Hk Hn. destruct H as [|c d s t Hl H]; [ congruence | ]. cbn [append]. exists c, (s ++ x)%string. split; auto.
  destruct Hk as [Hk _]. unfold letter, same_letter in *. destruct Hl as [-> |Hl]; lia.
Qed.
Lemma agg_options : forall l s rest, listed (around ",") agg_item l s -> agg_final rest ->
  exists w x, (s ++ rest)%string = (w ++ x)%string /\ plain_ident w /\ no_option x.
Proof.
  assert (forall e s x, agg_item e s -> no_option x -> exists w x', (s ++ x)%string = (w ++ x')%string /\ plain_ident w /\ no_option x') as K.
  { intros e s x (n & args & u & Hn & Hu & He) Hx.
    assert (forall y, no_option y -> exists x', (u ++ y)%string = (n ++ x')%string /\ no_option x') as U.
    { intros y Hy. destruct Hu as [[_ ->]|(ts & _ & _ & ->)]; [ eauto | ].
      exists ("(" ++ (commas (map show ts) ++ ")") ++ y)%string. split; [ now rewrite !append_assoc_s | ]. split; [ split; reflexivity | reflexivity ]. }
    destruct He as [[_ ->]|(new & b1 & b2 & w & Hnew & H1 & H2 & Hw & _ & ->)].
    - destruct (U x Hx) as (x' & -> & Hx'). eauto.
    - rewrite !append_assoc_s. destruct (U (b1 ++ w ++ b2 ++ new ++ x)%string) as (x' & -> & Hx'); eauto.
      apply letter_no_option; auto. apply (word_head "as"); auto; [ unfold letter; cbn; lia | discriminate ]. }
  intros l s rest H Hr. destruct H as [a s Ha|a s b l t Ha Hb Hl].
  - eapply K; eauto. destruct Hr as [Hr|(b1 & w & b2 & y & -> & H1 & Hw & H2)]; [ now apply after_no_option | ].
    apply letter_no_option; auto. now apply by_head.
  - rewrite !append_assoc_s. eapply K; eauto. apply comma_no_option; auto. apply begins_stops. revert Hl. apply listed_begins. exact agg_begins.
Qed.
Lemma span_read : forall k w u x, (0 <= k < 2 ^ 63)%Z -> In (w, u) time_words -> no_alnum x ->
  time_span (decimal k ++ w ++ x) = POk x (mkTimeSpan k u).
Proof.
  intros k w u x Hk Hw Hx. destruct (time_word_facts w u Hw) as (Hl & (c & r & Ew) & Hu). unfold time_span, p_bind.
  assert (letter c) as Hc by (rewrite Ew in Hl; apply Hl).
  rewrite p_int_decimal_ok; [ | unfold int64_nonmin; lia | rewrite Ew; cbn; unfold letter, digit in *; lia ].
  rewrite time_unit_extends by auto. now rewrite Hu.
Qed.
Definition by_start (x : string) : Prop := exists n y, x = (n ++ y)%string /\ field_name n /\ no_eq y.
Lemma gap_no_eq : forall b x, gap b -> no_eq (b ++ x).
Proof. intros b x Hb. destruct (gap_head b Hb) as (d & r & -> & Hd). apply space_no_eq. tauto. Qed.
Lemma span_after : forall rest b x, multispace1 rest = POk x b -> after_cmd rest -> ws (tag_no_case "span=") x = PErr.
Proof.
  intros rest b x H Hr. apply ws_err. unfold multispace1, take_while1 in H. destruct (span is_space rest) as [a r] eqn:E.
  assert (r = skip rest) as Er by (unfold skip; now rewrite E).
  destruct a; [ discriminate | ]. injection H as <- _. rewrite Er, skip_skip. pose proof (after_tail rest Hr) as Ht.
  revert Ht. generalize (skip rest). by_tail.
Qed.
Lemma span_err : forall x, by_start x -> ws (tag_no_case "span=") x = PErr.
Proof.
  intros x (n & y & -> & Hn & Hy). apply ws_err. rewrite skip_stops by solve [ apply ident_stops; auto ].
  destruct (fname_chars n Hn) as [_ Hc]. apply (word_eq_err "span"); auto. unfold letter. cbn. lia.
Qed.
Lemma by_item_begins : forall a s x, by_item a s -> exists n y, (s ++ x)%string = (n ++ y)%string /\ field_name n.
Proof.
  intros a s x (f & Hf & [[_ ->]|(b & w & b' & k & u & unit & _ & _ & _ & _ & _ & _ & ->)]); rewrite ?append_assoc_s; eauto.
Qed.
Lemma bys_read : forall fs s rest, listed gap by_item fs s -> after_cmd rest -> maybe_spanned_field_list1 (s ++ rest) = POk rest fs.
Proof.
  intros fs s rest H Hr.
  destruct (listed_reads gap by_item (fun _ => maybe_spanned_field) string comma_or_space_sep (fun x => x) after_cmd by_start)
    with (l := fs) (s := s) (rest := rest) as [[n Hn] _]; auto.
  - intros a s' x (f & Hf & [[-> ->]|(b & w & b' & k & u & unit & Hb & _ & _ & _ & _ & _ & ->)]) Hx.
    + exists f, x. split; [ reflexivity | split; [ exact Hf | ] ].
      destruct Hx as [Hx|(b & t & Hb & ->)]; [ now apply after_no_eq | now apply gap_no_eq ].
    + rewrite !append_assoc_s. exists f, (b ++ w ++ b' ++ decimal k ++ u ++ x)%string. split; auto. split; auto.
      apply gap_no_eq. now left.
  - intros b s' Hb (f & y & -> & Hf & _). apply gap_read; auto. solve [ apply ident_begins; auto ].
  - intros a s' x (f & Hf & Ha) Hx. apply reads_const. unfold maybe_spanned_field.
    assert (tok_end lit_specials x) as Te by (destruct Hx as [Hx|(b & t & Hb & Ht & ->)]; [ now apply after_ends | now apply gap_tok ]).
    destruct Ha as [[-> ->]|(b & w & b' & k & u & unit & Hb & Hw & Hb' & Hk & Hu & -> & ->)].
    { rewrite or_err; [ unfold p_map, p_bind; now rewrite field_ident | ].
    unfold p_map, p_bind, separated_pair, p_bind. rewrite field_ident by auto.
    destruct (multispace1 x) as [r u| | |] eqn:E; auto.
    + unfold preceded, p_bind. destruct Hx as [Hx|(b & t & [Hb|Hb] & Ht & ->)].
      * now rewrite (span_after x u).
      * destruct Ht as (f' & y & -> & Hf' & Hy). rewrite blanks_read in E by (auto; solve [ apply ident_stops; auto ]). injection E as <- <-.
        rewrite span_err; auto. exists f', y. auto.
      * destruct (around_head ","%char b eq_refl Hb) as (d & r' & Eb & Hd).
        destruct Hb as (b1 & b2 & Hb1 & Hb2 & ->). destruct b1 as [|e b1].
        { discriminate. }
        rewrite !append_assoc_s in E.
        rewrite (blanks_read (String e b1) ("," ++ b2 ++ t)%string) in E; [ | split; [ discriminate | exact Hb1 ] | reflexivity ].
        injection E as <- <-. rewrite ws_err; auto.
    + unfold multispace1, take_while1 in E. destruct (span is_space x) as [[|? ?] ?]; discriminate.
    + unfold multispace1, take_while1 in E. destruct (span is_space x) as [[|? ?] ?]; discriminate. }
    apply or_ok. rewrite !append_assoc_s. unfold p_map, p_bind, separated_pair, p_bind.
    rewrite field_ident by (auto; now apply blanks_tok).
    assert (stops is_space (w ++ b' ++ decimal k ++ u ++ x)) as Sw.
    { inversion Hw as [|c d s1 t1 Hl]; subst. cbn [append stops]. apply name_char_facts. left. unfold letter, same_letter in *. cbn in Hl.
      destruct Hl as [-> |Hl]; cbn; lia. }
    rewrite blanks_read by auto. unfold preceded, p_bind. rewrite (ws_ok _ _ _ (b' ++ decimal k ++ u ++ x)%string w).
    2:{ rewrite skip_stops by auto. now apply tag_nc_read. }
    rewrite skip_spaces by (auto; apply decimal_stops). rewrite (span_read k u unit); auto.
    destruct x as [|c x]; [ exact I | ]. destruct Te as [Te _]. unfold tok_char in Te. apply orb_false_iff in Te. apply Te.
  - intros x Hx. exists 0. intros m _. apply gap_end; [ now apply tail_comma | ].
    pose proof (after_tail x Hx) as Ht. revert Ht. generalize (skip x). by_tail.
  - apply (Hn n). lia.
Qed.
Lemma bys_stop : forall fs s x, listed gap by_item fs s -> stops is_space (s ++ x).
Proof.
  intros fs s x H. apply begins_stops. revert H. apply listed_begins. intros a s' x' Ha. destruct (by_item_begins a s' x' Ha) as (n & y & -> & Hn). solve [ apply ident_begins; auto ].
Qed.
Lemma mvexpand_body : forall f, field_name f -> reads_body (fun _ => p_mvexpand) (CMvExpand f None) f.
Proof.
  intros f Hf. split; [ intro x; solve [ apply ident_stops; auto ] | ]. intros rest Hr. exists (skip rest). split; [ now right | ].
  apply reads_const. unfold p_mvexpand. unfold p_bind at 1.
  rewrite (ws_ok _ _ _ rest f).
  2:{ rewrite skip_stops by solve [ apply ident_stops; auto ]. apply field_ident; auto. now apply after_ends. }
  unfold p_bind at 1, opt, preceded, pair_, p_bind. rewrite ws_err; [ reflexivity | ]. rewrite skip_skip.
  pose proof (after_tail rest Hr) as Ht. revert Ht. generalize (skip rest). by_tail.
Qed.
Lemma names_option : forall fs s rest, listed gap name_item fs s -> no_option rest ->
  exists w x, (s ++ rest)%string = (w ++ x)%string /\ field_name w /\ no_option x.
Proof.
  intros fs s rest H Hr. destruct H as [a s [Ha ->]|a s b l t [Ha ->] Hb Hl]; [ eauto | ].
  rewrite !append_assoc_s. exists a, (b ++ t ++ rest)%string. split; [ reflexivity | split; [ exact Ha | split ] ].
  - now apply gap_tok.
  - destruct Hb as [Hb|Hb].
    + rewrite skip_spaces; [ | now apply blanks_spaces | eapply names_stop; eauto ].
      destruct (names_head l t rest Hl) as (c & r & -> & Hc). apply tag1_err.
      destruct (Ascii.eqb_spec "="%char c) as [<-|]; auto. destruct Hc as [Hc|Hc]; [ unfold letter in Hc; cbn in Hc; lia | discriminate ].
    + destruct (around_skip ","%char b (t ++ rest)%string eq_refl Hb) as (b2 & _ & ->); [ eapply names_stop; eauto | reflexivity ].
Qed.

(** ** Pipelines *)
Definition closing (rest : string) : Prop := after_cmd rest /\ tag "|" (skip rest) = PErr.
Definition fresh (s : string) : Prop := exists c r, s = String c r /\ is_space c = false /\ c <> "|"%char.
Lemma fresh_stops : forall s, fresh s -> stops is_space s.
Proof. intros s (c & r & -> & Hc & _). exact Hc. Qed.
Lemma fresh_bar : forall s, fresh s -> tag "|" s = PErr.
Proof. intros s (c & r & -> & _ & Hc). now apply head_tag_err. Qed.
Lemma letter_fresh : forall s, (exists c r, s = String c r /\ letter c) -> fresh s.
Proof.
  intros s (c & r & -> & Hc). exists c, r. split; auto. split; [ apply name_char_facts; now left | ]. intros ->. unfold letter in Hc. cbn in Hc. lia.
Qed.
(** The commands are read where the rest is one of Q *)
Definition reads_upto (Q : string -> Prop) (p : list Command) (s : string) : Prop :=
  (forall x, fresh (s ++ x)) /\
  forall rest, Q rest -> exists rest', (rest' = rest \/ rest' = skip rest) /\
    exists n, forall m, n <= m -> exists r c l, p = c :: l /\ command (level m) (s ++ rest) = POk r c /\
      String.length r <= String.length (s ++ rest)%string /\ forall f, String.length r < f -> sep_go (ws (tag "|")) (command (level m)) f r = POk rest' l.
Definition reads_all : list Command -> string -> Prop := reads_upto closing.
Lemma all_one : forall c s, reads_body command c s -> (forall x, fresh (s ++ x)) -> reads_all [c] s.
Proof.
  intros c s [_ H] Hl. split; auto. intros rest [Hr Hb]. destruct (H rest Hr) as (rest' & Hrest & n & Hn).
  exists rest'. split; auto. exists n. intros m Hm. exists rest', c, []. split; auto. split; [ now apply Hn | split ].
  { rewrite length_append. pose proof (skip_length rest). destruct Hrest as [-> | ->]; lia. }
  intros f Hf. destruct f as [|f]; [ lia | ]. cbn [sep_go].
  rewrite ws_err; [ reflexivity | ]. destruct Hrest as [-> | ->]; rewrite ?skip_skip; auto.
Qed.
Lemma upto_more : forall Q c s b p t, reads_body command c s -> (forall x, fresh (s ++ x)) ->
  around "|" b -> reads_upto Q p t -> reads_upto Q (c :: p) (s ++ b ++ t).
Proof.
  intros Q c s b p t [_ H] Hl Hb [Ht Hp]. split; [ intro x; rewrite append_assoc_s; apply Hl | ].
  intros rest Hr. destruct (Hp rest Hr) as (rest' & Hrest & n1 & H1).
  assert (after_cmd (b ++ t ++ rest)) as Ha.
  { destruct Hb as (b1 & b2 & Hb1 & Hb2 & ->). exists b1, (("|" ++ b2) ++ t ++ rest)%string. rewrite !append_assoc_s. split; [ reflexivity | ]. split.
    - now apply spaces_bool.
    - now left. }
  destruct (H _ Ha) as (r1 & Hr1 & n2 & H2). exists rest'. split; auto. exists (max n1 n2). intros m Hm.
  destruct (H1 m) as (r & c' & l & Hpl & E1 & E3 & E2); [ lia | ]. exists r1, c, p. split; auto. split; [ | split ].
  { rewrite !append_assoc_s. apply H2. lia. }
  { rewrite !append_assoc_s, (length_append s). pose proof (skip_length (b ++ t ++ rest)%string). destruct Hr1 as [-> | ->]; lia. }
  intros f Hf. destruct f as [|f]; [ lia | ]. cbn [sep_go].
  assert (stops is_space (t ++ rest)) as Hst by now apply fresh_stops.
  destruct (around_read "|"%char b (t ++ rest)%string eq_refl Hb Hst) as (W1 & W2 & L1 & L2).
  assert (ws (tag "|") r1 = POk (t ++ rest)%string "|"%string /\ String.length (t ++ rest)%string < String.length r1) as [W L].
  { destruct Hr1 as [-> | ->]; split; auto; lia. }
  rewrite W. destruct (Nat.eqb_spec (String.length (t ++ rest)%string) (String.length r1)); [ lia | ].
  rewrite E1, E2, Hpl; auto. lia.
Qed.
Lemma all_more : forall c s b p t, reads_body command c s -> (forall x, fresh (s ++ x)) ->
  around "|" b -> reads_all p t -> reads_all (c :: p) (s ++ b ++ t).
Proof. exact (upto_more closing). Qed.
