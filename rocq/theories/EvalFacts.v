(** Written eval commands are read back (C07, C08). *)
From Coq Require Import Lia.
From Verif Require Import Str SplAst Nom Lexer Parser CmdParser ParserFacts ParserTotal ParserFuel.
From Verif Require Import SpecText SpecExpr LexFacts TokenFacts NameFacts ExprFacts LogicFacts.

Definition assign : Recs -> Parser (string * Expr) :=
  fun R => separated_pair (ws field) (ws (tag "=")) (ws (expr R)).
Definition assign_text (p : string * string) : string := (fst p ++ "=" ++ snd p)%string.
(** A written assignment: name, text of the expression, its tree *)
Definition Item := (string * (string * Expr))%type.
Definition item_ok (i : Item) : Prop := field_name (fst i) /\ expression (fst (snd i)) (snd (snd i)).
Definition item_text (i : Item) : string := (fst i ++ "=" ++ fst (snd i))%string.
Definition item_value (i : Item) : string * Expr := (fst i, snd (snd i)).

Lemma assign_reads : forall i rest, item_ok i -> rest = EmptyString \/ (exists r, rest = String "," r) ->
  reads assign (item_text i ++ rest) rest (item_value i).
Proof.
  intros [w [s e]] rest [Hw He] Hr. cbn [fst snd] in *. unfold item_text, item_value. cbn [fst snd].
  assert (closed rest /\ op9 rest = PErr /\ skip rest = rest) as (C1 & C2 & C3).
  { destruct Hr as [-> | [r ->]].
    - destruct closed_nil as (H1 & H2 & _). auto.
    - destruct (closed_comma r) as (H1 & H2 & _). auto. }
  destruct (ex_reads _ _ He rest C1 C2) as [n H]. exists n. intros m Hm.
  rewrite !append_assoc_s. unfold assign, separated_pair, p_bind.
  assert (ws field (w ++ "=" ++ s ++ rest) = POk ("=" ++ s ++ rest)%string w) as ->.
  { rewrite (ws_ok _ _ _ ("=" ++ s ++ rest)%string w); [ reflexivity | ].
    rewrite skip_stops.
    - apply field_ident; auto. split; reflexivity.
    - destruct (fname_chars w Hw) as [Hn Hc]. destruct w as [|c w]; [ congruence | ].
      destruct Hc as [Hc _]. cbn. now apply fchar_facts. }
  pose proof (et_stops _ _ _ He rest) as Hs.
  assert (ws (tag "=") ("=" ++ s ++ rest) = POk (s ++ rest)%string "="%string) as ->.
  { rewrite (ws_ok _ _ _ (s ++ rest)%string "="%string); [ now rewrite skip_stops | reflexivity ]. }
  rewrite (ws_ok _ _ _ rest e); [ now rewrite C3 | ]. rewrite skip_stops by auto. now apply H.
Qed.
Lemma item_stops : forall i x, item_ok i -> stops is_space (item_text i ++ x).
Proof.
  intros [w [s e]] x [Hw _]. unfold item_text. cbn [fst snd] in *.
  destruct (fname_chars w Hw) as [Hn Hc]. destruct w as [|c w]; [ congruence | ].
  destruct Hc as [Hc _]. cbn. now apply fchar_facts.
Qed.
Lemma items_rest : forall l, commas_of (map item_text l) = EmptyString \/
  exists r, commas_of (map item_text l) = String "," r.
Proof. intros [|i l]; [ left; reflexivity | right; cbn; eauto ]. Qed.
Lemma items_go : forall l, Forall item_ok l ->
  exists n, forall m, n <= m -> forall fuel, length l < fuel ->
    sep_go comma_sep (assign (level m)) fuel (commas_of (map item_text l)) = POk EmptyString (map item_value l).
Proof.
  intros l H. induction H as [|i l Hi Hl [n IH]].
  - exists 0. intros m _ [|fuel] Hf; [ cbn in Hf; lia | reflexivity ].
  - destruct (assign_reads i _ Hi (items_rest l)) as [n' H'].
    exists (max n n'). intros m Hm [|fuel] Hf; [ lia | ]. cbn [map commas_of sep_go length] in *.
    assert (comma_sep (", " ++ item_text i ++ commas_of (map item_text l))%string
            = POk (item_text i ++ commas_of (map item_text l))%string ","%string) as ->.
    { unfold comma_sep.
      rewrite (ws_ok _ _ _ (String " " (item_text i ++ commas_of (map item_text l))) ","%string); [ | reflexivity ].
      rewrite skip_space; auto. now apply item_stops. }
    match goal with |- context [Nat.eqb ?a ?b] => destruct (Nat.eqb_spec a b) as [X|_] end.
    { rewrite !length_append in X. cbn in X. lia. }
    rewrite (H' m) by lia. rewrite (IH m) by lia. reflexivity.
Qed.
Lemma parse_items : forall i l, Forall item_ok (i :: l) ->
  parse ("eval " ++ commas (map item_text (i :: l))) = Some (Ok [CEval (map item_value (i :: l))]).
Proof.
  intros i l H. inversion H as [|? ? Hi Hl]; subst.
  destruct (items_go l Hl) as [n IH]. destruct (assign_reads i _ Hi (items_rest l)) as [n' H'].
  apply parse_command; [ | reflexivity | discriminate ].
  exists (max n n'). intros m Hm. cbn [map]. rewrite commas_cons.
  unfold command. repeat rewrite or_err by reflexivity. apply or_ok.
  unfold cmd, preceded, p_bind.
  assert (forall s, stops is_space s -> match_name "eval" ("eval " ++ s) = POk s tt) as M.
  { intros s Hs. unfold match_name, match_word, p_bind.
    change ("eval " ++ s)%string with ("eval" ++ String " " s)%string.
    rewrite (tag_nc_read "eval" "eval") by now apply same_word_lower.
    unfold p_or, multispace1, take_while1. cbn [span]. change (is_space " ") with true. cbn iota.
    now rewrite span_stops. }
  rewrite M by now apply item_stops.
  unfold p_eval, p_map, p_bind, comma_separated_list0, separated_list0. fold (assign (level m)).
  rewrite (H' m) by lia. rewrite (IH m).
  - reflexivity.
  - lia.
  - pose proof (commas_length (map item_text l)). rewrite map_length in *. lia.
Qed.

Lemma written_items : forall (l : list (string * (Tree * string))),
  Forall (fun a => field_name (fst a) /\ wf (fst (snd a)) /\ writes 9 (fst (snd a)) (snd (snd a))) l ->
  Forall item_ok (map (fun a => (fst a, (snd (snd a), meaning (fst (snd a))))) l).
Proof.
  intros l H. induction H as [|[w [t s]] l (H1 & H2 & H3) _ IH]; constructor; auto.
  split; auto. cbn. apply (written_reads 9 t s); auto.
Qed.
Lemma parse_eval : forall assignments : list (string * (Tree * string)),
  assignments <> [] ->
  Forall (fun a => field_name (fst a) /\ wf (fst (snd a)) /\ writes 9 (fst (snd a)) (snd (snd a))) assignments ->
  parse ("eval " ++ commas (map (fun a => fst a ++ "=" ++ snd (snd a))%string assignments))
  = Some (Ok [CEval (map (fun a => (fst a, meaning (fst (snd a)))) assignments)]).
Proof.
  intros [|a l] Hn H; [ congruence | ]. pose proof (written_items _ H) as Hi. cbn [map] in Hi.
  pose proof (parse_items _ _ Hi) as P. cbn [map] in *. rewrite !map_map in P. exact P.
Qed.
Lemma parse_eval1 : forall name t s, field_name name -> wf t -> writes 9 t s ->
  parse ("eval " ++ name ++ "=" ++ s) = Some (Ok [CEval [(name, meaning t)]]).
Proof.
  intros name t s H1 H2 H3. apply (parse_eval [(name, (t, s))]); [ discriminate | ].
  constructor; [ auto | constructor ].
Qed.

(** ** Every tree can be written, with parentheses around compound operands *)
Lemma blank1 : blanks " ".
Proof. split; [ discriminate | ]. cbn. unfold white. cbn. tauto. Qed.
Lemma writes_le : forall j k t s, j <= k -> k <= 9 -> writes j t s -> writes k t s.
Proof.
  intros j k t s H. induction H as [|k H IH]; intros Hk Hw; auto. apply W_up; [ lia | apply IH; auto; lia ].
Qed.
Section TreeInd.
Variable P : Tree -> Prop.
Hypotheses (Hf : forall f, P (TField f)) (Hi : forall z, P (TInt z)) (Hs : forall s, P (TStr s))
  (Hd : forall t, P (TNum t)) (Ht : forall t s, P (TTime t s))
  (Hc : forall n l, Forall P l -> P (TCall n l)) (Hn : forall t, P t -> P (TNot t))
  (Hb : forall o l r, P l -> P r -> P (TBin o l r)).
Fixpoint tree_induction (t : Tree) : P t :=
  match t with
  | TField f => Hf f
  | TInt z => Hi z
  | TStr s => Hs s
  | TNum t => Hd t
  | TTime t s => Ht t s
  | TCall n l => Hc n l ((fix all l : Forall P l := match l with [] => Forall_nil _ | u :: l' => Forall_cons _ (tree_induction u) (all l') end) l)
  | TNot t => Hn t (tree_induction t)
  | TBin o l r => Hb o l r (tree_induction l) (tree_induction r)
  end.
End TreeInd.
Lemma show_writes : forall t, writes 9 t (show t) /\ writes 2 t (show_operand t).
Proof.
  assert (A : forall t, compound t = false -> writes 2 t (show t) -> writes 9 t (show t) /\ writes 2 t (show_operand t)).
  { intros t Ht H. unfold show_operand. rewrite Ht. split; auto. eapply writes_le; [ | | exact H ]; lia. }
  assert (B : forall t, compound t = true -> writes 9 t (show t) -> writes 9 t (show t) /\ writes 2 t (show_operand t)).
  { intros t Ht H. unfold show_operand. rewrite Ht. split; auto. now apply W_paren. }
  assert (C : forall u, (if compound u then "(" ++ show u ++ ")" else show u)%string = show_operand u) by reflexivity.
  induction t as [f|z|s|d|t s|n l IH|t IH|o l r IHl IHr] using tree_induction.
  - apply A; [ reflexivity | constructor ].
  - apply A; [ reflexivity | constructor ].
  - apply A; [ reflexivity | constructor ].
  - apply A; [ reflexivity | constructor ].
  - apply A; [ reflexivity | constructor ].
  - apply A; [ reflexivity | ]. cbn [show]. apply W_call. induction IH as [|u l [Hu _] _ IH]; constructor; auto.
  - apply B; [ reflexivity | ]. cbn [show]. rewrite C.
    apply (writes_le 7); [ lia | lia | ]. apply (W_not t (show_operand t) " "); [ apply blank1 | ].
    apply (writes_le 2); [ lia | lia | apply IH ].
  - apply B; [ reflexivity | ]. cbn [show]. rewrite !C.
    apply (writes_le (binds o)); [ destruct o; cbn; lia | lia | ].
    apply (W_bin o l r (show_operand l) (show_operand r) " " " "); try apply blank1.
    + apply (writes_le 2); [ destruct o; cbn; lia | destruct o; cbn; lia | apply IHl ].
    + apply (writes_le 2); [ destruct o; cbn; lia | destruct o; cbn; lia | apply IHr ].
Qed.

(** ** Chains *)
Lemma chain_writes : forall l t k, 3 <= k <= 9 -> Forall (fun ou => binds (fst ou) = k) l ->
  writes k (from_right t l) (show_chain t l).
Proof.
  induction l as [|[o u] l IH]; intros t k Hk H; unfold show_chain; cbn [from_right chain_text map fst snd].
  - apply (writes_le 2); [ lia | lia | apply show_writes ].
  - inversion H as [|? ? Ho Hl]; subst. cbn [fst] in *.
    apply (W_bin o t _ (show_operand t) _ " " " "); try apply blank1.
    + apply (writes_le 2); [ lia | lia | apply show_writes ].
    + now apply IH.
Qed.
Lemma parse_chain : forall name t l k, field_name name ->
  wf t -> Forall (fun ou => wf (snd ou)) l -> 3 <= k <= 9 -> Forall (fun ou => binds (fst ou) = k) l ->
  parse ("eval " ++ name ++ "=" ++ show_chain t l) = Some (Ok [CEval [(name, meaning (from_right t l))]]).
Proof.
  intros name t l k Hn Ht Hl Hk Hb. apply parse_eval1; auto.
  - revert t Ht. induction Hl as [|[o u] l Hu Hl IH]; intros t Ht; auto. split; auto.
    apply IH; auto. now inversion Hb.
  - apply (writes_le k); [ lia | lia | now apply chain_writes ].
Qed.
Lemma parse_search1 : forall t s, wf t -> writes 9 t s ->
  parse ("search " ++ s) = Some (Ok [CSearch (meaning t)]).
Proof.
  intros t s Ht Hs. pose proof (written_reads 9 t s Hs Ht) as E.
  apply parse_command; [ | reflexivity | discriminate ].
  destruct closed_nil as (C1 & C2 & _). destruct (ex_reads _ _ E EmptyString C1 C2) as [n H].
  rewrite append_nil_r in H. pose proof (et_stops _ _ _ E EmptyString) as St. rewrite append_nil_r in St.
  exists n. intros m Hm. unfold command. repeat rewrite or_err by reflexivity.
  unfold p_search, preceded, p_bind.
  assert ((match_name "search" <|> p_map (fun _ => tt) multispace0) ("search " ++ s)%string = POk s tt) as ->.
  { apply or_ok. unfold match_name, match_word, p_bind.
    change ("search " ++ s)%string with ("search" ++ String " " s)%string.
    rewrite (tag_nc_read "search" "search") by now apply same_word_lower.
    unfold p_or, multispace1, take_while1. cbn [span]. change (is_space " ") with true. cbn iota.
    now rewrite span_stops. }
  unfold comma_or_space_separated_list1, separated_list1, p_bind. rewrite (H m Hm). reflexivity.
Qed.

(** ** Deciding the side conditions, for the examples *)
Definition ident_b (w : string) : bool :=
  match w with
  | EmptyString => false
  | String c r => (is_alpha c || Ascii.eqb c "_"%char)
                  && sforall (fun d => is_alpha d || is_digit d || Ascii.eqb d "_"%char) r
  end && is_not_reserved_word w && negb (String.eqb w "t") && negb (String.eqb w "f").
Lemma ident_by : forall w, ident_b w = true -> plain_ident w.
Proof.
  intros w H. unfold ident_b in H. rewrite !andb_true_iff, !negb_true_iff in H.
  destruct H as [[[H1 H2] H3] H4]. split; [ | split; [ now apply not_reserved | ] ].
  - destruct w as [|c r]; [ discriminate | ]. apply andb_true_iff in H1. destruct H1 as [H1 H5]. split.
    + apply orb_true_iff in H1. rewrite is_alpha_spec in H1. destruct H1 as [H1|H1]; auto. right. now apply Ascii.eqb_eq.
    + clear - H5. induction r as [|d r IH]; cbn in *; auto. apply andb_true_iff in H5. destruct H5 as [H5 H6]. split; auto.
      rewrite !orb_true_iff, is_alpha_spec, is_digit_spec, Ascii.eqb_eq in H5. unfold name_char. tauto.
  - split; apply String.eqb_neq; auto.
Qed.
Definition fword_b (w : string) : bool :=
  match w with
  | EmptyString => false
  | String c r => (is_alpha c || Ascii.eqb c "_"%char)
                  && sforall (fun d => is_alpha d || is_digit d || has_char d "_-/%{}") r
  end && is_not_reserved_word w && negb (String.eqb w "t") && negb (String.eqb w "f").
Fixpoint dots (s : string) : string * list string :=
  match s with
  | EmptyString => (EmptyString, [])
  | String c r => let (w, l) := dots r in if Ascii.eqb c "."%char then (EmptyString, w :: l) else (String c w, l)
  end.
Definition field_b (s : string) : bool := let (w, l) := dots s in fword_b w && forallb fword_b l.
Lemma fword_by : forall w, fword_b w = true -> field_word w.
Proof.
  intros w H. unfold fword_b in H. rewrite !andb_true_iff, !negb_true_iff in H.
  destruct H as [[[H1 H2] H3] H4]. split; [ | split; [ now apply not_reserved | ] ].
  - destruct w as [|c r]; [ discriminate | ]. apply andb_true_iff in H1. destruct H1 as [H1 H5]. split.
    + apply orb_true_iff in H1. rewrite is_alpha_spec in H1. destruct H1 as [H1|H1]; auto. right. now apply Ascii.eqb_eq.
    + clear - H5. induction r as [|d r IH]; cbn [sforall all_chars] in *; auto. apply andb_true_iff in H5. destruct H5 as [H5 H6]. split; auto.
      rewrite !orb_true_iff, is_alpha_spec, is_digit_spec, has_char_spec in H5. unfold word_char, name_char. cbn in H5 |- *. intuition auto.
  - split; apply String.eqb_neq; auto.
Qed.
Fixpoint undots (w : string) (l : list string) : string :=
  match l with [] => w | v :: l' => w ++ "." ++ undots v l' end.
Lemma undots_char : forall c w l, undots (String c w) l = String c (undots w l).
Proof. intros c w [|v l]; reflexivity. Qed.
Lemma dots_undots : forall s, undots (fst (dots s)) (snd (dots s)) = s.
Proof.
  induction s as [|c s IH]; [ reflexivity | ]. cbn [dots]. destruct (dots s) as [w l]. cbn [fst snd] in IH.
  destruct (Ascii.eqb_spec c "."%char) as [-> |]; cbn [fst snd].
  - cbn. now rewrite IH.
  - now rewrite undots_char, IH.
Qed.
Lemma field_by : forall s, field_b s = true -> field_name s.
Proof.
  intros s H. unfold field_b in H. rewrite <- (dots_undots s). destruct (dots s) as [w l]. cbn [fst snd].
  apply andb_true_iff in H. destruct H as [H1 H2]. revert w H1. induction l as [|v l IH]; intros w H1.
  - apply F_word. now apply fword_by.
  - cbn in H2. apply andb_true_iff in H2. destruct H2. apply F_dot; auto using fword_by.
Qed.
Fixpoint well_quoted_b (after_backslash : bool) (s : string) : bool :=
  match s with
  | EmptyString => negb after_backslash
  | String c s' => (after_backslash || negb (Ascii.eqb dquote c)) && well_quoted_b (negb after_backslash && Nat.eqb (nat_of_ascii c) 92) s'
  end.
Lemma plain_string_by : forall s,
  match s with EmptyString => false | String c _ => negb (is_space c) end
  && sforall (fun c => negb (Ascii.eqb c "*"%char || Ascii.eqb c "@"%char)) s && well_quoted_b false s = true ->
  plain_string s.
Proof.
  intros s H. apply andb_true_iff in H. destruct H as [H H3]. apply andb_true_iff in H. destruct H as [H1 H2]. split; [ | split ].
  - destruct s as [|c s]; [ discriminate | ]. apply negb_true_iff in H1. now apply is_space_false.
  - clear H1 H3. induction s as [|c s IH]; cbn [all_chars sforall] in *; auto. apply andb_true_iff in H2.
    destruct H2 as [H2 H3]. split; auto. apply negb_true_iff in H2. rewrite !orb_false_iff in H2.
    destruct H2 as [C D]. apply Ascii.eqb_neq in C, D. split; auto.
  - clear H1 H2. revert H3. generalize false. induction s as [|c s IH]; intros b H; [ now destruct b | ].
    cbn [well_quoted_b well_quoted] in *. apply andb_true_iff in H. destruct H as [H1 H2]. split; [ | exact (IH _ H2) ].
    intros -> E. cbn [orb] in H1. apply negb_true_iff, Ascii.eqb_neq in H1. apply H1. symmetry. apply nat_of_ascii_inj. exact E.
Qed.
Lemma same_word_by : forall s t, String.eqb (lower s) (lower t) = false -> ~ same_word s t.
Proof. intros s t H E. apply same_word_lower in E. apply String.eqb_neq in H. auto. Qed.
Lemma no_not_by : forall w, (match strip_prefix_nc "NOT" w with None => true | _ => false end) = true -> ~ starts_with_not w.
Proof.
  intros w H (a & b & -> & E). pose proof (tag_nc_read "NOT" a b E) as T. unfold tag_no_case in T.
  destruct (strip_prefix_nc "NOT" (a ++ b)); discriminate.
Qed.

(** ** White space around operators *)
Lemma blanks_do_not_matter : forall n l r sl sr o b1 b2, field_name n -> wf l -> wf r ->
  writes (pred (binds o)) l sl -> writes (binds o) r sr -> tight sl o b1 b2 ->
  parse ("eval " ++ n ++ "=" ++ sl ++ b1 ++ op_text o ++ b2 ++ sr)
  = parse ("eval " ++ n ++ "=" ++ sl ++ " " ++ op_text o ++ " " ++ sr).
Proof.
  intros n l r sl sr o b1 b2 Hn Hl Hr Wl Wr Ht.
  rewrite (parse_eval1 n (TBin o l r)); auto; [ | now split | apply (writes_le (binds o)); [ destruct o; cbn; lia .. | now apply W_tight ] ].
  symmetry. apply parse_eval1; auto; [ now split | ].
  apply (writes_le (binds o)); [ destruct o; cbn; lia .. | apply W_bin; auto; apply blank1 ].
Qed.
Lemma lower_append : forall a b, lower (a ++ b) = (lower a ++ lower b)%string.
Proof. induction a as [|c a IH]; intro b; [ reflexivity | ]. cbn. f_equal. apply IH. Qed.
Lemma joined_word : forall a c b, field_word a -> word_char c -> ~ letter c -> all_chars word_char b -> field_word (a ++ String c b).
Proof.
  intros a c b (Ha & Hr & Ht & Hf) Hc Hl Hb. destruct a as [|d a]; [ destruct Ha | ]. destruct Ha as [Hd Ha].
  split; [ | split; [ | split ] ].
  - cbn [append]. split; auto. apply all_chars_app. split; auto. now split.
  - intros (k & Hk & Hs). apply same_word_lower in Hs.
    assert (E : exists x y, lower k = (x ++ String c y)%string).
    { exists (lower (String d a)), (lower b). rewrite <- Hs. rewrite lower_append. f_equal. cbn. f_equal.
      clear - Hl. unfold lower_c, letter in *. destruct c as [[][][][][][][][]]; cbn in *; try reflexivity; exfalso; apply Hl; lia. }
    destruct E as (x & y & E). assert (all_chars (fun d => letter d) (lower k)) as L.
    { clear - Hk. revert Hk. unfold spl_reserved. cbn. intro Hk. repeat (destruct Hk as [<-|Hk]; [ cbn; unfold letter; cbn; repeat split; lia | ]). destruct Hk. }
    rewrite E in L. apply all_chars_app in L. destruct L as [_ [L _]]. auto.
  - destruct a; discriminate.
  - destruct a; discriminate.
Qed.
Lemma operators_in_names : forall n a o b, field_name n -> field_word a -> o = OSub \/ o = ODiv -> all_chars word_char b ->
  parse ("eval " ++ n ++ "=" ++ a ++ op_text o ++ b) = Some (Ok [CEval [(n, ELeaf (LConstant (KField (a ++ op_text o ++ b))))]]).
Proof.
  intros n a o b Hn Ha Ho Hb. apply (parse_eval1 n (TField (a ++ op_text o ++ b)%string)); auto.
  - apply F_word. destruct Ho as [-> | ->]; cbn [op_text append]; apply joined_word; auto; unfold word_char, letter; cbn; try tauto; lia.
  - apply (writes_le 2); [ lia | lia | apply W_field ].
Qed.
