(** C23: Python reads a rendered column as its intended tree. *)
From Verif Require Import Str PyAst Render ParserFacts SpecPy PyFacts SpecCol.
Open Scope list_scope.

Section ColInd.
  Variables (P : ColumnLike -> Prop) (Q : PExpr -> Prop).
  Hypothesis Hnamed : forall n, P (CNamed n).
  Hypothesis Hlit : forall n, P (CLiteral n).
  Hypothesis Hmeth : forall e f l, Q e -> Forall Q l -> P (CMethodCall e f l).
  Hypothesis Hfun : forall f l, Forall Q l -> P (CFunctionCall f l).
  Hypothesis Halias : forall e n, Q e -> P (CAliased e n).
  Hypothesis Hbin : forall op l r, Q l -> Q r -> P (CBinaryOp op l r).
  Hypothesis Hnot : forall r, Q r -> P (CUnaryNot r).
  Hypothesis Hcol : forall c, P c -> Q (PCol c).
  Hypothesis Hpy : forall c, Q (PyLit c).
  Fixpoint col_induct (c : ColumnLike) : P c :=
    let go := (fix go l : Forall Q l :=
      match l with nil => Forall_nil _ | x :: l' => Forall_cons _ (pexpr_induct x) (go l') end) in
    match c with
    | CNamed n => Hnamed n
    | CLiteral n => Hlit n
    | CMethodCall e f l => Hmeth e f l (pexpr_induct e) (go l)
    | CFunctionCall f l => Hfun f l (go l)
    | CAliased e n => Halias e n (pexpr_induct e)
    | CBinaryOp op l r => Hbin op l r (pexpr_induct l) (pexpr_induct r)
    | CUnaryNot r => Hnot r (pexpr_induct r)
    end
  with pexpr_induct (e : PExpr) : Q e :=
    match e with PCol c => Hcol c (col_induct c) | PyLit s => Hpy s end.
End ColInd.

(** ** Tokens of a rendered column *)
Definition op (s : string) : Tok := TkOp s.
Fixpoint sep_toks (l : list (list Tok)) : list Tok :=
  match l with
  | [] => []
  | [x] => x
  | x :: l' => x ++ op "," :: sep_toks l'
  end.
Definition path_toks (dotted : string) : list Tok :=
  match split_on "." dotted with
  | x :: l => TkName x :: List.concat (map (fun y => [op "."; TkName y]) l)
  | [] => []
  end.
Definition code_toks (code : string) : list Tok :=
  match code with
  | EmptyString => []
  | String c s =>
      if py_quote c then [TkStr (literal_value c (without_last s))]
      else if py_digit c then [TkNum code]
      else if Ascii.eqb c "-" then [op "-"; TkNum s]
      else if raw_start code then [TkStr (raw_text code)]
      else [TkName code]
  end.
Definition call_toks (l : list (list Tok)) : list Tok := op "(" :: sep_toks l ++ [op ")"].
Definition F_toks (f : string) : list Tok := [TkName "F"; op "."; TkName f].
Fixpoint col_toks (c : ColumnLike) : list Tok :=
  match c with
  | CNamed n => F_toks "col" ++ call_toks [[TkStr n]]
  | CLiteral code => F_toks "lit" ++ call_toks [code_toks code]
  | CMethodCall col f args =>
      pexpr_toks col ++ op "." :: TkName f :: call_toks (map pexpr_toks args)
  | CFunctionCall f args =>
      (if contains "." f then path_toks f else F_toks f) ++ call_toks (map pexpr_toks args)
  | CAliased col n => pexpr_toks col ++ op "." :: TkName "alias" :: call_toks [[TkStr n]]
  | CBinaryOp o l r => pexpr_toks l ++ op o :: pexpr_toks r
  | CUnaryNot r => op "~" :: pexpr_toks r
  end
with pexpr_toks (e : PExpr) : list Tok :=
  match e with
  | PCol (CBinaryOp o l r) => op "(" :: (pexpr_toks l ++ op o :: pexpr_toks r) ++ [op ")"]
  | PCol c => col_toks c
  | PyLit code => code_toks code
  end.

(** ** Lexing the pieces *)
Lemma lit_closed : forall s ts, lex_run LxStart s = Some (LxStart, ts) -> lx_closed s ts.
Proof. auto. Qed.
Ltac lit := (apply lit_closed; vm_compute; reflexivity).

Lemma run_str : forall q s w, plain_between q s = true ->
  lex_run (LxStr q w) s = Some (LxStr q (w ++ s)%string, []).
Proof.
  intros q. induction s as [|c s IH]; intros w H.
  - cbn [lex_run]. now rewrite append_nil_r.
  - unfold plain_between in H. cbn [sforall] in H. apply andb_prop in H as [Hc H].
    apply negb_true_iff, orb_false_iff in Hc as [Hc Hb]. apply orb_false_iff in Hc as [Hq Hs].
    cbn [lex_run lex_step]. rewrite Hq, Hs, Hb. cbn [pre].
    rewrite IH by exact H. cbn [pre app]. now rewrite append_assoc_s.
Qed.

Lemma backslash_is : forall c, py_backslash c = true -> c = py_char 92.
Proof. intros c H. apply Nat.eqb_eq in H. unfold py_char. rewrite <- H. symmetry. apply ascii_nat_embedding. Qed.
Lemma run_stands : forall q s w, py_quote q = true ->
  (stands q false s = true -> lex_run (LxStr q w) s = Some (LxStr q (w ++ s)%string, [])) /\
  (stands q true s = true -> lex_run (LxEsc q w) s = Some (LxStr q (w ++ String (py_char 92) s)%string, [])).
Proof.
  intros q s w Hq. revert w. induction s as [|c s IH]; intro w; split; intro H; try discriminate H.
  - cbn [lex_run]. now rewrite append_nil_r.
  - cbn [stands] in H. cbn [lex_run lex_step]. destruct (py_backslash c) eqn:B.
    + assert (Q : Ascii.eqb c q = false).
      { apply Ascii.eqb_neq. intros ->. rewrite (backslash_is q B) in Hq. discriminate Hq. }
      rewrite Q. cbn [pre]. rewrite (proj2 (IH w) H). cbn [pre app]. now rewrite (backslash_is c B).
    + apply andb_prop in H as [Hc H]. apply negb_true_iff, orb_false_iff in Hc as [Hq' Hb]. rewrite Hq', Hb. cbn [pre].
      rewrite (proj1 (IH _) H). cbn [pre app]. now rewrite append_assoc_s.
  - cbn [stands] in H. apply andb_prop in H as [E H]. cbn [lex_run lex_step]. destruct (escape_value c) as [v|]; [ | discriminate E ].
    apply String.eqb_eq in E. subst v. cbn [pre]. rewrite (proj1 (IH _) H). cbn [pre app]. now rewrite append_assoc_s.
Qed.
Lemma between_stands : forall q s, plain_between q s = true -> stands q false s = true.
Proof.
  intros q s H. unfold plain_between in H. induction s as [|c s IH]; [ reflexivity | ]. cbn [sforall] in H. apply andb_prop in H as [Hc H].
  cbn [stands]. apply negb_true_iff, orb_false_iff in Hc as [Hc Hb]. apply orb_false_iff in Hc as [Hq Hs]. rewrite Hs, Hq, Hb. now apply IH.
Qed.

Lemma ender_not_quote : forall c q, py_quote q = true -> ender c -> Ascii.eqb c q = false.
Proof.
  intros c q Hq Hc. unfold ender in Hc. cbn [In] in Hc. apply Ascii.eqb_neq. intros ->.
  repeat destruct Hc as [<-|Hc]; try contradiction Hc; discriminate Hq.
Qed.
Lemma str_tail : forall q w c rest, py_quote q = true -> ender c ->
  lex_run (LxStr q w) (String q (String c rest)) = pre [TkStr w] (lex_run LxStart (String c rest)).
Proof.
  intros q w c rest Hq Hc. cbn [lex_run lex_step]. rewrite Ascii.eqb_refl.
  pose proof (ender_not_quote c q Hq Hc) as N.
  destruct w; cbn [lex_step]; rewrite ?N; reflexivity.
Qed.
Lemma quote_start : forall q, py_quote q = true -> lex_start q = Some (LxStr q "", []).
Proof.
  intros q H. unfold py_quote in H. apply orb_prop in H.
  assert (E : q = ascii_of_nat 34 \/ q = ascii_of_nat 39).
  { destruct H as [H|H]; apply Nat.eqb_eq in H; [ left | right ]; rewrite <- H; symmetry; apply ascii_nat_embedding. }
  destruct E; subst; reflexivity.
Qed.
Lemma run_unquoted : forall q s w, py_quote q = true ->
  (forall v, unquoted q false s = Some v -> lex_run (LxStr q w) s = Some (LxStr q (w ++ v)%string, [])) /\
  (forall v, unquoted q true s = Some v -> lex_run (LxEsc q w) s = Some (LxStr q (w ++ v)%string, [])).
Proof.
  intros q s w Hq. revert w. induction s as [|c s IH]; intro w; split; intros v H; try discriminate H.
  - injection H as <-. cbn [lex_run]. now rewrite append_nil_r.
  - cbn [unquoted] in H. cbn [lex_run lex_step]. destruct (py_backslash c) eqn:B.
    + assert (Q : Ascii.eqb c q = false).
      { apply Ascii.eqb_neq. intros ->. rewrite (backslash_is q B) in Hq. discriminate Hq. }
      rewrite Q. cbn [pre]. now rewrite (proj2 (IH w) v H).
    + destruct (Ascii.eqb c q || py_break c) eqn:X; [ discriminate H | ]. apply orb_false_iff in X as [Hq' Hb]. rewrite Hq', Hb. cbn [pre].
      destruct (unquoted q false s) as [u|]; [ | discriminate H ]. injection H as <-. rewrite (proj1 (IH _) u eq_refl). cbn [pre app]. now rewrite append_assoc_s.
  - cbn [unquoted] in H. cbn [lex_run lex_step]. destruct (escape_value c) as [x|]; [ | discriminate H ].
    destruct (unquoted q false s) as [u|]; [ | discriminate H ]. injection H as <-. cbn [pre]. rewrite (proj1 (IH _) u eq_refl). cbn [pre app]. now rewrite append_assoc_s.
Qed.
Lemma stands_unquoted : forall q s, (stands q false s = true -> unquoted q false s = Some s) /\
  (stands q true s = true -> unquoted q true s = Some (String (py_char 92) s)).
Proof.
  intros q s. induction s as [|c s [IH1 IH2]]; split; intro H; try discriminate H; [ reflexivity | | ]; cbn [stands] in H; cbn [unquoted].
  - destruct (py_backslash c) eqn:B; [ rewrite (IH2 H); now rewrite (backslash_is c B) | ].
    apply andb_prop in H as [Hc H]. apply negb_true_iff in Hc. now rewrite Hc, (IH1 H).
  - apply andb_prop in H as [E H]. destruct (escape_value c) as [v|]; [ | discriminate E ]. apply String.eqb_eq in E. subst v. now rewrite (IH1 H).
Qed.
Lemma unquoted_ended : forall q s v, py_quote q = true -> unquoted q false s = Some v ->
  lx_ended (String q (s ++ one_char q)) [TkStr v].
Proof.
  intros q s v Hq Hs. unfold lx_ended. cbn [lex_run lex_step]. rewrite quote_start by exact Hq.
  cbn [pre]. rewrite pre_nil, lex_run_app, (proj1 (run_unquoted q s "" Hq) v Hs). cbn [append pre one_char lex_run lex_step].
  rewrite Ascii.eqb_refl.
  destruct v as [|c v]; (do 3 eexists; split; [ reflexivity | ]; split; [ reflexivity | ];
    split; [ symmetry; apply app_nil_r | ]).
  - intros c Hc. cbn [lex_step]. rewrite pre_nil.
    now rewrite (ender_not_quote c q Hq Hc).
  - intros d Hd. cbn [lex_step]. now rewrite pre_nil.
Qed.
Lemma stands_ended : forall q s, py_quote q = true -> stands q false s = true ->
  lx_ended (String q (s ++ one_char q)) [TkStr s].
Proof. intros q s Hq Hs. apply unquoted_ended; [ exact Hq | now apply stands_unquoted ]. Qed.

Lemma quoted_ended : forall q s, py_quote q = true -> plain_between q s = true ->
  lx_ended (String q (s ++ one_char q)) [TkStr s].
Proof. intros q s Hq Hs. apply stands_ended; [ exact Hq | now apply between_stands ]. Qed.

Lemma run_word : forall s w, sforall py_word s = true ->
  lex_run (LxName w) s = Some (LxName (w ++ s)%string, []).
Proof.
  induction s as [|c s IH]; intros w H.
  - cbn [lex_run]. now rewrite append_nil_r.
  - cbn [sforall] in H. apply andb_prop in H as [Hc H].
    cbn [lex_run lex_step]. rewrite Hc, IH by exact H. cbn [pre app]. now rewrite append_assoc_s.
Qed.
Lemma letter_start : forall c, py_letter c = true -> lex_start c = Some (LxName (one_char c), []).
Proof. intros c H. unfold lex_start. now rewrite H. Qed.
Lemma ident_run : forall f, py_ident f = true ->
  lex_run LxStart f = Some (LxName f, []).
Proof.
  intros [|c f] H; [ discriminate H | ]. cbn [py_ident] in H.
  apply andb_prop in H as [H _]. apply andb_prop in H as [Hc H].
  cbn [lex_run lex_step]. rewrite letter_start by exact Hc. cbn [pre]. rewrite run_word by exact H. reflexivity.
Qed.
(** A name is ended by any character that is neither part of a word nor a quote *)
Lemma name_then : forall w c rest, py_word c = false -> py_quote c = false ->
  lex_run (LxName w) (String c rest) = pre [TkName w] (lex_run LxStart (String c rest)).
Proof.
  intros w c rest Hw Hq. cbn [lex_run lex_step]. rewrite Hw, Hq.
  destruct (lex_start c) as [[st us]|]; [ | reflexivity ].
  cbn [pre]. destruct (lex_run st rest) as [[st' vs]|]; reflexivity.
Qed.
Lemma ident_call : forall f, py_ident f = true ->
  lx_closed (f ++ "(")%string [TkName f; op "("].
Proof.
  intros f H. unfold lx_closed. rewrite lex_run_app, ident_run by exact H.
  rewrite name_then by reflexivity. reflexivity.
Qed.
Lemma letter_not_digit : forall c, py_letter c = true -> py_digit c = false.
Proof.
  intros c Hc. unfold py_letter, py_digit in *. apply not_true_is_false. intro D.
  apply andb_prop in D as [D1 D2]. apply Nat.leb_le in D1. apply Nat.leb_le in D2.
  repeat (apply orb_prop in Hc as [Hc|Hc]).
  - apply andb_prop in Hc as [A B]. apply Nat.leb_le in A. apply Nat.leb_le in B. lia.
  - apply andb_prop in Hc as [A B]. apply Nat.leb_le in A. apply Nat.leb_le in B. lia.
  - apply Nat.eqb_eq in Hc. lia.
Qed.
Lemma dot_then : forall c rest, py_letter c = true ->
  lex_run LxStart (String "." (String c rest)) = pre [op "."] (lex_run LxStart (String c rest)).
Proof.
  intros c rest Hc. cbn [lex_run lex_step].
  change (lex_start ".") with (Some (LxOp ".", @nil Tok)). cbv iota. rewrite pre_nil.
  cbn [lex_step].
  assert (E1 : Ascii.eqb c "=" = false) by (apply Ascii.eqb_neq; intros ->; discriminate Hc).
  assert (E2 : Ascii.eqb c "." = false) by (apply Ascii.eqb_neq; intros ->; discriminate Hc).
  assert (E3 : Ascii.eqb c ">" = false) by (apply Ascii.eqb_neq; intros ->; discriminate Hc).
  rewrite E1, E2, E3, (letter_not_digit c Hc), letter_start by exact Hc.
  change (Ascii.eqb "." "!") with false. change (char_in "." "*/<>") with false.
  rewrite !andb_false_r. cbn [andb orb pre app].
  destruct (lex_run (LxName (one_char c)) rest) as [[st us]|]; reflexivity.
Qed.
Lemma ident_letter : forall f, py_ident f = true -> exists c f', f = String c f' /\ py_letter c = true.
Proof.
  intros [|c f] H; [ discriminate H | ]. cbn [py_ident] in H.
  apply andb_prop in H as [H _]. apply andb_prop in H as [Hc H]. eauto.
Qed.
Lemma dot_ident : forall f rest, py_ident f = true ->
  lex_run LxStart ("." ++ f ++ rest)%string = pre [op "."] (lex_run (LxName f) rest).
Proof.
  intros f rest H. pose proof (ident_run f H) as R. destruct (ident_letter f H) as (c & f' & -> & Hc).
  change ("." ++ String c f' ++ rest)%string with (String "." (String c (f' ++ rest)))%string.
  rewrite dot_then by exact Hc. change (String c (f' ++ rest)) with (String c f' ++ rest)%string.
  rewrite lex_run_app, R. now rewrite pre_nil.
Qed.
Lemma dot_ident_call : forall f, py_ident f = true ->
  lx_closed ("." ++ f ++ "(")%string [op "."; TkName f; op "("].
Proof.
  intros f H. unfold lx_closed. rewrite dot_ident by exact H.
  rewrite name_then by reflexivity. reflexivity.
Qed.
Definition dots (l : list string) : string := sconcat (map (fun y => "." ++ y)%string l).
Lemma dots_run : forall l x, forallb py_ident l = true ->
  lex_run (LxName x) (dots l ++ "(")%string
  = Some (LxStart, TkName x :: List.concat (map (fun y => [op "."; TkName y]) l) ++ [op "("]).
Proof.
  induction l as [|y l IH]; intros x H.
  - cbn [dots map sconcat append]. rewrite name_then by reflexivity. reflexivity.
  - cbn [forallb] in H. apply andb_prop in H as [Hy H].
    change (dots (y :: l)) with (("." ++ y) ++ dots l)%string. rewrite !append_assoc_s.
    change ("." ++ y ++ dots l ++ "(")%string with (String "." (y ++ dots l ++ "("))%string.
    rewrite name_then by reflexivity.
    change (String "." (y ++ dots l ++ "("))%string with ("." ++ y ++ dots l ++ "(")%string.
    rewrite dot_ident, (IH y H) by exact Hy. reflexivity.
Qed.
Lemma split_dots : forall s x l, split_on "." s = x :: l -> s = (x ++ dots l)%string.
Proof.
  induction s as [|c s IH]; intros x l H.
  - cbn [split_on] in H. injection H as <- <-. reflexivity.
  - cbn [split_on] in H. destruct (Ascii.eqb_spec "." c) as [<-|N].
    + injection H as <- <-. destruct (split_on "." s) as [|y k] eqn:E.
      * exfalso. clear - E. destruct s as [|d s]; cbn [split_on] in E; [ discriminate E | ].
        destruct (Ascii.eqb "." d); [ discriminate E | ]. destruct (split_on "." s); discriminate E.
      * rewrite (IH y k eq_refl) at 1. reflexivity.
    + destruct (split_on "." s) as [|y k] eqn:E.
      * exfalso. clear - E. destruct s as [|d s]; cbn [split_on] in E; [ discriminate E | ].
        destruct (Ascii.eqb "." d); [ discriminate E | ]. destruct (split_on "." s); discriminate E.
      * injection H as <- <-. cbn [append]. f_equal. now apply IH.
Qed.
Lemma path_call : forall f x l, split_on "." f = x :: l -> py_ident x = true -> forallb py_ident l = true ->
  lx_closed (f ++ "(")%string (path_toks f ++ [op "("]).
Proof.
  intros f x l E Hx Hl. unfold lx_closed, path_toks. rewrite E.
  rewrite (split_dots f x l E) at 1. rewrite append_assoc_s, lex_run_app, ident_run by exact Hx.
  rewrite dots_run by exact Hl. cbn [pre app]. reflexivity.
Qed.

(** ** Verbatim code *)
Lemma digit_start : forall c, py_digit c = true -> lex_start c = Some (LxNum (one_char c), []).
Proof.
  intros c H. unfold lex_start. destruct (py_letter c) eqn:L; [ | now rewrite H ].
  rewrite letter_not_digit in H by exact L. discriminate H.
Qed.
Lemma char_in_app : forall c a b, char_in c (a ++ b)%string = char_in c a || char_in c b.
Proof. induction a as [|d a IH]; intro b; cbn [append char_in]; [ reflexivity | ]. rewrite IH. now rewrite orb_assoc. Qed.
Lemma run_num : forall s w, is_decimals (char_in "." w) s = true ->
  lex_run (LxNum w) s = Some (LxNum (w ++ s)%string, []).
Proof.
  induction s as [|c s IH]; intros w H.
  - cbn [lex_run]. now rewrite append_nil_r.
  - cbn [is_decimals] in H. cbn [lex_run lex_step].
    destruct (py_digit c) eqn:D; cbn [orb].
    + rewrite IH; [ cbn [pre app]; now rewrite append_assoc_s | ].
      rewrite char_in_app. cbn [char_in one_char].
      assert (N : Ascii.eqb "." c = false) by (apply Ascii.eqb_neq; intros <-; discriminate D).
      rewrite N. cbn [orb]. now rewrite orb_false_r.
    + destruct (Ascii.eqb_spec c "."); [ | discriminate H ]. subst c.
      apply andb_prop in H as [Hn H]. rewrite Hn. cbn [andb].
      rewrite IH; [ cbn [pre app]; now rewrite append_assoc_s | ].
      rewrite char_in_app. cbn [char_in one_char Ascii.eqb]. rewrite orb_true_r. exact H.
Qed.
Lemma number_run : forall s, is_number s = true -> lex_run LxStart s = Some (LxNum s, []).
Proof.
  intros [|c s] H; [ discriminate H | ]. cbn [is_number] in H.
  apply andb_prop in H as [H _]. apply andb_prop in H as [Hc H].
  cbn [lex_run lex_step]. rewrite digit_start by exact Hc. cbn [pre].
  rewrite run_num; [ reflexivity | ]. cbn [one_char char_in].
  replace (Ascii.eqb "." c) with false; [ exact H | ].
  symmetry. apply Ascii.eqb_neq. intros <-. discriminate Hc.
Qed.
Lemma number_ok : forall s, is_number s = true -> num_ok s = true.
Proof. intros [|c s] H; [ discriminate H | ]. cbn [is_number] in H. now apply andb_prop in H as [_ H]. Qed.
Lemma num_ender : forall s c, num_ok s = true -> ender c -> lex_step (LxNum s) c = pre [TkNum s] (lex_start c).
Proof.
  intros s c Hs Hc. unfold ender in Hc. cbn [In] in Hc. cbn [lex_step].
  repeat destruct Hc as [<-|Hc]; try contradiction Hc; cbn -[num_ok lex_start pre]; rewrite Hs; reflexivity.
Qed.
Lemma number_ended : forall s, is_number s = true -> lx_ended s [TkNum s].
Proof.
  intros s H. exists (LxNum s), [], [TkNum s]. split; [ now apply number_run | ].
  cbn [lex_end]. rewrite (number_ok s H). repeat split.
  intros c Hc. apply num_ender; [ now apply number_ok | exact Hc ].
Qed.
Lemma minus_ended : forall s, is_number s = true -> lx_ended (String "-" s) [op "-"; TkNum s].
Proof.
  intros s H. pose proof (number_run s H) as R. pose proof (number_ok s H) as K.
  exists (LxNum s), [op "-"], [TkNum s]. split; [ | cbn [lex_end]; rewrite K; repeat split; intros; now apply num_ender ].
  destruct s as [|c s]; [ discriminate H | ]. cbn [is_number] in H.
  apply andb_prop in H as [H _]. apply andb_prop in H as [Hc H].
  cbn [lex_run lex_step] in R |- *. rewrite digit_start in R by exact Hc.
  change (lex_start "-") with (Some (LxOp "-", @nil Tok)). cbv iota. cbn [lex_run lex_step].
  assert (E1 : Ascii.eqb c "=" = false) by (apply Ascii.eqb_neq; intros ->; discriminate Hc).
  assert (E3 : Ascii.eqb c ">" = false) by (apply Ascii.eqb_neq; intros ->; discriminate Hc).
  rewrite E1, E3. change (Ascii.eqb "-" "!") with false. change (char_in "-" "*/<>") with false.
  change (Ascii.eqb "-" ".") with false. rewrite !andb_false_r. cbn [andb orb].
  rewrite digit_start by exact Hc. cbn [pre app] in R |- *. rewrite pre_nil in R. rewrite R. reflexivity.
Qed.
(** Raw strings *)
Lemma run_raw : forall q s w, py_quote q = true ->
  (plain_raw q false s = true -> lex_run (LxRaw q w) s = Some (LxRaw q (w ++ s)%string, [])) /\
  (plain_raw q true s = true -> lex_run (LxRawEsc q w) s = Some (LxRaw q (w ++ String (py_char 92) s)%string, [])).
Proof.
  intros q s w Hq. revert w. induction s as [|c s IH]; intro w; split; intro H.
  - cbn [lex_run]. now rewrite append_nil_r.
  - discriminate H.
  - cbn [plain_raw] in H. apply andb_prop in H as [Hb H]. apply negb_true_iff in Hb. cbn [lex_run lex_step].
    destruct (py_backslash c) eqn:B.
    + assert (Q : Ascii.eqb c q = false).
      { apply Ascii.eqb_neq. intros ->. rewrite (backslash_is q B) in Hq. discriminate Hq. }
      rewrite Q. cbn [pre]. rewrite (proj2 (IH w) H). cbn [pre app]. now rewrite (backslash_is c B).
    + apply andb_prop in H as [Q H]. apply negb_true_iff in Q. rewrite Q, Hb. cbn [pre].
      rewrite (proj1 (IH _) H). cbn [pre app]. now rewrite append_assoc_s.
  - cbn [plain_raw] in H. apply andb_prop in H as [Hb H]. apply negb_true_iff in Hb. cbn [lex_run lex_step]. rewrite Hb. cbn [pre].
    rewrite (proj1 (IH _) H). cbn [pre app]. now rewrite append_assoc_s.
Qed.
Lemma raw_ended : forall q s, py_quote q = true -> plain_raw q false s = true ->
  lx_ended (String "r" (String q (s ++ one_char q))) [TkStr s].
Proof.
  intros q s Hq Hs. unfold lx_ended. cbn [lex_run lex_step]. change (lex_start "r") with (Some (LxName "r", @nil Tok)). cbv iota.
  rewrite pre_nil. cbn [lex_run lex_step].
  assert (W : py_word q = false).
  { unfold py_quote in Hq. apply orb_prop in Hq.
    assert (E : q = ascii_of_nat 34 \/ q = ascii_of_nat 39).
    { destruct Hq as [H|H]; apply Nat.eqb_eq in H; [ left | right ]; rewrite <- H; symmetry; apply ascii_nat_embedding. }
    destruct E; subst; reflexivity. }
  rewrite W, Hq. change (String.eqb "r" "r") with true. cbv iota.
  rewrite pre_nil, lex_run_app, (proj1 (run_raw q s "" Hq) Hs). cbn [append pre one_char lex_run lex_step].
  rewrite Ascii.eqb_refl.
  destruct s as [|c s]; (do 3 eexists; split; [ reflexivity | ]; split; [ reflexivity | ];
    split; [ symmetry; apply app_nil_r | ]).
  - intros c Hc. cbn [lex_step]. rewrite pre_nil.
    now rewrite (ender_not_quote c q Hq Hc).
  - intros d Hd. cbn [lex_step]. now rewrite pre_nil.
Qed.
Lemma raw_code_ended : forall code, raw_start code = true -> plain_raw_code code = true -> lx_ended code [TkStr (raw_text code)].
Proof.
  intros [|r [|q s]] R H; try discriminate R. cbn [raw_start plain_raw_code raw_text] in *. apply andb_prop in R as [R Q].
  apply Ascii.eqb_eq in R. subst r. apply andb_prop in H as [E H]. apply String.eqb_eq in E. rewrite E at 1. now apply raw_ended.
Qed.
Lemma code_ended : forall code, plain_code code = true -> lx_ended code (code_toks code).
Proof.
  intros [|c s] H; [ discriminate H | ]. cbn [plain_code code_toks] in *.
  destruct (py_quote c) eqn:Q.
  - apply andb_prop in H as [E H]. apply String.eqb_eq in E. rewrite E at 1. unfold literal_value.
    destruct (unquoted c false (without_last s)) as [v|] eqn:U; [ | discriminate H ]. now apply unquoted_ended.
  - destruct (py_digit c); [ now apply number_ended | ].
    destruct (Ascii.eqb_spec c "-") as [->|]; [ now apply minus_ended | ].
    destruct (raw_start (String c s)) eqn:R; [ now apply raw_code_ended | ].
    unfold str_in, python_constants in H. cbn [existsb] in H.
    repeat (apply orb_prop in H as [H|H]); try discriminate H; apply String.eqb_eq in H; rewrite H;
      (do 3 eexists; split; [ vm_compute; reflexivity | ]; split; [ reflexivity | ]; split; [ reflexivity | ];
       intros d Hd; unfold ender in Hd; cbn [In] in Hd;
       repeat destruct Hd as [<-|Hd]; try contradiction Hd; reflexivity).
Qed.

(** ** Lexing whole columns *)
Lemma ender_paren : ender ")". Proof. unfold ender. cbn [In]. tauto. Qed.
Lemma ender_comma : ender ",". Proof. unfold ender. cbn [In]. tauto. Qed.
Lemma ender_space : ender " ". Proof. unfold ender. cbn [In]. tauto. Qed.
Lemma ender_bracket : ender "]". Proof. unfold ender. cbn [In]. tauto. Qed.
Lemma ender_brace : ender "}". Proof. unfold ender. cbn [In]. tauto. Qed.
#[local] Hint Resolve ender_paren ender_comma ender_space ender_bracket ender_brace : lexing.

(** A separated list of ended texts, followed by a closed text that starts with an
    ending character *)
Lemma list_closed : forall c tl us texts toks,
  ender c -> lx_closed (String c tl) us -> Forall2 lx_ended texts toks ->
  lx_closed (join ", " texts ++ String c tl)%string (sep_toks toks ++ us).
Proof.
  intros c tl us texts toks Hc Ht F. induction F as [|x ts texts toks Hx F IH]; [ exact Ht | ].
  destruct F as [|y ts' texts toks Hy F].
  - cbn [join sep_toks]. now apply lx_ended_app.
  - change (join ", " (x :: y :: texts)) with (x ++ ", " ++ join ", " (y :: texts))%string.
    change (sep_toks (ts :: ts' :: toks)) with (ts ++ op "," :: sep_toks (ts' :: toks)).
    rewrite append_assoc_s.
    change ((", " ++ join ", " (y :: texts)) ++ String c tl)%string
      with (String "," (" " ++ (join ", " (y :: texts) ++ String c tl)))%string.
    rewrite <- app_assoc. apply lx_ended_app; [ exact Hx | apply ender_comma | ].
    change (String "," (" " ++ (join ", " (y :: texts) ++ String c tl)))%string
      with (", " ++ (join ", " (y :: texts) ++ String c tl))%string.
    change ((op "," :: sep_toks (ts' :: toks)) ++ us) with ([op ","] ++ (sep_toks (ts' :: toks) ++ us)).
    apply lx_closed_app; [ lit | exact IH ].
Qed.
Lemma args_closed : forall texts toks, Forall2 lx_ended texts toks ->
  lx_closed (join ", " texts ++ ")")%string (sep_toks toks ++ [op ")"]).
Proof. intros. apply list_closed; [ apply ender_paren | lit | assumption ]. Qed.

Lemma quoted_name_closed : forall (before : string) ts n c tl us,
  lex_run LxStart before = Some (LxStr squote "", ts) -> plain_name_text n = true ->
  ender c -> lx_closed (String c tl) us ->
  lx_closed (before ++ n ++ String squote (String c tl))%string (ts ++ TkStr n :: us).
Proof.
  intros before ts n c tl us Hb Hn Hc Ht. unfold lx_closed.
  rewrite lex_run_app, Hb, lex_run_app, run_str by exact Hn. cbn [append].
  rewrite str_tail by (reflexivity || assumption). rewrite Ht. reflexivity.
Qed.

Definition col_lexes (c : ColumnLike) : Prop := plain_col c = true ->
  lx_ended (render_col c) (col_toks c) /\ lx_closed (render_pexpr (PCol c)) (pexpr_toks (PCol c)).
Definition pexpr_lexes (e : PExpr) : Prop := plain_pexpr e = true ->
  lx_ended (render_pexpr e) (pexpr_toks e) /\
  (is_column e = true -> lx_closed (render_pexpr e) (pexpr_toks e)).

Lemma args_lex : forall l, Forall pexpr_lexes l -> forallb plain_pexpr l = true ->
  Forall2 lx_ended (map render_pexpr l) (map pexpr_toks l).
Proof.
  induction 1 as [|e l He Hl IH]; intro H; [ constructor | ].
  cbn [forallb] in H. apply andb_prop in H as [H1 H2]. cbn [map]. constructor; [ now apply He | auto ].
Qed.
Lemma receiver_column : forall e, receiver e = true -> is_column e = true.
Proof. intros [c|s]; [ reflexivity | discriminate ]. Qed.

Lemma op_closed : forall o, str_in o binary_ops = true -> lx_closed (String " " (o ++ " "))%string [op o].
Proof.
  intros o H. unfold str_in in H. apply existsb_exists in H as (x & I & E). apply String.eqb_eq in E. subst x.
  cbn in I. repeat destruct I as [<-|I]; try contradiction I; lit.
Qed.
Lemma binary_lexes : forall o l r, pexpr_lexes l -> pexpr_lexes r -> plain_col (CBinaryOp o l r) = true ->
  lx_ended (render_col (CBinaryOp o l r)) (col_toks (CBinaryOp o l r)).
Proof.
  intros o l r Hl Hr H. cbn [plain_col] in H.
  apply andb_prop in H as [H Pr]. apply andb_prop in H as [Ho Pl].
  cbn [render_col col_toks].
  change (" " ++ o ++ " " ++ render_pexpr r)%string with (String " " (o ++ " " ++ render_pexpr r))%string.
  apply lx_ended_app_ended; [ now apply Hl | apply ender_space | ].
  replace (String " " (o ++ " " ++ render_pexpr r))%string
    with (String " " (o ++ " ") ++ render_pexpr r)%string by (cbn [append]; now rewrite append_assoc_s).
  apply (lx_closed_ended_app _ [op o]); [ now apply op_closed | now apply Hr ].
Qed.

Lemma columns_lex : forall c, col_lexes c.
Proof.
  apply (col_induct col_lexes pexpr_lexes).
  - intros n H. cbn [plain_col] in H.
    assert (C : lx_closed (render_col (CNamed n)) (col_toks (CNamed n))).
    { cbn [render_col col_toks]. change (n ++ "')")%string with (n ++ String squote (String ")" ""))%string.
      apply (quoted_name_closed "F.col('" (F_toks "col" ++ [op "("]) n ")" "" [op ")"]);
        [ vm_compute; reflexivity | exact H | apply ender_paren | lit ]. }
    split; [ now apply lx_closed_ended | exact C ].
  - intros n H. cbn [plain_col] in H.
    assert (C : lx_closed (render_col (CLiteral n)) (col_toks (CLiteral n))).
    { cbn [render_col col_toks]. apply (lx_closed_app "F.lit(" (F_toks "lit" ++ [op "("])); [ lit | ].
      apply (lx_ended_app _ (code_toks n) ")" "" [op ")"]); [ now apply code_ended | apply ender_paren | lit ]. }
    split; [ now apply lx_closed_ended | exact C ].
  - intros e f l He Hl H. cbn [plain_col] in H.
    apply andb_prop in H as [H Pl]. apply andb_prop in H as [H Pf]. apply andb_prop in H as [Re Pe].
    assert (C : lx_closed (render_col (CMethodCall e f l)) (col_toks (CMethodCall e f l))).
    { cbn [render_col col_toks]. apply lx_closed_app; [ apply He; [ exact Pe | now apply receiver_column ] | ].
      replace ("." ++ f ++ "(" ++ join ", " (map render_pexpr l) ++ ")")%string
        with (("." ++ f ++ "(") ++ (join ", " (map render_pexpr l) ++ ")"))%string
        by (now rewrite !append_assoc_s).
      apply (lx_closed_app _ [op "."; TkName f; op "("]); [ now apply dot_ident_call | ].
      now apply args_closed, args_lex. }
    split; [ now apply lx_closed_ended | exact C ].
  - intros f l Hl H. cbn [plain_col] in H. apply andb_prop in H as [Pf Pl].
    assert (C : lx_closed (render_col (CFunctionCall f l)) (col_toks (CFunctionCall f l))).
    { cbn [render_col col_toks].
      set (name := if contains "." f then f else ("F." ++ f)%string).
      replace (name ++ "(" ++ join ", " (map render_pexpr l) ++ ")")%string
        with ((name ++ "(") ++ (join ", " (map render_pexpr l) ++ ")"))%string by (now rewrite !append_assoc_s).
      unfold call_toks. change (op "(" :: sep_toks (map pexpr_toks l) ++ [op ")"])
        with ([op "("] ++ (sep_toks (map pexpr_toks l) ++ [op ")"])). rewrite app_assoc.
      apply lx_closed_app; [ | now apply args_closed, args_lex ].
      unfold name. destruct (contains "." f).
      - destruct (split_on "." f) as [|x k] eqn:E; [ discriminate Pf | ].
        apply andb_prop in Pf as [Px Pk]. now apply (path_call f x k).
      - change ("F." ++ f)%string with ("F" ++ ("." ++ f))%string. rewrite !append_assoc_s.
        unfold lx_closed. rewrite lex_run_app.
        change (lex_run LxStart "F") with (Some (LxName "F", @nil Tok)). cbv iota. rewrite pre_nil.
        change ("." ++ f ++ "(")%string with (String "." (f ++ "("))%string.
        rewrite (name_then "F" "." (f ++ "(")) by reflexivity.
        change (String "." (f ++ "(")) with ("." ++ f ++ "(")%string.
        pose proof (dot_ident_call f Pf) as D. unfold lx_closed in D. rewrite D. reflexivity. }
    split; [ now apply lx_closed_ended | exact C ].
  - intros e n He H. cbn [plain_col] in H.
    apply andb_prop in H as [H Pn]. apply andb_prop in H as [Re Pe].
    assert (C : lx_closed (render_col (CAliased e n)) (col_toks (CAliased e n))).
    { cbn [render_col col_toks]. apply lx_closed_app; [ apply He; [ exact Pe | now apply receiver_column ] | ].
      change (n ++ "')")%string with (n ++ String squote (String ")" ""))%string.
      apply (quoted_name_closed ".alias('" [op "."; TkName "alias"; op "("] n ")" "" [op ")"]);
        [ vm_compute; reflexivity | exact Pn | apply ender_paren | lit ]. }
    split; [ now apply lx_closed_ended | exact C ].
  - intros o l r Hl Hr H. pose proof (binary_lexes o l r Hl Hr H) as E. split; [ exact E | ].
    change (render_pexpr (PCol (CBinaryOp o l r))) with ("(" ++ (render_col (CBinaryOp o l r) ++ ")"))%string.
    change (pexpr_toks (PCol (CBinaryOp o l r))) with ([op "("] ++ (col_toks (CBinaryOp o l r) ++ [op ")"])).
    apply lx_closed_app; [ lit | ]. apply lx_ended_app; [ exact E | apply ender_paren | lit ].
  - intros r Hr H. cbn [plain_col] in H. apply andb_prop in H as [Cr Pr].
    assert (C : lx_closed (render_col (CUnaryNot r)) (col_toks (CUnaryNot r))).
    { cbn [render_col col_toks]. apply (lx_closed_app "~" [op "~"]); [ lit | now apply Hr ]. }
    split; [ now apply lx_closed_ended | exact C ].
  - intros c Hc H. destruct (Hc H) as [_ C]. split; [ now apply lx_closed_ended | auto ].
  - intros c H. split; [ | discriminate ]. now apply code_ended.
Qed.
Lemma pexprs_lex : forall e, pexpr_lexes e.
Proof.
  intros [c|s] H; [ | split; [ now apply code_ended | discriminate ] ].
  destruct (columns_lex c H) as [_ C]. split; [ now apply lx_closed_ended | auto ].
Qed.
