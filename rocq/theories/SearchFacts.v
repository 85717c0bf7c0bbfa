(** Facts: the column generated for a search condition. *)
From Verif Require Import Str SplAst PyAst Functions Transpile Commands ParserFacts PipeFacts SpecPy SpecCol SpecSpark SpecRows SpecCommands FrameFacts RowFacts ValueFacts.
Open Scope list_scope.

(** ** Looking for a word in the raw event *)
Lemma like_percent : forall p s, like (String "%" p) s = true <-> exists a b, s = (a ++ b)%string /\ like p b = true.
Proof.
  intros p. induction s as [|c s IH].
  - cbn. rewrite orb_false_r. split.
    + intro H. now exists ""%string, ""%string.
    + intros (a & b & E & H). destruct a; [ | discriminate ]. cbn in E. now subst b.
  - change (like (String "%" p) (String c s)) with (like p (String c s) || like (String "%" p) s).
    rewrite orb_true_iff, IH. split.
    + intros [H|(a & b & -> & H)]; [ now exists ""%string, (String c s) | now exists (String c a), b ].
    + intros (a & b & E & H). destruct a as [|d a]; [ left; cbn in E; now subst b | ].
      right. injection E as -> ->. now exists a, b.
Qed.
Definition not_special (c : ascii) : bool := negb (Ascii.eqb c "%" || Ascii.eqb c "_" || Ascii.eqb c "\").
Lemma like_literal : forall w p s, sforall not_special w = true ->
  like (w ++ p) s = match strip_prefix w s with Some r => like p r | None => false end.
Proof.
  induction w as [|c w IH]; intros p s H; [ now destruct s | ].
  cbn [sforall] in H. apply andb_true_iff in H. destruct H as [Hc H]. unfold not_special in Hc. apply negb_true_iff in Hc.
  apply orb_false_iff in Hc. destruct Hc as [Hc H3]. apply orb_false_iff in Hc. destruct Hc as [H1 H2].
  cbn [append like strip_prefix]. rewrite H1, H2, H3. destruct s as [|d s]; [ reflexivity | ].
  destruct (Ascii.eqb c d); cbn [andb]; [ now apply IH | reflexivity ].
Qed.
Lemma like_end : forall s, like "%" s = true.
Proof. intro s. apply like_percent. exists s, ""%string. split; [ | reflexivity ]. now rewrite append_nil_r. Qed.
Lemma contains_split : forall w s, contains w s = true <-> exists a b r, s = (a ++ b)%string /\ strip_prefix w b = Some r.
Proof.
  intros w. induction s as [|c s IH]; cbn [contains]; unfold starts_with.
  - rewrite orb_false_r. split.
    + destruct (strip_prefix w "") eqn:E; [ | discriminate ]. intro H. now exists ""%string, ""%string, s.
    + intros (a & b & r & E & H). destruct a; [ | discriminate ]. cbn in E. subst b. now rewrite H.
  - rewrite orb_true_iff. unfold starts_with in IH. rewrite IH. split.
    + intros [H|(a & b & r & -> & H)].
      * destruct (strip_prefix w (String c s)) as [r|] eqn:E; [ | discriminate ]. now exists ""%string, (String c s), r.
      * now exists (String c a), b, r.
    + intros (a & b & r & E & H). destruct a as [|d a].
      * left. cbn in E. subst b. now rewrite H.
      * right. injection E as -> ->. now exists a, b, r.
Qed.
Lemma like_contains : forall w s, sforall not_special w = true -> like ("%" ++ w ++ "%") s = contains w s.
Proof.
  intros w s H. apply Bool.eq_iff_eq_true. change ("%" ++ w ++ "%")%string with (String "%" (w ++ "%")).
  rewrite like_percent, contains_split. split.
  - intros (a & b & E & L). rewrite like_literal in L by exact H. destruct (strip_prefix w b) as [r|] eqn:S; [ | discriminate ].
    now exists a, b, r.
  - intros (a & b & r & E & S). exists a, b. split; [ exact E | ]. rewrite like_literal by exact H. rewrite S. apply like_end.
Qed.
Lemma lower_special : forall c, not_special c = true -> not_special (lower_c c) = true.
Proof. intros [[] [] [] [] [] [] [] []]; vm_compute; auto. Qed.
Lemma lower_not_special : forall w, sforall not_special w = true -> sforall not_special (lower w) = true.
Proof.
  unfold lower. induction w as [|c w IH]; [ reflexivity | ]. cbn [sforall smap]. rewrite !andb_true_iff.
  intros [H1 H2]. split; [ now apply lower_special | now apply IH ].
Qed.
Lemma lower_app : forall a b, lower (a ++ b) = (lower a ++ lower b)%string.
Proof. unfold lower. induction a as [|c a IH]; intro b; [ reflexivity | ]. cbn. now rewrite IH. Qed.

Definition raw_value (row : Row) (w : string) : Val :=
  match cell "_raw" row with SNull => SNull | v => SBool (contains (lower w) (lower (val_text v))) end.
Lemma sem_raw : forall w, plain_pattern w = true -> sem_col (raw_ilike w) (fun _ row => Some (raw_value row w)).
Proof.
  intros w P. destruct (pattern_chars w P) as [P1 P2].
  assert (B : plain_between dquote ("%" ++ w ++ "%") = true).
  { unfold plain_between in *. cbn [append sforall].
    replace (sforall _ (w ++ "%")) with true; [ reflexivity | ]. symmetry.
    clear P P2. induction w as [|c w IH]; [ reflexivity | ]. cbn [append sforall] in *.
    apply andb_true_iff in P1. destruct P1 as [-> P1]. now apply IH. }
  split; [ exact I | split ].
  - cbn [raw_ilike c_method plain_col plain_pexpr pe_unaliased pe_unaliased_with_name cl_unaliased_with_name pcol fst receiver forallb pylit_str].
    now rewrite quoted_plain.
  - intros sp row v E. cbn [raw_ilike c_method col_tree pexpr_tree pe_unaliased pe_unaliased_with_name cl_unaliased_with_name pcol fst map pylit_str].
    rewrite quoted_between by exact B. rewrite <- E. unfold raw_value.
    rewrite (cv_ilike sp row _ _ (cell "_raw" row)); [ | exact I | reflexivity ].
    rewrite !lower_app. change (lower "%") with "%"%string. rewrite like_contains by (now apply lower_not_special).
    destruct (cell "_raw" row); try reflexivity; rewrite like_contains by (now apply lower_not_special); reflexivity.
Qed.

(** ** Three-valued search conditions *)
Fixpoint search3 (sp : Spark) (row : Row) (e : Expr) : option bool :=
  match e with
  | EBinary l op r =>
      if String.eqb op "AND" then k_and (search3 sp row l) (search3 sp row r)
      else if String.eqb op "OR" then k_or (search3 sp row l) (search3 sp row r)
      else match l, r with
           | ELeaf (LConstant (KField f)), ELeaf (LConstant k) =>
               if is_null (cell f row) then None else search_compare sp op (cell f row) k
           | _, _ => None
           end
  | EUnary _ r => k_not (search3 sp row r)
  | EFieldIn f l => if is_null (cell f row) then None else Some (existsb (in_item sp (cell f row)) l)
  | ELeaf (LConstant (KField w)) | ELeaf (LConstant (KStr w)) =>
      if is_null (cell "_raw" row) then None else Some (raw_contains row w)
  | ELeaf (LConstant (KInt z)) => if is_null (cell "_raw" row) then None else Some (raw_contains row (dec z))
  | _ => None
  end.
Definition m3 (e : Expr) : Meaning := fun sp row => Some (of_truth (search3 sp row e)).

(** Columns the search rewriting leaves alone *)
Definition fixed (c : ColumnLike) : Prop := flat c /\ search_core c = c.
Lemma fixed_pexpr : forall c, fixed c -> search_pexpr (PCol c) = PCol c.
Proof. intros c [F E]. cbn [search_pexpr]. now rewrite flat_unaliased, E. Qed.
Lemma fixed_not : forall c, fixed c -> fixed (CUnaryNot (PCol c)).
Proof.
  intros c F. split; [ exact I | ].
  change (search_core (CUnaryNot (PCol c))) with (CUnaryNot (search_pexpr (PCol c))). now rewrite (fixed_pexpr c F).
Qed.
Lemma core_logic : forall op a b, String.eqb op "&" || String.eqb op "|" = true ->
  search_core (CBinaryOp op a b) = c_binary (search_pexpr a) op (search_pexpr b).
Proof. intros op a b H. cbn [search_core]. now rewrite H. Qed.
Lemma fixed_or : forall a b, fixed a -> fixed b -> fixed (CBinaryOp "|" (PCol a) (PCol b)).
Proof.
  intros a b Fa Fb. split; [ exact I | ]. rewrite core_logic by reflexivity. rewrite (fixed_pexpr a Fa), (fixed_pexpr b Fb).
  unfold c_binary. rewrite !flat_pe; [ reflexivity | apply Fb | apply Fa ].
Qed.
Lemma fixed_bin : forall op a b, String.eqb op "&" || String.eqb op "|" = false -> fixed (CBinaryOp op a b).
Proof. intros op a b H. split; [ exact I | ]. cbn [search_core]. now rewrite H. Qed.
Lemma in_item_fixed : forall f k c, field_in_check f k = Ok c -> fixed c.
Proof.
  intros f k c H. unfold field_in_check in H. destruct k as [l|?|?|?|?|?|?|?|?|?]; try discriminate H.
  destruct l as [k|?|?|?]; try discriminate H.
  destruct k; try discriminate H; injection H as <-; first [ apply fixed_bin; reflexivity | split; [ exact I | reflexivity ] ].
Qed.
Lemma in_fold_fixed : forall f l cs acc, rtraverse (field_in_check f) l = Ok cs -> fixed acc ->
  fixed (fold_left (fun acc x => CBinaryOp "|" (PCol acc) (PCol x)) cs acc).
Proof.
  intros f l. induction l as [|k l IH]; intros cs acc H F.
  - injection H as <-. exact F.
  - rewrite rtraverse_cons in H. destruct (field_in_check f k) as [c| | ] eqn:E; try discriminate H. cbn [rbind] in H.
    destruct (rtraverse (field_in_check f) l) as [ds| | ] eqn:Es; try discriminate H. cbn [rbind] in H. injection H as <-.
    cbn [fold_left]. apply IH; [ reflexivity | ]. apply fixed_or; [ exact F | ]. now apply in_item_fixed in E.
Qed.
Lemma in_fixed : forall f l x, l <> [] -> field_in_to_spark f l = Ok x -> exists c, x = PCol c /\ fixed c.
Proof.
  intros f [|k l] x N H; [ congruence | ]. unfold field_in_to_spark in H. rewrite rtraverse_cons in H.
  destruct (field_in_check f k) as [c| | ] eqn:E; try discriminate H. cbn [rbind] in H.
  destruct (rtraverse (field_in_check f) l) as [ds| | ] eqn:Es; try discriminate H. cbn [rbind join_as_binaries] in H.
  injection H as <-. eexists. split; [ reflexivity | ]. eapply in_fold_fixed; [ exact Es | ]. now apply in_item_fixed in E.
Qed.

Definition searched (rt : Rt) (e : Expr) : Prop :=
  exists c, to_spark_expr rt e = Ok (PCol c) /\ flat c /\ sem_col (search_core c) (m3 e).
(** From the meaning of the whole expression *)
Lemma searched_ev : forall rt e c, plain_expr false e = true -> to_spark_expr rt e = Ok (PCol c) -> fixed c ->
  (forall sp row v, m3 e sp row = Some v -> ev sp row e = Some v) -> searched rt e.
Proof.
  intros rt e c P E [F K] M. destruct (expr_ok rt false ltac:(discriminate) e P) as (x & Ex & d & U & S).
  rewrite E in Ex. injection Ex as <-. rewrite (flat_pe c F) in U. injection U as <-.
  exists c. split; [ exact E | split; [ exact F | ] ]. rewrite K. eapply sem_col_ext; [ exact S | exact M ].
Qed.
Lemma cmp_not_logic : forall op, str_in op spl_comparisons = true ->
  String.eqb op "AND" = false /\ String.eqb op "OR" = false /\
  String.eqb (simple_op op) "&" || String.eqb (simple_op op) "|" = false.
Proof.
  intros op H. cbn [str_in existsb spl_comparisons] in H.
  repeat (apply orb_true_iff in H; destruct H as [H|H]); try discriminate H; apply String.eqb_eq in H; subst op; auto.
Qed.
Lemma cmp_among : forall op, str_in op spl_comparisons = true ->
  str_in op (["AND"; "OR"]%string ++ spl_comparisons ++ spl_arithmetic) = true.
Proof.
  intros op H. cbn [str_in existsb spl_comparisons spl_arithmetic app] in *.
  repeat (apply orb_true_iff in H; destruct H as [H|H]); try discriminate H; rewrite H; rewrite ?orb_true_r; reflexivity.
Qed.
Lemma apply_cmp : forall sp op a w, str_in op spl_comparisons = true -> w <> SNull ->
  apply_op sp op a w = Some (if is_null a then SNull else SBool (sp_cmp sp (cmp_name op) a w)).
Proof.
  intros sp op a w H N. unfold apply_op. destruct (cmp_not_logic op H) as (-> & -> & _). rewrite H.
  unfold compare, lifted. destruct a, w; try congruence; reflexivity.
Qed.

Lemma searched_cmp : forall rt f op k w, plain_name_text f = true -> str_in op spl_comparisons = true ->
  plain_expr false (ELeaf (LConstant k)) = true -> const_val k = Some w -> w <> SNull ->
  (exists y, leaf_to_spark (LConstant k) = Ok (PCol y)) ->
  searched rt (EBinary (ELeaf (LConstant (KField f))) op (ELeaf (LConstant k))).
Proof.
  intros rt f op k w Pf O Pk K N (y & Y). destruct (cmp_not_logic op O) as (A & B & C).
  apply (searched_ev rt _ (CBinaryOp (simple_op op) (pe_unaliased (pcol f)) (pe_unaliased (PCol y)))).
  - cbn [plain_expr] in *. destruct k; try discriminate K; cbn [plain_expr]; rewrite Pf; try rewrite Pk; rewrite cmp_among by exact O; reflexivity.
  - cbn [to_spark_expr]. rewrite (cidr_none false) by (now left). 
    destruct k; try discriminate K; cbn [leaf_to_spark] in Y; injection Y as <-; reflexivity.
  - apply fixed_bin. exact C.
  - intros sp row v E. unfold m3 in E. cbn [search3] in E. rewrite A, B in E. injection E as <-.
    assert (EV : ev sp row (EBinary (ELeaf (LConstant (KField f))) op (ELeaf (LConstant k)))
       = apply_op sp op (cell f row) w) by (cbn [ev]; destruct k; try discriminate K; cbn [ev]; now rewrite K).
    rewrite EV, apply_cmp by assumption. f_equal. unfold search_compare.
    destruct (is_null (cell f row)) eqn:Nf; [ reflexivity | ]. unfold not_null. rewrite Nf.
    destruct k; try discriminate K; rewrite K, O; reflexivity.
Qed.
Lemma searched_wild : forall rt f op p, plain_name_text f = true -> plain_pattern p = true ->
  str_in op ["="; "=="; "!="]%string = true ->
  searched rt (EBinary (ELeaf (LConstant (KField f))) op (ELeaf (LConstant (KWildcard p)))).
Proof.
  intros rt f op p Pf Pp O.
  assert (G : forall c, to_spark_expr rt (EBinary (ELeaf (LConstant (KField f))) op (ELeaf (LConstant (KWildcard p)))) = Ok (PCol c) ->
     fixed c -> (forall sp row, search_compare sp op (cell f row) (KWildcard p) <> None) ->
     searched rt (EBinary (ELeaf (LConstant (KField f))) op (ELeaf (LConstant (KWildcard p))))).
  { intros c E F H. apply (searched_ev rt _ c); auto.
    - cbn [plain_expr]. now rewrite Pf, Pp, O.
    - intros sp row v Ev. unfold m3 in Ev. injection Ev as <-. cbn [search3 ev]. specialize (H sp row).
      cbn [search_compare] in *. unfold wild_val, not_null.
      cbn [str_in existsb] in O. repeat (apply orb_true_iff in O; destruct O as [O|O]); try discriminate O;
        apply String.eqb_eq in O; subst op; destruct (cell f row); reflexivity. }
  cbn [str_in existsb] in O. repeat (apply orb_true_iff in O; destruct O as [O|O]); try discriminate O;
    apply String.eqb_eq in O; subst op.
  - eapply G; [ reflexivity | split; [ exact I | reflexivity ] | discriminate ].
  - eapply G; [ reflexivity | split; [ exact I | reflexivity ] | discriminate ].
  - eapply G; [ reflexivity | apply fixed_not; split; [ exact I | reflexivity ] | discriminate ].
Qed.
Lemma raw_of_truth : forall row w, of_truth (if is_null (cell "_raw" row) then None else Some (raw_contains row w)) = raw_value row w.
Proof. intros row w. unfold raw_contains, raw_value. destruct (cell "_raw" row); reflexivity. Qed.
Lemma strip_squotes : forall w, w <> ""%string -> plain_name_text w = true -> strip_quotes (sq ++ w ++ sq) = w.
Proof.
  intros w N P. change (sq ++ w ++ sq)%string with (String squote (w ++ one_char squote)). unfold strip_quotes.
  change (Ascii.eqb squote dquote || Ascii.eqb squote squote) with true. cbv iota.
  assert (S : forall w, split_last (w ++ one_char squote) = Some (w, squote)).
  { clear. induction w as [|c w IH]; [ reflexivity | ]. cbn [append split_last]. rewrite IH.
    destruct (w ++ one_char squote)%string eqn:E; [ | reflexivity ]. destruct w; discriminate E. }
  rewrite S. rewrite Ascii.eqb_refl. apply String.eqb_neq in N. rewrite N. cbn [andb negb].
  replace (has_char (ascii_of_nat 10) w) with false; [ reflexivity | ]. symmetry.
  unfold has_char, sexists. apply negb_false_iff. clear - P. unfold plain_name_text, plain_between in P.
  induction w as [|c w IH]; [ reflexivity | ]. cbn [sforall] in *. apply andb_true_iff in P. destruct P as [Pc P].
  rewrite (IH P), andb_true_r. apply negb_true_iff in Pc. apply negb_true_iff.
  destruct (Ascii.eqb (ascii_of_nat 10) c) eqn:E; [ | reflexivity ]. apply Ascii.eqb_eq in E. subst c. discriminate Pc.
Qed.
Lemma dec_pattern : forall z, plain_pattern (dec z) = true /\ strip_quotes (dec z) = dec z.
Proof.
  assert (D : forall s, (forall c, In c (list_ascii_of_string s) -> py_digit c = true \/ c = "."%char \/ c = "-"%char) -> plain_pattern s = true).
  { intros s H. unfold plain_pattern, plain_between. induction s as [|c s IH]; [ reflexivity | ].
    cbn [sforall list_ascii_of_string] in *. assert (Hc := H c (or_introl eq_refl)).
    assert (IH' := IH (fun d h => H d (or_intror h))). apply andb_true_iff in IH'. destruct IH' as [I1 I2].
    rewrite I1, I2, !andb_true_r. clear - Hc.
    destruct Hc as [Hc|[Hc|Hc]]; [ | subst c; reflexivity | subst c; reflexivity ].
    destruct c as [[] [] [] [] [] [] [] []]; try discriminate Hc; reflexivity. }
  assert (N : forall s, is_number s = true -> forall c, In c (list_ascii_of_string s) -> py_digit c = true \/ c = "."%char \/ c = "-"%char).
  { intros s H. assert (K : forall s b, is_decimals b s = true -> forall c, In c (list_ascii_of_string s) -> py_digit c = true \/ c = "."%char \/ c = "-"%char).
    { clear. induction s as [|d s IH]; intros b H c; cbn [list_ascii_of_string]; [ intros [] | ]. cbn [is_decimals] in H.
      destruct (py_digit d) eqn:Ed.
      - intros [<-|Hc]; [ now left | now apply (IH b) ].
      - destruct (Ascii.eqb d ".") eqn:Ep; [ | discriminate ]. apply andb_true_iff in H. destruct H as [_ H].
        intros [<-|Hc]; [ right; left; now apply Ascii.eqb_eq | now apply (IH true) ]. }
    destruct s as [|d s]; [ discriminate | ]. cbn [is_number] in H. apply andb_prop in H as [H _]. apply andb_prop in H as [H1 H2].
    cbn [list_ascii_of_string]. intros c [<-|Hc]; [ now left | now apply (K s false) ]. }
  intro z. destruct (dec_cases z) as [H|(s & E & H)].
  - split; [ apply D, N, H | ]. destruct (dec z) as [|c s]; [ reflexivity | ]. unfold strip_quotes.
    cbn [is_number] in H. apply andb_prop in H as [H _]. apply andb_prop in H as [H1 _].
    destruct c as [[] [] [] [] [] [] [] []]; try discriminate H1; reflexivity.
  - rewrite E. split; [ | reflexivity ]. apply D. intros c [<-|Hc]; [ auto | now apply (N s) ].
Qed.

Lemma search_ok : forall rt e, plain_search e = true -> searched rt e.
Proof.
  intros rt e. induction e as [l o r IHl IHr|o r IH|n args F|e n IH|e He] using expr_induct; intro P; try discriminate P.
  - cbn [plain_search] in P. destruct (String.eqb o "AND" || String.eqb o "OR") eqn:O.
    + apply andb_true_iff in P. destruct P as [Pl Pr].
      destruct (IHl Pl) as (a & Ea & Fa & Sa). destruct (IHr Pr) as (b & Eb & Fb & Sb).
      assert (K : exists op, simple_op o = op /\ String.eqb op "&" || String.eqb op "|" = true /\ str_in op binary_ops = true /\
        forall sp x y, bin_val sp op (of_truth x) (of_truth y) = Some (of_truth (if String.eqb o "AND" then k_and x y else k_or x y))).
      { apply orb_true_iff in O. destruct O as [O|O]; apply String.eqb_eq in O; subst o.
        - exists "&"%string. repeat split. now intros sp [[]|] [[]|].
        - exists "|"%string. repeat split. now intros sp [[]|] [[]|]. }
      destruct K as (op & S & L & B & V).
      exists (CBinaryOp op (PCol a) (PCol b)). split; [ | split; [ exact I | ] ].
      * cbn [to_spark_expr]. rewrite S, Ea, Eb. cbn [rbind].
        assert (C : cidr_case l op r = None).
        { unfold cidr_case. destruct l as [[[]|?|?|?]|?|?|?|?|?|?|?|?|?]; try reflexivity.
          destruct r as [[[]|?|?|?]|?|?|?|?|?|?|?|?|?]; try reflexivity; try discriminate Pr. }
        rewrite C. unfold pbin, c_binary. rewrite (flat_pe a Fa), (flat_pe b Fb).
        destruct r as [[[]|?|?|?]|?|?|?|?|?|?|?|?|?]; try reflexivity; discriminate Pr.
      * rewrite core_logic by exact L. cbn [search_pexpr]. rewrite (flat_unaliased a Fa), (flat_unaliased b Fb).
        cbn [snd cl_maybe_with_alias]. unfold c_binary. rewrite !flat_pe by (apply Sa || apply Sb).
        destruct Sa as (F1 & P1 & M1), Sb as (F2 & P2 & M2). split; [ exact I | split ].
        -- cbn [plain_col plain_pexpr]. now rewrite B, P1, P2.
        -- intros sp row v E. cbn [col_tree pexpr_tree].
           rewrite (cv_bin sp row _ _ _ _ _ (M1 sp row _ eq_refl) (M2 sp row _ eq_refl)). rewrite V, <- E. unfold m3. cbn [search3].
           apply orb_true_iff in O. destruct (String.eqb o "AND"); [ reflexivity | ].
           destruct O as [O|O]; [ discriminate | ]. now rewrite O.
    + destruct l as [[k|?|?|?]|?|?|?|?|?|?|?|?|?]; try discriminate P. destruct k; try discriminate P.
      apply andb_true_iff in P. destruct P as [P Pr]. apply andb_true_iff in P. destruct P as [_ Pf].
      destruct r as [[k|?|?|?]|?|?|?|?|?|?|?|?|?]; try discriminate Pr. destruct k as [ |b|z|t|w|?|?|w|w|?|w]; try discriminate Pr.
      * apply (searched_cmp rt s o (KInt z) (SInt z)); auto; [ discriminate | ]. eexists. reflexivity.
      * apply andb_true_iff in Pr. destruct Pr as [Pt Po]. destruct (number_code t Pt) as (P1 & v & L & N).
        apply (searched_cmp rt s o (KDouble t) v); auto. eexists. reflexivity.
      * apply andb_true_iff in Pr. destruct Pr as [Pt Po].
        apply (searched_cmp rt s o (KStr w) (SStr w)); auto; [ discriminate | ]. eexists. reflexivity.
      * apply andb_true_iff in Pr. destruct Pr as [Pt Po]. now apply searched_wild.
  - cbn [plain_search] in P. apply andb_true_iff in P. destruct P as [O P]. apply String.eqb_eq in O. subst o.
    destruct (IH P) as (a & Ea & Fa & Sa). exists (CUnaryNot (PCol a)). split; [ | split; [ exact I | ] ].
    + cbn [to_spark_expr]. change (String.eqb "NOT" "NOT") with true. cbv iota. rewrite Ea. cbn [rbind]. unfold pnot, c_not. now rewrite (flat_pe a Fa).
    + change (search_core (CUnaryNot (PCol a))) with (CUnaryNot (search_pexpr (PCol a))).
      cbn [search_pexpr]. rewrite (flat_unaliased a Fa). cbn [snd cl_maybe_with_alias].
      destruct Sa as (F1 & P1 & M1). split; [ exact I | split; [ exact P1 | ] ].
      intros sp row v E. cbn [col_tree pexpr_tree]. rewrite (cv_not sp row _ _ (M1 sp row _ eq_refl)).
      rewrite <- E. unfold negate, m3. cbn [search3]. now destruct (search3 sp row r) as [[]|].
  - destruct e as [l|?|?|?|?|f l|?|?|?|?]; try contradiction; try discriminate P.
    + cbn [plain_search] in P. destruct l as [k|?|?|?]; try discriminate P.
      destruct k as [ |b|z|t|w|?|?|w|w|?|w]; try discriminate P; unfold searched; cbn [to_spark_expr leaf_to_spark].
      * eexists. split; [ reflexivity | split; [ exact I | ] ]. cbn [search_core].
        destruct (dec_pattern z) as [D S]. rewrite S. eapply sem_col_ext; [ apply (sem_raw _ D) | ].
        intros sp row v E. unfold m3 in E. cbn [search3] in E. now rewrite raw_of_truth in E.
      * eexists. split; [ reflexivity | split; [ exact I | ] ]. cbn [search_core].
        assert (Pw : w <> ""%string /\ plain_pattern w = true /\ plain_name_text w = true)
          by (destruct w; [ discriminate P | ]; apply andb_true_iff in P; now repeat split).
        destruct Pw as (N & P1 & P2). rewrite (strip_squotes w N P2). eapply sem_col_ext; [ apply (sem_raw _ P1) | ].
        intros sp row v E. unfold m3 in E. cbn [search3] in E. now rewrite raw_of_truth in E.
      * eexists. split; [ reflexivity | split; [ exact I | ] ]. cbn [search_core].
        assert (Pw : w <> ""%string /\ plain_pattern w = true /\ plain_name_text w = true)
          by (try (apply andb_true_iff in P; destruct P as [P _]); destruct w; [ discriminate P | ]; apply andb_true_iff in P; now repeat split).
        destruct Pw as (N & P1 & P2). eapply sem_col_ext; [ apply (sem_raw _ P1) | ].
        intros sp row v E. unfold m3 in E. cbn [search3] in E. now rewrite raw_of_truth in E.
    + cbn [plain_search] in P. pose proof P as P'. apply andb_true_iff in P. destruct P as [Pf Pl].
      assert (Nl : l <> []) by (destruct l; [ discriminate | congruence ]).
      destruct (sem_in f l Pf Nl) as (x & E & S); [ destruct l; [ discriminate | exact Pl ] | ].
      destruct (in_fixed f l x Nl E) as (c & -> & Fc).
      apply (searched_ev rt _ c); auto. intros sp row v Ev. cbn [ev]. unfold m3 in Ev. cbn [search3] in Ev. rewrite <- Ev.
      f_equal. unfold membership. destruct (cell f row); reflexivity.
Qed.

(** ** Three-valued against two-valued conditions *)
Lemma compare_some : forall sp op v k, str_in op spl_comparisons = true \/ (exists p, k = KWildcard p /\ str_in op ["="; "=="; "!="]%string = true) ->
  (exists w, const_val k = Some w) \/ (exists p, k = KWildcard p) ->
  (forall p, k = KWildcard p -> str_in op ["="; "=="; "!="]%string = true) ->
  exists b, search_compare sp op v k = Some b /\ (v = SNull -> b = false).
Proof.
  intros sp op v k O K W. destruct K as [[w K]|[p ->]].
  - assert (O' : str_in op spl_comparisons = true) by (destruct O as [O|(p & -> & O)]; [ exact O | discriminate K ]).
    destruct k; try discriminate K; unfold search_compare; rewrite K, O'; eexists; (split; [ reflexivity | intros -> ]); reflexivity.
  - pose proof (W p eq_refl) as O'. cbn [str_in existsb] in O'.
    repeat (apply orb_true_iff in O'; destruct O' as [O'|O']); try discriminate O'; apply String.eqb_eq in O'; subst op;
      eexists; (split; [ reflexivity | intros -> ]); reflexivity.
Qed.
Lemma plain_compare : forall sp l op r row, String.eqb op "AND" || String.eqb op "OR" = false -> plain_search (EBinary l op r) = true ->
  exists f k b, l = ELeaf (LConstant (KField f)) /\ r = ELeaf (LConstant k) /\
    search_compare sp op (cell f row) k = Some b /\ (cell f row = SNull -> b = false).
Proof.
  intros sp l op r row O P. cbn [plain_search] in P. rewrite O in P.
  destruct l as [[k|?|?|?]|?|?|?|?|?|?|?|?|?]; try discriminate P. destruct k; try discriminate P.
  apply andb_true_iff in P. destruct P as [_ P].
  destruct r as [[k|?|?|?]|?|?|?|?|?|?|?|?|?]; try discriminate P.
  assert (G : exists b, search_compare sp op (cell s row) k = Some b /\ (cell s row = SNull -> b = false)).
  { destruct k as [ |b|z|t|w|?|?|w|w|?|w]; try discriminate P.
    - apply compare_some; [ now left | left; eexists; reflexivity | discriminate ].
    - apply andb_true_iff in P. destruct P as [Pt Po]. destruct (number_code t Pt) as (_ & v & L & _).
      apply compare_some; [ now left | left; exists v; exact L | discriminate ].
    - apply andb_true_iff in P. destruct P as [Pt Po].
      apply compare_some; [ now left | left; eexists; reflexivity | discriminate ].
    - apply andb_true_iff in P. destruct P as [Pt Po].
      apply compare_some; [ right; eexists; split; [ reflexivity | exact Po ] | right; eexists; reflexivity | intros p _; exact Po ]. }
  destruct G as (b & G & N). exists s, k, b. auto.
Qed.
Lemma logic_op : forall op, String.eqb op "AND" || String.eqb op "OR" = true -> op = "AND"%string \/ op = "OR"%string.
Proof. intros op H. apply orb_true_iff in H. destruct H as [H|H]; apply String.eqb_eq in H; auto. Qed.
Lemma not_logic_op : forall op, String.eqb op "AND" || String.eqb op "OR" = false -> String.eqb op "AND" = false /\ String.eqb op "OR" = false.
Proof. intros op H. now apply orb_false_iff in H. Qed.

Lemma search_total : forall sp row e, plain_search e = true -> exists b, search_holds sp row e = Some b.
Proof.
  intros sp row e. induction e as [l o r IHl IHr|o r IH|n args F|e n IH|e He] using expr_induct; intro P; try discriminate P.
  - destruct (String.eqb o "AND" || String.eqb o "OR") eqn:O.
    + cbn [plain_search] in P. rewrite O in P. apply andb_true_iff in P. destruct P as [Pl Pr].
      destruct (IHl Pl) as [a Ea], (IHr Pr) as [b Eb].
      destruct (logic_op o O) as [-> | ->]; cbn [search_holds]; rewrite Ea, Eb; eexists; reflexivity.
    + destruct (plain_compare sp l o r row O P) as (f & k & b & -> & -> & E & _). exists b.
      destruct (not_logic_op o O) as [A B]. cbn [search_holds]. now rewrite A, B.
  - cbn [plain_search] in P. apply andb_true_iff in P. destruct P as [O P]. cbn [search_holds]. rewrite O.
    destruct (IH P) as [b ->]. eexists; reflexivity.
  - destruct e as [[[]|?|?|?]|?|?|?|?|f l|?|?|?|?]; try contradiction; try discriminate P; eexists; reflexivity.
Qed.
Lemma not_null_cell : forall v, v <> SNull -> is_null v = false.
Proof. intros [] H; [ congruence | reflexivity.. ]. Qed.
Lemma search_present : forall sp row e, plain_search e = true -> (forall f, In f (search_fields e) -> cell f row <> SNull) ->
  search3 sp row e = search_holds sp row e.
Proof.
  intros sp row e. induction e as [l o r IHl IHr|o r IH|n args F|e n IH|e He] using expr_induct; intros P N; try discriminate P.
  - destruct (String.eqb o "AND" || String.eqb o "OR") eqn:O.
    + cbn [plain_search search_fields] in P, N. rewrite O in P, N. apply andb_true_iff in P. destruct P as [Pl Pr].
      specialize (IHl Pl (fun f h => N f (in_or_app _ _ _ (or_introl h)))). specialize (IHr Pr (fun f h => N f (in_or_app _ _ _ (or_intror h)))).
      destruct (search_total sp row l Pl) as [a Ea], (search_total sp row r Pr) as [b Eb].
      destruct (logic_op o O) as [-> | ->]; cbn [search3 search_holds]; rewrite IHl, IHr, Ea, Eb; destruct a, b; reflexivity.
    + destruct (plain_compare sp l o r row O P) as (f & k & b & -> & -> & E & _).
      destruct (not_logic_op o O) as [A B]. cbn [search3 search_holds]. rewrite A, B.
      cbn [search_fields] in N. rewrite O in N. rewrite not_null_cell; [ reflexivity | ]. apply N. now left.
  - cbn [plain_search] in P. apply andb_true_iff in P. destruct P as [O P]. cbn [search_holds search3]. rewrite O.
    now rewrite (IH P N).
  - destruct e as [[[]|?|?|?]|?|?|?|?|f l|?|?|?|?]; try contradiction; try discriminate P; cbn [search3 search_holds search_fields] in *.
    1-3: rewrite not_null_cell; [ reflexivity | apply N; now left ].
    unfold not_null. rewrite not_null_cell; [ reflexivity | apply N; now left ].
Qed.
Lemma search_agrees : forall sp row e, plain_search e = true -> (forall f, In f (negated_fields e) -> cell f row <> SNull) ->
  exists b, search_holds sp row e = Some b /\ (search3 sp row e = Some true <-> b = true).
Proof.
  intros sp row e. induction e as [l o r IHl IHr|o r IH|n args F|e n IH|e He] using expr_induct; intros P N; try discriminate P.
  - destruct (String.eqb o "AND" || String.eqb o "OR") eqn:O.
    + cbn [plain_search negated_fields] in P, N. rewrite O in P, N. apply andb_true_iff in P. destruct P as [Pl Pr].
      destruct (IHl Pl (fun f h => N f (in_or_app _ _ _ (or_introl h)))) as (a & Ea & Ha).
      destruct (IHr Pr (fun f h => N f (in_or_app _ _ _ (or_intror h)))) as (b & Eb & Hb).
      destruct (logic_op o O) as [-> | ->]; cbn [search3 search_holds]; rewrite Ea, Eb; eexists; (split; [ reflexivity | ]);
        cbn [String.eqb Ascii.eqb Bool.eqb]; cbv iota;
        destruct (search3 sp row l) as [[]|], (search3 sp row r) as [[]|], a, b; cbn [k_and k_or andb orb]; try tauto;
        exfalso; try (destruct Ha as [Ha1 Ha2]; try discriminate (Ha1 eq_refl); try discriminate (Ha2 eq_refl));
        destruct Hb as [Hb1 Hb2]; try discriminate (Hb1 eq_refl); try discriminate (Hb2 eq_refl).
    + destruct (plain_compare sp l o r row O P) as (f & k & b & -> & -> & E & Nb).
      destruct (not_logic_op o O) as [A B]. cbn [search3 search_holds]. rewrite A, B. exists b. split; [ exact E | ].
      destruct (is_null (cell f row)) eqn:Z.
      * destruct (cell f row); try discriminate Z. rewrite (Nb eq_refl). split; discriminate.
      * rewrite E. split; [ congruence | now intros -> ].
  - cbn [plain_search negated_fields] in P, N. apply andb_true_iff in P. destruct P as [O P].
    destruct (search_total sp row r P) as [b Eb]. exists (negb b). cbn [search_holds search3]. rewrite O, Eb. split; [ reflexivity | ].
    rewrite (search_present sp row r P N), Eb. cbn [k_not option_map]. split; [ congruence | now intros -> ].
  - assert (G : forall (v : Val) b, exists b', Some (not_null v && b) = Some b' /\ ((if is_null v then None else Some b) = Some true <-> b' = true)).
    { intros v b. eexists. split; [ reflexivity | ]. unfold not_null. destruct (is_null v); cbn [negb andb]; [ split; discriminate | ].
      split; [ congruence | now intros -> ]. }
    assert (R : forall w, raw_contains row w = not_null (cell "_raw" row) && raw_contains row w)
      by (intro w; unfold raw_contains; now destruct (cell "_raw" row)).
    destruct e as [[[]|?|?|?]|?|?|?|?|f l|?|?|?|?]; try contradiction; try discriminate P; cbn [search3 search_holds].
    + destruct (G (cell "_raw" row) (raw_contains row (dec z))) as (b' & G1 & G2). rewrite <- R in G1. now exists b'.
    + destruct (G (cell "_raw" row) (raw_contains row s)) as (b' & G1 & G2). rewrite <- R in G1. now exists b'.
    + destruct (G (cell "_raw" row) (raw_contains row s)) as (b' & G1 & G2). rewrite <- R in G1. now exists b'.
    + apply G.
Qed.

(** A covered condition selects no index and is translated into one filter *)
Lemma split_plain : forall e a ind, plain_search e = true -> split_conditions e a ind = Ok (ind, Some e).
Proof.
  assert (I : forall x, plain_search x = true -> is_index x = false).
  { intros x H. destruct x as [[[]|?|?|?]|?|?|?|?|?|?|?|?|?]; try reflexivity. cbn [plain_search is_index] in *.
    apply andb_true_iff in H. now apply negb_true_iff. }
  intros e. induction e as [l o r IHl IHr|o r IH|n args F|e n IH|e He] using expr_induct; intros a ind P; try discriminate P.
  - cbn [split_conditions]. destruct (String.eqb o "AND" || String.eqb o "OR") eqn:O.
    + cbn [plain_search] in P. rewrite O in P. apply andb_true_iff in P. destruct P as [Pl Pr].
      rewrite (I l Pl), (I r Pr). cbn [xorb andb orb]. rewrite (IHl _ _ Pl). cbn [rbind]. rewrite (IHr _ _ Pr). reflexivity.
    + cbn [plain_search] in P. rewrite O in P. destruct l as [[k|?|?|?]|?|?|?|?|?|?|?|?|?]; try discriminate P. destruct k; try discriminate P.
      apply andb_true_iff in P. destruct P as [P Pr]. apply andb_true_iff in P. destruct P as [Pi _]. apply negb_true_iff in Pi.
      assert (Ir : is_index r = false) by (destruct r as [[[]|?|?|?]|?|?|?|?|?|?|?|?|?]; try reflexivity; discriminate Pr).
      assert (Sr : forall a i, split_conditions r a i = Ok (i, Some r)) by (intros; destruct r; try discriminate Pr; reflexivity).
      cbn [is_index]. rewrite Pi, Ir. cbn [xorb andb orb split_conditions rbind]. rewrite Sr. reflexivity.
  - reflexivity.
  - destruct e; try contradiction; try reflexivity.
Qed.
Lemma search_expr_flat : forall c, flat c -> flat (search_core c) ->
  pe_unaliased (into_search_expr (PCol c)) = PCol (search_core c).
Proof.
  intros c F G. unfold into_search_expr. cbn [pe_unaliased_with_name]. rewrite (flat_unaliased c F).
  cbn [search_pexpr pe_maybe_with_alias]. rewrite (flat_unaliased c F). cbn [snd cl_maybe_with_alias]. now apply flat_pe.
Qed.
