(** Facts: capture groups; the patterns of memk and rmunit; rex, regex and convert on rows. *)
From Coq Require Import String Ascii List ZArith Bool Lia Decimal DecimalString.
Import ListNotations.
From Verif Require Import Str SplAst PyAst Functions Transpile Commands CmdParser Api PipeFacts SpecPy SpecCol SpecSpark SpecRows FrameFacts RowFacts ValueFacts
  SpecCommands CommandFacts RunFacts SpecResult ResultFacts SpecEffect EffectFacts SpecTime TimeFacts TimeRows Regex SpecRegex.
Open Scope list_scope.

(** ** Groups *)
Section ReInd.
  Variable P : ReAst -> Prop.
  Hypothesis HO : P ReOther.
  Hypothesis HC : forall k, P (ReClass k).
  Hypothesis HR : forall a, P a -> P (ReRepetition a).
  Hypothesis HG : forall k a, P a -> P (ReGroup k a).
  Hypothesis HA : forall l, Forall P l -> P (ReAlternation l).
  Hypothesis HS : forall l, Forall P l -> P (ReConcat l).
  Fixpoint re_induct (a : ReAst) : P a :=
    let all := fix all (l : list ReAst) : Forall P l :=
      match l with [] => Forall_nil _ | x :: l' => Forall_cons _ (re_induct x) (all l') end in
    match a with
    | ReOther => HO
    | ReClass k => HC k
    | ReRepetition b => HR b (re_induct b)
    | ReGroup k b => HG k b (re_induct b)
    | ReAlternation l => HA l (all l)
    | ReConcat l => HS l (all l)
    end.
End ReInd.
(** Classes have no groups *)
Fixpoint class_set_none (k : ClassSet) : forall g, visit_class_set k g = g
with class_item_none (i : ClassItem) : forall g, visit_class_set_item i g = g.
Proof.
  - intro g. destruct k as [i|l r]; cbn [visit_class_set]; [ apply class_item_none | ]. now rewrite (class_set_none l), (class_set_none r).
  - intro g. destruct i as [|k|items]; cbn [visit_class_set_item]; [ reflexivity | apply class_set_none | ].
    revert g. induction items as [|x l IH]; intro g; [ reflexivity | ]. cbn [fold_left]. now rewrite class_item_none, IH.
Qed.
Lemma push_app : forall k g, push_group k g = g ++ push_group k [].
Proof. intros [] g; cbn; rewrite ?app_nil_r; reflexivity. Qed.
Lemma fold_visit : forall l, Forall (fun a => forall g, visit_node a g = g ++ visit_node a []) l ->
  forall g, fold_left (fun g a => visit_node a g) l g = g ++ List.concat (map (fun a => visit_node a []) l).
Proof.
  intros l H. induction H as [|a l Ha _ IH]; intro g; [ now rewrite app_nil_r | ].
  cbn [fold_left map List.concat]. rewrite IH, (Ha g), app_assoc. reflexivity.
Qed.
Lemma visit_app : forall a g, visit_node a g = g ++ visit_node a [].
Proof.
  intro a. induction a as [ |k|a IH|k a IH|l H|l H] using re_induct; intro g; cbn [visit_node].
  - now rewrite app_nil_r.
  - now rewrite !class_set_none, app_nil_r.
  - apply IH.
  - rewrite (IH (push_group k g)), (IH (push_group k [])), (push_app k g). now rewrite app_assoc.
  - now rewrite !(fold_visit l H).
  - now rewrite !(fold_visit l H).
Qed.
Lemma fold_concat : forall l g, fold_left (fun g a => visit_node a g) l g = g ++ List.concat (map (fun a => visit_node a []) l).
Proof. intros l g. apply fold_visit. apply Forall_forall. intros a _ g'. apply visit_app. Qed.
Lemma inside_inv : forall k a b, inside (ReGroup k a) b -> b = ReGroup k a \/ exists c, below c b /\ inside (ReGroup k a) c.
Proof. intros k a b H. inversion H; subst; eauto. Qed.
Lemma groups_are_captures : forall a g, In g (get_groups_from_ast a) <-> has_group a g.
Proof.
  unfold get_groups_from_ast. intro a. induction a as [ |k|a IH|k a IH|l H|l H] using re_induct; intro g; cbn [visit_node].
  - split; [ intros [] | ]. intros (k & b & I & _). apply inside_inv in I. destruct I as [E|(c & B & _)]; [ discriminate E | inversion B ].
  - rewrite class_set_none. split; [ intros [] | ]. intros (k' & b & I & _). apply inside_inv in I. destruct I as [E|(c & B & _)]; [ discriminate E | inversion B ].
  - rewrite IH. split; intros (k & b & I & C); exists k, b; (split; [ | exact C ]).
    + eapply InBelow; [ exact I | constructor ].
    + apply inside_inv in I. destruct I as [E|(c & B & I)]; [ discriminate E | ]. inversion B; subst. exact I.
  - rewrite visit_app, in_app_iff, IH. split.
    + intros [Hk|(k' & b & I & C)].
      * exists k, a. split; [ constructor | ]. destruct k; cbn in Hk |- *; try contradiction; destruct Hk as [<-|[]]; reflexivity.
      * exists k', b. split; [ | exact C ]. eapply InBelow; [ exact I | constructor ].
    + intros (k' & b & I & C). apply inside_inv in I. destruct I as [E|(c & B & I)].
      * injection E as <- <-. left. destruct k; cbn in C |- *; try contradiction; subst; now left.
      * right. inversion B; subst. exists k', b. now split.
  - rewrite fold_concat. cbn [app]. rewrite in_concat. rewrite Forall_forall in H. split.
    + intros (x & Hx & Hg). apply in_map_iff in Hx. destruct Hx as (b & <- & Hb). apply (H b Hb) in Hg. destruct Hg as (k & c & I & C).
      exists k, c. split; [ | exact C ]. eapply InBelow; [ exact I | now constructor ].
    + intros (k & c & I & C). apply inside_inv in I. destruct I as [E|(b & B & I)]; [ discriminate E | ]. inversion B; subst.
      exists (visit_node b []). split; [ now apply (in_map (fun a => visit_node a [])) | ]. apply H; [ assumption | ]. now exists k, c.
  - rewrite fold_concat. cbn [app]. rewrite in_concat. rewrite Forall_forall in H. split.
    + intros (x & Hx & Hg). apply in_map_iff in Hx. destruct Hx as (b & <- & Hb). apply (H b Hb) in Hg. destruct Hg as (k & c & I & C).
      exists k, c. split; [ | exact C ]. eapply InBelow; [ exact I | now constructor ].
    + intros (k & c & I & C). apply inside_inv in I. destruct I as [E|(b & B & I)]; [ discriminate E | ]. inversion B; subst.
      exists (visit_node b []). split; [ now apply (in_map (fun a => visit_node a [])) | ]. apply H; [ assumption | ]. now exists k, c.
Qed.
(** Numbers *)
Definition zrange (i j : Z) : list Z := map (fun k => i + 1 + Z.of_nat k)%Z (seq 0 (Z.to_nat (j - i))).
Lemma zrange_app : forall i j k, (i <= j)%Z -> (j <= k)%Z -> zrange i k = zrange i j ++ zrange j k.
Proof.
  intros i j k H K. unfold zrange. replace (Z.to_nat (k - i)) with (Z.to_nat (j - i) + Z.to_nat (k - j)) by lia.
  rewrite seq_app, map_app. f_equal. cbn [plus].
  assert (G : forall n m, map (fun k => i + 1 + Z.of_nat k)%Z (seq (Z.to_nat (j - i) + m) n) = map (fun k => j + 1 + Z.of_nat k)%Z (seq m n)).
  { induction n as [|n IH]; intro m; [ reflexivity | ]. cbn [seq map]. f_equal; [ lia | ]. rewrite <- IH. f_equal. f_equal. lia. }
  rewrite <- (G _ 0). now rewrite Nat.add_0_r.
Qed.
Lemma zrange_cons : forall i j, (i + 1 <= j)%Z -> zrange i j = (i + 1)%Z :: zrange (i + 1) j.
Proof.
  intros i j H. rewrite (zrange_app i (i + 1) j) by lia. unfold zrange at 1. replace (Z.to_nat (i + 1 - i)) with 1 by lia. cbn [seq map app]. f_equal. lia.
Qed.
Scheme numbered_mut := Induction for numbered Sort Prop with all_numbered_mut := Induction for all_numbered Sort Prop.
Lemma numbered_groups : forall a i j, numbered a i j -> (i <= j)%Z /\ map fst (visit_node a []) = zrange i j.
Proof.
  apply (numbered_mut (fun a i j _ => (i <= j)%Z /\ map fst (visit_node a []) = zrange i j)
    (fun l i j _ => (i <= j)%Z /\ map fst (List.concat (map (fun a => visit_node a []) l)) = zrange i j)).
  - intro i. split; [ lia | ]. unfold zrange. now rewrite Z.sub_diag.
  - intros k i. split; [ lia | ]. cbn [visit_node]. rewrite class_set_none. unfold zrange. now rewrite Z.sub_diag.
  - intros a i j _ H. exact H.
  - intros k a i j E _ [L H]. split; [ lia | ]. cbn [visit_node]. rewrite visit_app, map_app. etransitivity; [ apply f_equal; exact H | ]. rewrite (zrange_cons i j L).
    destruct k; cbn in E |- *; try discriminate E; injection E as ->; reflexivity.
  - intros k a i j E _ [L H]. split; [ lia | ]. cbn [visit_node]. destruct k; try discriminate E. exact H.
  - intros l i j _ [L H]. split; [ lia | ]. cbn [visit_node]. now rewrite fold_concat.
  - intros l i j _ [L H]. split; [ lia | ]. cbn [visit_node]. now rewrite fold_concat.
  - intro i. split; [ lia | ]. unfold zrange. now rewrite Z.sub_diag.
  - intros a l i j k _ [L1 H1] _ [L2 H2]. split; [ lia | ]. cbn [map List.concat]. rewrite map_app. etransitivity; [ exact (f_equal2 (@app Z) H1 H2) | ]. symmetry. now apply zrange_app.
Qed.
Lemma groups_numbered : forall a n, numbered a 0 n -> map fst (get_groups_from_ast a) = map Z.of_nat (seq 1 (Z.to_nat n)).
Proof.
  intros a n H. destruct (numbered_groups a 0 n H) as [_ E]. unfold get_groups_from_ast. rewrite E. unfold zrange. rewrite Z.sub_0_r.
  rewrite <- seq_shift, map_map. apply map_ext. intro k. lia.
Qed.

(** ** Matching *)
Lemma many_stop : forall p rest t, (forall c t', t = String c t' -> p c = false) -> many p rest t = rest t.
Proof. intros p rest [|c t] H; [ reflexivity | ]. cbn [many]. now rewrite (H c t eq_refl). Qed.
Lemma many_all : forall p rest d t r, sforall p d = true -> (forall c t', t = String c t' -> p c = false) -> rest t = Some r ->
  many p rest (d ++ t)%string = Some r.
Proof.
  intros p rest d t r D H R. induction d as [|c d IH]; [ cbn [append]; now rewrite many_stop | ].
  cbn [sforall] in D. apply andb_true_iff in D. destruct D as [Dc D]. cbn [append many]. now rewrite Dc, (IH D).
Qed.
Lemma many_last : forall p rest d c t r, sforall p d = true -> p c = true -> (forall x t', t = String x t' -> p x = false) -> rest t = None ->
  rest (String c t) = Some r -> many p rest (d ++ String c t)%string = Some r.
Proof.
  intros p rest d c t r D C H N R. induction d as [|x d IH].
  - cbn [append many]. rewrite C, (many_stop p rest t H), N. exact R.
  - cbn [sforall] in D. apply andb_true_iff in D. destruct D as [Dc D]. cbn [append many]. now rewrite Dc, (IH D).
Qed.
Lemma taken_app : forall d t, taken (d ++ t)%string t = d.
Proof.
  intros d t. unfold taken. replace (String.length (d ++ t)%string - String.length t) with (String.length d).
  2: { induction d as [|c d IH]; [ cbn [append String.length]; lia | ]. cbn [append String.length]. rewrite IH.
       assert (String.length t <= String.length (d ++ t)%string) by (clear; induction d; cbn [append String.length]; lia). lia. }
  induction d as [|c d IH]; [ now destruct t | ]. cbn [append String.length substring]. now rewrite IH.
Qed.
Lemma last_char : forall p b, sforall p b = true -> b <> EmptyString -> exists d c, b = (d ++ String c EmptyString)%string /\ sforall p d = true /\ p c = true.
Proof.
  intros p b. induction b as [|x b IH]; intros H N; [ contradiction | ]. cbn [sforall] in H. apply andb_true_iff in H. destruct H as [Hx H].
  destruct b as [|y b]; [ exists EmptyString, x; now repeat split | ].
  destruct (IH H ltac:(discriminate)) as (d & c & -> & Hd & Hc). exists (String x d), c. cbn [append sforall]. rewrite Hx. now repeat split.
Qed.
Lemma digit_not_dot : forall c, digit c = true -> Ascii.eqb "." c = false.
Proof. intros c H. apply Ascii.eqb_neq. intros <-. discriminate H. Qed.
Lemma sapp_assoc : forall a b c : string, ((a ++ b) ++ c = a ++ (b ++ c))%string.
Proof. induction a as [|x a IH]; intros b c; [ reflexivity | ]. cbn [append]. now rewrite IH. Qed.
(** The first group takes the number *)
Definition number_items : list PatternItem := [Open; Many digit; Maybe (Ascii.eqb "."); One digit; Many digit; Close].
Lemma number_first : forall l n u r, number_text n ->
  (forall c t, u = String c t -> digit c = false /\ Ascii.eqb "." c = false) -> matches l 1 [] u = Some r ->
  matches (number_items ++ l) 0 [] (n ++ u)%string = Some ((1, n) :: r).
Proof.
  intros l n u r H U R. unfold number_items. cbn [app].
  assert (Ud : forall c t, u = String c t -> digit c = false) by (intros c t E; apply (U c t E)).
  destruct H as [b Hb N|a b Ha Hb N].
  - destruct (last_char digit b Hb N) as (d & c & E & Hd & Hc).
    assert (Ub : (b ++ u)%string = (d ++ String c u)%string) by (rewrite E, sapp_assoc; reflexivity).
    change (many digit (matches (Maybe (Ascii.eqb ".") :: One digit :: Many digit :: Close :: l) 1 [(1, (b ++ u)%string)]) (b ++ u)%string = Some ((1, b) :: r)).
    rewrite Ub at 2. apply many_last; [ exact Hd | exact Hc | exact Ud | | ].
    + destruct u as [|x t]; [ reflexivity | ]. destruct (U x t eq_refl) as [U1 U2]. cbn [matches]. now rewrite U2, U1.
    + cbn [matches]. rewrite (digit_not_dot c Hc), Hc, (many_stop _ _ _ Ud), taken_app, R. reflexivity.
  - destruct b as [|c b]; [ contradiction | ]. cbn [sforall] in Hb. apply andb_true_iff in Hb. destruct Hb as [Hc Hb].
    set (s := ((a ++ String "." (String c b)) ++ u)%string).
    assert (Es : s = (a ++ String "." (String c (b ++ u)))%string) by (unfold s; rewrite sapp_assoc; reflexivity).
    change (many digit (matches (Maybe (Ascii.eqb ".") :: One digit :: Many digit :: Close :: l) 1 [(1, s)]) s = Some ((1, (a ++ String "." (String c b))%string) :: r)).
    rewrite Es at 2. apply many_all; [ exact Ha | intros x t E; injection E as <- <-; reflexivity | ].
    assert (K : many digit (matches (Close :: l) 1 [(1, s)]) (b ++ u)%string = Some ((1, (a ++ String "." (String c b))%string) :: r)).
    { apply many_all; [ exact Hb | exact Ud | ]. cbn [matches]. unfold s. now rewrite taken_app, R. }
    cbn [matches]. rewrite (eq_refl : Ascii.eqb "." "." = true). rewrite Hc. cbn [matches] in K. now rewrite K.
Qed.
Lemma sforall_app : forall p a b, sforall p (a ++ b)%string = sforall p a && sforall p b.
Proof. intros p a b. induction a as [|c a IH]; [ reflexivity | ]. cbn [append sforall]. now rewrite IH, andb_assoc. Qed.
Lemma app_empty : forall s : string, (s ++ "")%string = s.
Proof. induction s as [|c s IH]; [ reflexivity | ]. cbn [append]. now rewrite IH. Qed.
Definition rmunit_items : list PatternItem := number_items ++ [Open; Many word_char; Close; End].
Definition memk_items : list PatternItem := number_items ++ [Open; One (in_class true "kmg"); Close; End].
Lemma rmunit_reads : read_pattern rmunit_regex = Some rmunit_items.
Proof. reflexivity. Qed.
Lemma memk_reads : read_pattern memk_regex = Some memk_items.
Proof. reflexivity. Qed.
Lemma word_not_dot : forall c, word_char c = true -> Ascii.eqb "." c = false.
Proof. intros c H. apply Ascii.eqb_neq. intros <-. discriminate H. Qed.
Lemma rmunit_matches : forall n u, number_text n -> unit_text u = true -> matches rmunit_items 0 [] (n ++ u)%string = Some [(1, n); (2, u)].
Proof.
  intros n u H U. unfold unit_text in U. apply andb_true_iff in U. destruct U as [W D]. apply number_first; [ exact H | | ].
  - intros c t ->. cbn [sforall] in W. apply andb_true_iff in W. split; [ now apply negb_true_iff | now apply word_not_dot ].
  - change (many word_char (matches [Close; End] 2 [(2, u)]) u = Some [(2, u)]). rewrite <- (app_empty u) at 2.
    apply many_all; [ exact W | intros c t E; discriminate E | ]. cbn [matches line_end]. rewrite <- (app_empty u) at 1. now rewrite taken_app.
Qed.
Lemma kmg : forall c k, kilobytes c = Some k -> in_class true "kmg" c = true /\ digit c = false /\ Ascii.eqb "." c = false /\
  upper (one_char c) = (if String.eqb k "1.0" then "K" else if String.eqb k "1024.0" then "M" else "G")%string.
Proof.
  intros c k H. unfold kilobytes in H.
  destruct (Ascii.eqb c "k") eqn:E1; [ apply Ascii.eqb_eq in E1; subst; injection H as <-; repeat split | ].
  destruct (Ascii.eqb c "K") eqn:E2; [ apply Ascii.eqb_eq in E2; subst; injection H as <-; repeat split | ].
  destruct (Ascii.eqb c "m") eqn:E3; [ apply Ascii.eqb_eq in E3; subst; injection H as <-; repeat split | ].
  destruct (Ascii.eqb c "M") eqn:E4; [ apply Ascii.eqb_eq in E4; subst; injection H as <-; repeat split | ].
  destruct (Ascii.eqb c "g") eqn:E5; [ apply Ascii.eqb_eq in E5; subst; injection H as <-; repeat split | ].
  destruct (Ascii.eqb c "G") eqn:E6; [ apply Ascii.eqb_eq in E6; subst; injection H as <-; repeat split | discriminate H ].
Qed.
Lemma memk_matches : forall n c k, number_text n -> kilobytes c = Some k -> matches memk_items 0 [] (n ++ one_char c)%string = Some [(1, n); (2, one_char c)].
Proof.
  intros n c k H K. destruct (kmg c k K) as (K1 & K2 & K3 & _). apply number_first; [ exact H | | ].
  - intros x t E. injection E as <- <-. now split.
  - cbn [matches one_char line_end]. now rewrite K1.
Qed.
Section Units.
  Variable sp : Spark.
  Hypothesis Sp : spark_regex sp.
  Lemma unit_part : forall pattern items text i l, read_pattern pattern = Some items -> 1 <= i <= groups_in items -> matches items 0 [] text = Some l ->
    part sp pattern (Z.of_nat i) (SStr text) = SStr (group_of i l).
  Proof. intros pattern items text i l R I M. unfold part. rewrite (proj1 Sp pattern items text i R I). unfold extract. now rewrite M. Qed.
  Lemma rmunit_value : forall n u, number_text n -> unit_text u = true -> without_unit sp (SStr (n ++ u)) = as_number sp (SStr n).
  Proof.
    intros n u H U. change (without_unit sp (SStr (n ++ u))) with (as_number sp (part sp rmunit_regex (Z.of_nat 1) (SStr (n ++ u)))).
    rewrite (unit_part _ rmunit_items (n ++ u)%string 1 _ rmunit_reads ltac:(cbn; lia) (rmunit_matches n u H U)). reflexivity.
  Qed.
  Lemma memk_value : forall n c k, number_text n -> kilobytes c = Some k ->
    in_kilobytes sp (SStr (n ++ one_char c)) = lifted (sp_arith sp "*") (as_number sp (SStr n)) (SNum k).
  Proof.
    intros n c k H K. unfold in_kilobytes. change 1%Z with (Z.of_nat 1). change 2%Z with (Z.of_nat 2). cbv zeta. fold memk_regex.
    pose proof (memk_matches n c k H K) as M.
    rewrite (unit_part _ memk_items (n ++ one_char c)%string 1 _ memk_reads ltac:(cbn; lia) M).
    rewrite (unit_part _ memk_items (n ++ one_char c)%string 2 _ memk_reads ltac:(cbn; lia) M).
    cbn [group_of Nat.eqb]. destruct Sp as (_ & Up & Eq). rewrite (Up (one_char c)). destruct (kmg c k K) as (_ & _ & _ & ->).
    assert (Cq : forall a b, compare sp "==" (SStr a) (SStr b) = SBool (String.eqb a b)) by (intros a b; rewrite <- Eq; reflexivity).
    rewrite !Cq. unfold kilobytes in K.
    destruct (Ascii.eqb c "k" || Ascii.eqb c "K"); [ injection K as <-; reflexivity | ].
    destruct (Ascii.eqb c "m" || Ascii.eqb c "M"); [ injection K as <-; reflexivity | ].
    destruct (Ascii.eqb c "g" || Ascii.eqb c "G"); [ injection K as <-; reflexivity | discriminate K ].
  Qed.
  Lemma no_unit : in_kilobytes sp (SStr "7") = lifted (sp_arith sp "*") (as_number sp (SStr "")) (SNum "1.0") /\
    without_unit sp (SStr "10 MB") = as_number sp (SStr "").
  Proof.
    split.
    - unfold in_kilobytes. cbv zeta. fold memk_regex.
      assert (P : forall i : nat, 1 <= i <= 2 -> part sp memk_regex (Z.of_nat i) (SStr "7") = SStr "").
      { intros i Hi. unfold part. rewrite (proj1 Sp _ memk_items "7"%string i memk_reads Hi). reflexivity. }
      change 1%Z with (Z.of_nat 1). change 2%Z with (Z.of_nat 2). rewrite (P 1), (P 2) by lia.
      destruct Sp as (_ & U & E). rewrite U.
      assert (Cq : forall a b, compare sp "==" (SStr a) (SStr b) = SBool (String.eqb a b)) by (intros a b; rewrite <- E; reflexivity).
      rewrite !Cq. reflexivity.
    - unfold without_unit. f_equal. exact (proj1 Sp _ rmunit_items "10 MB"%string 1 rmunit_reads ltac:(cbn; lia)).
  Qed.
End Units.

(** ** Raw strings in the generated program *)
Lemma dq_is : dq = one_char dquote.
Proof. reflexivity. Qed.
Lemma without_last_app : forall s q, without_last (s ++ one_char q) = s.
Proof. intros s q. induction s as [|c s IH]; [ reflexivity | ]. cbn [append without_last]. destruct s; cbn [append] in *; [ reflexivity | now rewrite IH ]. Qed.
Lemma raw_plain : forall s, plain_raw dquote false s = true -> plain_code ("r" ++ dq ++ s ++ dq) = true.
Proof.
  intros s H. change (plain_raw_code (String "r" (String dquote (s ++ one_char dquote))) = true).
  unfold plain_raw_code. now rewrite without_last_app, String.eqb_refl, H.
Qed.
Lemma raw_tree : forall s, lit_val (code_tree ("r" ++ dq ++ s ++ dq)) = Some (SStr s).
Proof. intro s. change (lit_val (PStr (without_last (s ++ one_char dquote))) = Some (SStr s)). now rewrite without_last_app. Qed.

(** ** rex, regex and convert on rows *)
Lemma sem_raw_part : forall n pattern i, plain_name_text n = true -> plain_raw dquote false pattern = true ->
  sem_col (c_func "regexp_extract" [pcol n; raw_string pattern; pylit_int i]) (fun sp row => Some (part sp pattern i (cell n row))).
Proof.
  intros n pattern i N P. assert (S : sem_col (CNamed n) (fun _ row => Some (cell n row))) by (split; [ exact I | split; [ exact N | now intros ] ]).
  eapply sem_col_ext;
    [ apply (sem_fn_args "regexp_extract" _ _ eq_refl eq_refl (Forall2_cons _ _ (arg_col _ _ S) (Forall2_cons _ _ (arg_code _ _ (raw_plain _ P) (raw_tree pattern))
        (Forall2_cons _ _ (arg_int_code i) (Forall2_nil _))))) | ].
  intros sp row v E. exact E.
Qed.
Lemma uint_name : forall d, plain_name_text (NilEmpty.string_of_uint d) = true.
Proof. induction d; [ reflexivity | .. ]; cbn [NilEmpty.string_of_uint]; unfold plain_name_text, plain_between in *; cbn [sforall]; rewrite IHd; reflexivity. Qed.
Lemma dec_name : forall z, plain_name_text (dec z) = true.
Proof.
  assert (U : forall d, plain_name_text (NilZero.string_of_uint d) = true) by (intros []; [ reflexivity | .. ]; apply uint_name).
  intro z. unfold dec, NilZero.string_of_int. destruct (Z.to_int z) as [d|d]; [ apply U | ].
  unfold plain_name_text, plain_between. cbn [sforall]. rewrite (U d : sforall _ _ = true). reflexivity.
Qed.
Section Rex.
  Variable env : Env.
  Variable sp : Spark.
  Variable db : string -> option Table.
  Hypothesis Rt : env_rt env = Disallow.
  Hypothesis Sets : walks_sets env.
  Notation covered := (covered sp db).
  Notation gives := (gives env sp db).
  Definition rex_col (n pattern : string) (g : Z * option string) : ColumnLike := c_func "regexp_extract" [pcol n; raw_string pattern; pylit_int (fst g)].
  Definition rex_row (n pattern : string) (groups : list (Z * option string)) (r : Row) : Row :=
    fold_left (fun r' g => set_cell (group_column g) (part sp pattern (fst g) (cell n r')) r') groups r.
  Lemma rex_go : forall n pattern cmds groups d rows, plain_name_text n = true -> plain_raw dquote false pattern = true ->
    forallb (fun g => plain_name_text (group_column g)) groups = true -> frame_sem sp db cmds [] [] true d rows ->
    frame_sem sp db cmds [] [] true (fold_left (fun d g => d_with_column d (group_column g) (rex_col n pattern g)) groups d) (map (rex_row n pattern groups) rows).
  Proof.
    intros n pattern cmds groups. induction groups as [|g l IH]; intros d rows N P G D.
    - cbn [fold_left]. change (rex_row n pattern []) with (fun r : Row => r). now rewrite map_id.
    - cbn [forallb] in G. apply andb_true_iff in G. destruct G as [Pg Pl]. cbn [fold_left].
      replace (map (rex_row n pattern (g :: l)) rows) with (map (rex_row n pattern l) (map (fun r => set_cell (group_column g) (part sp pattern (fst g) (cell n r)) r) rows)).
      2: { rewrite map_map. reflexivity. }
      apply IH; auto. unfold d_with_column. cbn [rex_col c_func cl_unaliased].
      eapply with_column_sem; [ exact D | exact Pg | now apply sem_raw_part | ]. cbn [option_map].
      apply (all_some_total (fun r => set_cell (group_column g) (part sp pattern (fst g) (cell n r)) r)).
  Qed.
  Lemma rex_gives : forall p rows c groups, covered p rows -> opt_str_eqb (rx_mode c) "sed" = false -> rx_max_match c = 1%Z ->
    env_groups env (rx_regex c) = Ok groups -> plain_name_text (rx_field c) = true -> plain_raw dquote false (rx_regex c) = true ->
    forallb (fun g => plain_name_text (group_column g)) groups = true ->
    gives (p ++ [CRex c]) (OFrame None (map (rex_row (rx_field c) (rx_regex c) groups) rows)).
  Proof.
    intros p rows c groups C M X G N P Pg.
    apply (command_obj env sp db Rt Sets p rows (CRex c) (fun s => fold_left (fun d g => d_with_column d (group_column g) (rex_col (rx_field c) (rx_regex c) g)) groups (d_or_default s))).
    - exact C.
    - intros s st. cbn [transform_command]. rewrite Rt. unfold t_rex. rewrite M, X, G. reflexivity.
    - intros cmds s D. now apply rex_go.
  Qed.
  (** If no group is named like the field, all groups are read from the same text *)
  Lemma cell_other : forall n m v r, n <> m -> cell n (set_cell m v r) = cell n r.
  Proof.
    intros n m v r H. induction r as [|[k w] r IH]; cbn [set_cell cell].
    - destruct (String.eqb_spec n m); [ contradiction | reflexivity ].
    - destruct (String.eqb_spec m k) as [->|]; cbn [cell].
      + destruct (String.eqb_spec n k); [ contradiction | reflexivity ].
      + now rewrite IH.
  Qed.
  Lemma rex_row_from : forall n pattern groups r r0, ~ In n (map group_column groups) -> cell n r0 = cell n r ->
    rex_row n pattern groups r0 = fold_left (fun r' g => set_cell (group_column g) (part sp pattern (fst g) (cell n r)) r') groups r0.
  Proof.
    intros n pattern groups. unfold rex_row. induction groups as [|g l IH]; intros r r0 N E; [ reflexivity | ]. cbn [map fold_left] in *.
    rewrite E. apply IH; [ intro H; apply N; now right | ]. rewrite cell_other; [ exact E | ]. intros ->. apply N. now left.
  Qed.
  Lemma cell_same : forall n v r, cell n (set_cell n v r) = v.
  Proof.
    intros n v r. induction r as [|[k w] r IH]; cbn [set_cell cell]; [ now rewrite String.eqb_refl | ].
    destruct (String.eqb_spec n k) as [->|H]; cbn [cell]; [ now rewrite String.eqb_refl | ]. destruct (String.eqb_spec n k); [ contradiction | exact IH ].
  Qed.
  Lemma fold_cells : forall (val : Z * option string -> Val) groups r,
    (forall g g', In g groups -> In g' groups -> group_column g = group_column g' -> val g = val g') ->
    let r' := fold_left (fun r' g => set_cell (group_column g) (val g) r') groups r in
    (forall g, In g groups -> cell (group_column g) r' = val g) /\ (forall n, (forall g, In g groups -> group_column g <> n) -> cell n r' = cell n r).
  Proof.
    intros val groups. induction groups as [|g l IH] using rev_ind; intros r H; [ split; [ intros g [] | reflexivity ] | ].
    rewrite fold_left_app. cbn [fold_left]. destruct (IH r) as [I1 I2]; [ intros; apply H; auto; apply in_or_app; now left | ]. split.
    - intros g' Hg. destruct (String.eqb_spec (group_column g') (group_column g)) as [E|E].
      + rewrite E, cell_same. symmetry. apply H; [ exact Hg | apply in_or_app; right; now left | exact E ].
      + rewrite cell_other by exact E. apply in_app_or in Hg. destruct Hg as [Hg|[->|[]]]; [ now apply I1 | contradiction ].
    - intros n Hn. rewrite cell_other; [ apply I2; intros g' Hg'; apply Hn, in_or_app; now left | ].
      intro E. apply (Hn g); [ apply in_or_app; right; now left | now symmetry ].
  Qed.
  Lemma rex_extracts : forall parse_regex p rows c ast, covered p rows -> env_groups env = get_groups parse_regex ->
    rx_mode c <> Some "sed"%string -> rx_max_match c = 1%Z -> parse_regex (rx_regex c) = Ok ast ->
    plain_name_text (rx_field c) = true -> plain_raw dquote false (rx_regex c) = true ->
    (forall i n, has_group ast (i, Some n) -> plain_name_text n = true) ->
    (forall g g', has_group ast g -> has_group ast g' -> group_column g = group_column g' -> g = g') ->
    (forall g, has_group ast g -> group_column g <> rx_field c) ->
    exists out, gives (p ++ [CRex c]) (OFrame None out) /\ Forall2 (extracted sp ast (rx_regex c) (rx_field c)) rows out.
  Proof.
    intros parse_regex p rows c ast C G M X A N P Pn D F. eexists. split.
    - apply (rex_gives p rows c (get_groups_from_ast ast)); auto.
      + destruct (rx_mode c) as [m|]; [ | reflexivity ]. cbn. apply String.eqb_neq. congruence.
      + rewrite G. unfold get_groups. now rewrite A.
      + apply forallb_forall. intros [i [n|]] Hg; unfold group_column; cbn [fst snd]; [ | apply dec_name ]. apply (Pn i). now apply groups_are_captures.
    - rewrite <- (map_id rows) at 1. clear C. induction rows as [|r rows IH]; [ constructor | ]. cbn [map]. constructor; [ | exact IH ].
      rewrite (rex_row_from _ _ _ r r); [ | | reflexivity ].
      2: { intro H. apply in_map_iff in H. destruct H as (g & E & Hg). apply groups_are_captures in Hg. exact (F g Hg E). }
      destruct (fold_cells (fun g => part sp (rx_regex c) (fst g) (cell (rx_field c) r)) (get_groups_from_ast ast) r) as [H1 H2].
      { intros g g' Hg Hg' E. f_equal. f_equal. apply D; auto; now apply groups_are_captures. }
      split.
      + intros g Hg. apply groups_are_captures in Hg. exact (H1 g Hg).
      + intros n Hn. apply H2. intros g Hg. apply Hn. now apply groups_are_captures.
  Qed.

  (** *** regex *)
  Definition regex_value (field pattern : string) (r : Row) : Val := sp_fn sp "regexp_like" [AVal (cell field r); AVal (cell pattern r)].
  Definition kept (invert : bool) (v : Val) : bool := match v with SBool b => xorb invert b | _ => false end.
  Lemma where_filter : forall f (keep : Row -> bool) rows,
    (forall r, In r rows -> f r = Some SNull /\ keep r = false \/ f r = Some (SBool (keep r))) ->
    rows_where f rows = Some (filter keep rows).
  Proof.
    intros f keep rows. induction rows as [|r rows IH]; intro H; [ reflexivity | ]. cbn [rows_where filter].
    rewrite IH by (intros; apply H; now right). destruct (H r (or_introl eq_refl)) as [[-> ->]| ->]; [ reflexivity | now destruct (keep r) ].
  Qed.
  Lemma regex_gives : forall p rows item field invert pattern, covered p rows ->
    (item = None /\ field = "_raw"%string /\ invert = false) \/ (item = Some (field, "=") /\ invert = false)%string \/ (item = Some (field, "!=") /\ invert = true)%string ->
    plain_name_text field = true -> plain_raw dquote false pattern = true ->
    (forall r, In r rows -> truth (regex_value field pattern r) <> None) ->
    gives (p ++ [CRegex item pattern]) (OFrame None (filter (fun r => kept invert (regex_value field pattern r)) rows)).
  Proof.
    intros p rows item field invert pattern C It N P T.
    set (col := c_func "regexp_like" [pcol field; raw_string pattern]).
    apply (command_obj env sp db Rt Sets p rows (CRegex item pattern) (fun s => DWhere (d_or_default s) (PCol (if invert then CUnaryNot (PCol col) else col)))); [ exact C | | ].
    - intros s st. cbn [transform_command]. rewrite Rt. unfold t_regex. destruct It as [(-> & -> & ->)|[(-> & ->)|(-> & ->)]]; reflexivity.
    - intros cmds s D. assert (Pc : plain_col col = true).
      { cbn [col c_func plain_col forallb plain_pexpr raw_string]. rewrite (raw_plain pattern P). cbn [pcol plain_pexpr plain_col]. rewrite N. reflexivity. }
      assert (V : forall r, cv sp r (col_tree col) = Some (regex_value field pattern r)).
      { intro r. change (cv sp r (py_F "regexp_like" (map pexpr_tree [pcol field; raw_string pattern])) = Some (regex_value field pattern r)).
        rewrite (cv_fn sp r "regexp_like" _ [AVal (cell field r); ALit (SStr pattern)] eq_refl); [ reflexivity | ].
        cbn [map]. constructor; [ | constructor; [ | constructor ] ].
        - assert (S : sem_col (CNamed field) (fun _ row => Some (cell field row))) by (split; [ exact I | split; [ exact N | now intros ] ]).
          now apply (proj2 (arg_col _ _ S)).
        - now apply (proj2 (arg_code _ _ (raw_plain _ P) (raw_tree pattern))). }
      set (f := fun r => if invert then negate (regex_value field pattern r) else Some (regex_value field pattern r)).
      eapply (where_sem sp db cmds [] [] true _ rows _ f); [ exact D | | | ].
      + destruct invert; cbn [plain_pexpr plain_col is_column]; now rewrite Pc.
      + apply where_filter. intros r Hr. specialize (T r Hr). unfold f, kept, negate. destruct (regex_value field pattern r) as [|b| | |]; try contradiction; destruct invert; try (destruct b); cbn; auto.
      + intros r v Hr E. exists v. split; [ | split; [ | reflexivity ] ].
        * unfold f in E. destruct invert; cbn [pexpr_tree col_tree]; [ | now rewrite V ]. now rewrite (cv_not sp r _ _ (V r)).
        * specialize (T r Hr). unfold f, negate in E. destruct invert; [ | injection E as <-; exact T ].
          destruct (regex_value field pattern r); try contradiction; injection E as <-; discriminate.
  Qed.
  (** *** convert *)
  Definition converted_value (f : string) (v : Val) : Val :=
    if String.eqb f "memk" then in_kilobytes sp v else if String.eqb f "rmunit" then without_unit sp v else without_commas sp v.
  Definition converted_row (l : list FieldConversion) (r : Row) : Row :=
    fold_left (fun r c => set_cell (conversion_target c) (converted_value (fc_func c) (cell (fc_field c) r)) r) l r.
  Definition converts (c : FieldConversion) : bool :=
    str_in (fc_func c) ["memk"; "rmunit"; "rmcomma"]%string && plain_name_text (fc_field c) && plain_name_text (conversion_target c).
  Lemma assign_converted : forall l r, forallb converts l = true -> assign sp (map conversion l) r = Some (converted_row l r).
  Proof.
    induction l as [|[g n a] l IH]; intros r H; [ reflexivity | ]. cbn [forallb] in H. apply andb_true_iff in H. destruct H as [H Hl].
    unfold converts in H. apply andb_true_iff in H. destruct H as [H _]. apply andb_true_iff in H. destruct H as [H _]. cbn [fc_func] in H.
    cbn [map conversion assign fc_func fc_field fc_alias].
    assert (E : ev sp r (ECall g [ELeaf (LConstant (KField n))]) = Some (converted_value g (cell n r))).
    { cbn [str_in existsb] in H. repeat (apply orb_true_iff in H; destruct H as [H|H]); try discriminate H; apply String.eqb_eq in H; subst g; reflexivity. }
    rewrite E. apply (IH _ Hl).
  Qed.
  Lemma convert_gives : forall p rows tf l, covered p rows -> forallb converts l = true ->
    gives (p ++ [CConvert tf l]) (OFrame None (map (converted_row l) rows)).
  Proof.
    intros p rows tf l C H. apply (command_gives env sp db p rows); auto. cbn [step step1].
    rewrite (map_ext_in _ (fun r => Some (converted_row l r))); [ apply all_some_total | ]. intros r _. now apply assign_converted.
  Qed.
  Lemma ctime_gives : forall p rows f a l (text : Row -> string), covered p rows -> plain_name_text f = true ->
    plain_name_text (conversion_target (mkConversion "ctime" f a)) = true ->
    Forall shown_alike l -> units_apart l -> percents_apart l -> plain_between dquote (format_text l) = true ->
    (forall r, In r rows -> exists t, formats_as sp (cell f r) t /\ spl_format t l = Some (text r)) ->
    gives (p ++ [CConvert (format_text l) [mkConversion "ctime" f a]])
      (OFrame None (map (fun r => set_cell (conversion_target (mkConversion "ctime" f a)) (SStr (text r)) r) rows)).
  Proof.
    intros p rows f a l text C Pf Px F U P Q H. destruct (convert_shown l F U P) as (g & Eg & Hg).
    assert (Pg : plain_between dquote g = true).
    { apply (conv_plain l g Q). rewrite <- (convert_items l); [ exact Eg | | exact P ]. now apply shown_known. }
    set (x := conversion_target (mkConversion "ctime" f a)) in *.
    set (col := c_func "date_format" [pcol f; pylit_str g]).
    apply (command_obj env sp db Rt Sets p rows _ (fun s => DWithColumn (d_or_default s) x col)); [ exact C | | ].
    - intros s st. cbn [transform_command]. rewrite Rt.
      change (t_convert_go (format_text l) [mkConversion "ctime" f a] (d_or_default s)) with
        (let? r := ctime (pcol f) (format_text l) in Ok (d_with_column (d_or_default s) x r)).
      unfold ctime. rewrite Eg. reflexivity.
    - intros cmds s D.
      assert (S : sem_col (CNamed f) (fun _ row => Some (cell f row))) by (split; [ exact I | split; [ exact Pf | now intros ] ]).
      eapply (with_column_sem sp db cmds [] [] true _ rows); [ exact D | exact Px | | ].
      + apply (sem_fn_args "date_format" _ _ eq_refl eq_refl (Forall2_cons _ _ (arg_col _ _ S) (Forall2_cons _ _ (arg_str_code g Pg) (Forall2_nil _)))).
      + rewrite (map_ext_in _ (fun r => Some (set_cell x (SStr (text r)) r))); [ apply all_some_total | ]. intros r Hr.
        destruct (H r Hr) as (t & Ft & Et). cbn [map all_some option_map fn_val]. cbn. f_equal. f_equal. apply Ft. destruct (Hg t) as (w & Ew & Sw). congruence.
  Qed.
End Rex.
