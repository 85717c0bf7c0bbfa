(** Facts: what the generated calls of the runtime library compute. *)
From Coq Require Import Lia.
From Verif Require Import Str SplAst PyAst Functions Transpile Render Commands PipeFacts SpecPy SpecCol SpecFrame
  FrameFacts ProgramFacts SpecSpark SpecRows SpecCommands RowFacts ValueFacts SearchFacts CommandFacts SpecCall CallFacts RunFacts SpecRuntime.
From Verif Require Runtime.
Import Runtime (PV(..), LibExpr(..), lv, lib, arg_tree, trees, obind, swap, value_of, library, runs, lookup_in, py_of,
  lib_function, is_command, lib_expr, named_exprs, others, search_params, search_condition, with_columns,
  by_columns, column_name, stats_functions_of, stats_aggs, table_lookup, keyword).
From Verif Require Import RuntimeFacts RuntimeSteps.
Open Scope list_scope.
Open Scope string_scope.

(** ** search *)
Lemma lsem_arg : forall col c f, lsem col c f -> exists u, lib_expr (col_tree c) = Some u /\ lit_val u = None /\ not_name u /\
  forall sp row v, f sp row = Some v -> cv sp row u = Some v.
Proof.
  intros col c f (_ & _ & v & u & L & St & N & M & H). exists u. split; [ | now split ]. unfold lib_expr. rewrite L. cbn [obind].
  now apply (stands_arg col).
Qed.
(** A condition and the argument it becomes *)
Definition carried (e : Expr) (a : RuntimeExpr + (string * RuntimeExpr)) : Prop :=
  match a with
  | inl (RExpr x) => plain_pexpr x = true /\ equal_fields [e] = [] /\
      exists u, lib_expr (pexpr_tree x) = Some u /\ forall sp row, cv sp row u = Some (of_truth (search3 sp row e))
  | inr (f, RExpr x) => plain_pexpr x = true /\ equal_fields [e] = [f] /\ py_ident f = true /\ str_in f search_params = false /\ f <> "df" /\
      exists u, lib_expr (pexpr_tree x) = Some u /\
        forall sp row, cv sp row (PBin "==" (py_F "col" [PStr f]) u) = Some (of_truth (search3 sp row e))
  | _ => False
  end.
Lemma in_metadata : forall f, str_in f (map fst metadata) = false -> assoc f search_special = None.
Proof.
  intros f H. apply assoc_none. rewrite special_same. intro I. unfold str_in in H. rewrite <- not_true_iff_false in H. apply H.
  apply existsb_exists. exists f. split; [ exact I | apply String.eqb_refl ].
Qed.
Lemma not_param : forall f, str_in f (map fst metadata) = false -> str_in f search_names = false -> str_in f search_params = false /\ f <> "df".
Proof.
  intros f A B. unfold str_in, search_names, search_params, metadata in *. cbn [map fst existsb] in *.
  repeat (apply orb_false_iff in A; destruct A as [? A]). repeat (apply orb_false_iff in B; destruct B as [? B]).
  split; [ | now apply String.eqb_neq ]. repeat (apply orb_false_iff; split); assumption || reflexivity.
Qed.
Lemma condition_carried : forall e, plain_search e = true -> lib_condition e = true ->
  exists a, search_runtime_arg Allow e = Ok a /\ carried e a.
Proof.
  intros e P C. unfold lib_condition in C. apply andb_true_iff in C. destruct C as [W C].
  destruct (search_bridge e P W) as (Pe & Le & Ev).
  assert (Pos : equal_fields [e] = [] -> search_runtime_arg Allow e = (let? x := to_spark_expr Allow e in Ok (inl (RExpr x))) ->
     exists a, search_runtime_arg Allow e = Ok a /\ carried e a).
  { intros F E. destruct (lib_expr_ok e Pe false (Le false)) as (c & Ec & Sc). rewrite E, Ec. cbn [rbind].
    exists (inl (RExpr (PCol c))). split; [ reflexivity | ]. cbn [carried plain_pexpr pexpr_tree].
    split; [ apply Sc | split; [ exact F | ] ]. destruct (lsem_arg _ _ _ Sc) as (u & L & _ & _ & H). exists u. split; [ exact L | ].
    intros sp row. apply H. unfold ev_of. apply Ev. }
  assert (K : (exists f op r, e = EBinary (ELeaf (LConstant (KField f))) op r) \/ (forall f op r, e <> EBinary (ELeaf (LConstant (KField f))) op r)).
  { destruct e as [| |l op r| | | | | | | ]; try (right; discriminate). destruct l as [[[]|?|?|?]|?|?|?|?|?|?|?|?|?]; try (right; discriminate). left. eauto. }
  destruct K as [(f & op & r & ->)|K].
  - apply andb_true_iff in C. destruct C as [M C]. apply negb_true_iff in M. pose proof (in_metadata f M) as As.
    unfold equal_fields in Pos. cbn [map List.concat search_runtime_arg] in *. rewrite As in *. unfold is_eq_op in *.
    fold (equality op) in *. destruct (equality op) eqn:O; [ | now apply Pos ].
    cbn [negb orb] in C. apply andb_true_iff in C. destruct C as [C Rw]. apply andb_true_iff in C. destruct C as [I N]. apply negb_true_iff in N.
    destruct (not_param f M N) as [Np Nd]. clear Pos.
    assert (Oc : str_in op spl_comparisons = true /\ simple_op op = "==" /\ String.eqb op "AND" || String.eqb op "OR" = false).
    { unfold equality in O. apply orb_true_iff in O. destruct O as [O|O]; apply String.eqb_eq in O; subst op; repeat split. }
    destruct Oc as (Oc & Os & Ol). cbn [plain_search] in P. rewrite Ol in P. apply andb_true_iff in P. destruct P as [P Pr]. apply andb_true_iff in P. destruct P as [_ Pf].
    assert (R : exists w, (forall sp row, ev sp row r = Some w) /\ plain_expr true r = true /\ lib_value false r = true /\
        (forall p, r <> ELeaf (LConstant (KWildcard p))) /\
        forall sp row, ev sp row (EBinary (ELeaf (LConstant (KField f))) op r) = apply_op sp op (cell f row) w).
    { destruct r as [[k|?|?|?]|?|?|?|?|?|?|?|?|?]; try discriminate Pr. destruct k as [ |b|z|t|w|?|?|w|w|?|w]; try discriminate Pr; try discriminate Rw.
      - exists (SInt z). repeat split; try exact Pr; discriminate.
      - apply andb_true_iff in Pr. destruct Pr as [Pt _]. destruct (number_code t Pt) as (_ & v & L & _).
        exists v. cbn [ev const_val]. unfold const_val in *. repeat split; try exact L; try exact Pt; try discriminate; intros sp row; now rewrite L.
      - apply andb_true_iff in Pr. destruct Pr as [Pt _]. exists (SStr w). repeat split; try exact Pt; discriminate. }
    destruct R as (w & Er & Pr' & Lr & NW & Ee). destruct (lib_expr_ok r Pr' false Lr) as (c & Ec & Sc). rewrite Ec. cbn [rbind].
    exists (inr (f, RExpr (PCol c))). split; [ reflexivity | ]. cbn [carried plain_pexpr pexpr_tree]. split; [ apply Sc | ].
    split; [ unfold equal_fields; cbn [map List.concat]; now rewrite O | ]. split; [ exact I | split; [ exact Np | split; [ exact Nd | ] ] ].
    destruct (lsem_arg _ _ _ Sc) as (u & L & _ & _ & H). exists u. split; [ exact L | ]. intros sp row.
    rewrite (cv_bin sp row _ _ _ _ _ (cv_col _ _ _) (H sp row w (Er sp row))). rewrite <- Os.
    apply bin_apply; [ now apply cmp_among | ]. rewrite <- Ee. apply Ev.
  - apply Pos.
    + destruct e as [| |l op r| | | | | | | ]; try reflexivity. destruct l as [[[]|?|?|?]|?|?|?|?|?|?|?|?|?]; try reflexivity. exfalso. eapply K. reflexivity.
    + destruct e as [| |l op r| | | | | | | ]; try reflexivity. destruct l as [[[]|?|?|?]|?|?|?|?|?|?|?|?|?]; try reflexivity. exfalso. eapply K. reflexivity.
Qed.

Lemma equal_cons : forall e l, equal_fields (e :: l) = (equal_fields [e] ++ equal_fields l)%list.
Proof. intros e l. unfold equal_fields. cbn [map List.concat]. now rewrite app_nil_r. Qed.
(** All of them *)
Lemma conditions_carried : forall es, forallb plain_search es = true -> forallb lib_condition es = true ->
  exists l exprs fields, rtraverse (search_runtime_arg Allow) es = Ok l /\
    forallb plain_rt (lefts l) = true /\ forallb (fun kv => py_ident (fst kv) && plain_rt (snd kv)) (rights l) = true /\
    map fst (rights l) = equal_fields es /\ (forall f, In f (equal_fields es) -> str_in f search_params = false /\ f <> "df") /\
    all_some (map lib_expr (call_args (lefts l))) = Some exprs /\ named_exprs (call_kw (rights l)) = Some fields /\
    forall sp row, exists xs ys,
      Forall2 (fun u x => cv sp row u = Some (of_truth x)) exprs xs /\
      Forall2 (fun kv x => cv sp row (PBin "==" (py_F "col" [PStr (fst kv)]) (snd kv)) = Some (of_truth x)) fields ys /\
      forallb yes xs && forallb yes ys = forallb (fun e => yes (search3 sp row e)) es.
Proof.
  induction es as [|e es IH]; intros P C.
  - exists [], [], []. repeat split; try contradiction. exists [], []. repeat split; constructor.
  - cbn [forallb] in P, C. apply andb_true_iff in P. destruct P as [P Ps]. apply andb_true_iff in C. destruct C as [C Cs].
    destruct (condition_carried e P C) as (a & Ea & Ha). destruct (IH Ps Cs) as (l & exprs & fields & El & P1 & P2 & K & N & X & F & V).
    exists (a :: l). rewrite rtraverse_cons, Ea, El. cbn [rbind]. rewrite equal_cons.
    destruct a as [x|[f x]]; destruct x as [d|x|?|?|?]; try contradiction.
    + destruct Ha as (Px & Ef & u & L & H). exists (u :: exprs), fields. rewrite Ef. cbn [app lefts rights forallb plain_rt]. rewrite Px, P1.
      split; [ reflexivity | split; [ reflexivity | split; [ exact P2 | split; [ exact K | split; [ exact N | split ] ] ] ] ].
      { cbn [call_args map all_some rt_prog snd]. rewrite L. unfold call_args in X. now rewrite X. }
      split; [ exact F | ]. intros sp row. destruct (V sp row) as (xs & ys & A & B & D). exists (search3 sp row e :: xs), ys.
      split; [ constructor; [ apply H | exact A ] | split; [ exact B | ] ]. cbn [forallb]. rewrite <- D. now rewrite andb_assoc.
    + destruct Ha as (Px & Ef & I & Np & Nd & u & L & H). exists exprs, ((f, u) :: fields). rewrite Ef. cbn [app lefts rights forallb plain_rt map fst snd]. rewrite Px, P1, P2, I, K.
      split; [ reflexivity | split; [ reflexivity | split; [ reflexivity | split; [ reflexivity | split; [ | split; [ exact X | split ] ] ] ] ] ].
      { intros g [<-|G]; [ now split | now apply N ]. }
      { unfold named_exprs in *. cbn [call_kw map all_some rt_prog fst snd] in *. rewrite L. cbn [swap]. unfold call_kw in F. now rewrite F. }
      intros sp row. destruct (V sp row) as (xs & ys & A & B & D). exists xs, (search3 sp row e :: ys).
      split; [ exact A | split; [ constructor; [ apply H | exact B ] | ] ]. cbn [forallb]. rewrite <- D.
      destruct (yes (search3 sp row e)), (forallb yes xs), (forallb yes ys); reflexivity.
Qed.
Lemma fold_and : forall sp row conds xs acc a, Forall2 (fun u x => cv sp row u = Some (of_truth x)) conds xs -> cv sp row acc = Some (of_truth a) ->
  exists b, cv sp row (fold_left (PBin "&") conds acc) = Some (of_truth b) /\ yes b = yes a && forallb yes xs.
Proof.
  intros sp row conds xs acc a F. revert acc a. induction F as [|u x conds xs H F IH]; intros acc a A.
  - exists a. split; [ exact A | ]. cbn [forallb]. now rewrite andb_true_r.
  - cbn [fold_left forallb]. destruct (IH (PBin "&" acc u) (k_and a x)) as (b & B & Y).
    + rewrite (cv_bin sp row _ _ _ _ _ A H). unfold bin_val. change (String.eqb "&" "&") with true. cbv iota. destruct a as [[]|], x as [[]|]; reflexivity.
    + exists b. split; [ exact B | ]. rewrite Y, yes_and. now rewrite andb_assoc.
Qed.
Lemma conjuncts_plain : forall e, plain_search e = true -> forallb plain_search (conjuncts e) = true.
Proof.
  intro e. induction e as [l o r IHl IHr|o r IH|n args F|e n IH|e He] using expr_induct; intro P; try discriminate P.
  - cbn [conjuncts]. destruct (String.eqb o "AND") eqn:O; [ | cbn [forallb]; now rewrite P ].
    cbn [plain_search] in P. rewrite O in P. cbn [orb] in P. apply andb_true_iff in P. destruct P. rewrite forallb_app, IHl, IHr by assumption. reflexivity.
  - cbn [conjuncts forallb]. now rewrite P.
  - destruct e; try contradiction; try discriminate P; cbn [conjuncts forallb]; now rewrite P.
Qed.
Lemma conjuncts_true : forall sp row e, forallb (fun e => yes (search3 sp row e)) (conjuncts e) = yes (search3 sp row e).
Proof.
  intros sp row e. induction e as [l o r IHl IHr|o r IH|n args F|e n IH|e He] using expr_induct; try (cbn [conjuncts forallb]; now rewrite andb_true_r).
  - cbn [conjuncts]. destruct (String.eqb o "AND") eqn:O; [ | cbn [forallb]; now rewrite andb_true_r ].
    rewrite forallb_app, IHl, IHr, <- yes_and. cbn [search3]. now rewrite O.
  - destruct e; try contradiction; cbn [conjuncts forallb]; now rewrite andb_true_r.
Qed.
Lemma others_keep : forall params kw, (forall f, In f (map fst kw) -> str_in f params = false) -> others params kw = kw.
Proof.
  intros params kw. induction kw as [|[k v] kw IH]; intro H; [ reflexivity | ]. unfold others in *. cbn [filter fst].
  rewrite (H k) by (now left). cbn [negb]. rewrite IH; [ reflexivity | ]. intros f I. apply H. now right.
Qed.
Lemma call_kw_fst : forall kw, map fst (call_kw kw) = map fst kw.
Proof. intro kw. unfold call_kw. rewrite map_map. reflexivity. Qed.
Lemma str_in_none : forall f l, ~ In f l -> str_in f l = false.
Proof.
  intros f l H. unfold str_in. apply not_true_iff_false. intro E. apply existsb_exists in E as (x & I & X). apply String.eqb_eq in X. now subst x.
Qed.
(** The rows a search keeps *)
Lemma search_keeps : forall sp es exprs fields rows e out,
  (forall row, exists xs ys,
      Forall2 (fun u x => cv sp row u = Some (of_truth x)) exprs xs /\
      Forall2 (fun kv x => cv sp row (PBin "==" (py_F "col" [PStr (fst kv)]) (snd kv)) = Some (of_truth x)) fields ys /\
      forallb yes xs && forallb yes ys = forallb (fun e => yes (search3 sp row e)) es) ->
  (forall row, forallb (fun e => yes (search3 sp row e)) es = yes (search3 sp row e)) ->
  plain_search e = true -> search_rows sp e rows = Some out -> keep_where sp (search_condition exprs fields) rows = Some out.
Proof.
  intros sp es exprs fields rows e out V C P E. destruct (search_rows_inv sp e rows out E) as [N Er].
  apply (keep_ok sp _ _ rows out Er). intros r v I Hv.
  destruct (search_agrees sp r e P (fun f => N r f I)) as (b & Hb & Hs). rewrite Hb in Hv. injection Hv as <-.
  destruct (V r) as (xs & ys & A & B & D). unfold search_condition.
  assert (F : Forall2 (fun u x => cv sp r u = Some (of_truth x)) (exprs ++ map (fun kv => PBin "==" (py_F "col" [PStr (fst kv)]) (snd kv)) fields) (xs ++ ys)).
  { apply Forall2_app; [ exact A | ]. clear - B. induction B; constructor; assumption. }
  destruct (fold_and sp r _ _ (py_F "lit" [PName "True"]) (Some true) F eq_refl) as (c & Hc & Y). exists (of_truth c). split; [ exact Hc | ].
  split; [ destruct c as [[]|]; discriminate | ]. cbn [yes andb] in Y. rewrite forallb_app, D, C in Y.
  destruct c as [[]|]; cbn [yes of_truth is_true] in *; destruct b; try reflexivity; destruct (search3 sp r e) as [[]|]; try discriminate Y; destruct Hs as [H1 H2]; try (specialize (H1 eq_refl)); try (specialize (H2 eq_refl)); discriminate.
Qed.

(** ** Keywords *)
Lemma lookup_none : forall A k (l : list (string * A)), ~ In k (map fst l) -> lookup_in k l = None.
Proof.
  induction l as [|[k' a] l IH]; intro H; [ reflexivity | ]. cbn [lookup_in map fst In] in *.
  destruct (String.eqb_spec k k') as [->|N]; [ elim H; now left | tauto ].
Qed.
Lemma lookup_app : forall A k (l r : list (string * A)), lookup_in k (l ++ r)%list = match lookup_in k l with Some a => Some a | None => lookup_in k r end.
Proof. induction l as [|[k' a] l IH]; intro r; [ reflexivity | ]. cbn [app lookup_in]. now destruct (String.eqb k k'). Qed.
Lemma distinct_nodup : forall l, distinct l = true <-> NoDup l.
Proof.
  induction l as [|x l IH]; [ split; [ constructor | reflexivity ] | ]. cbn [distinct]. rewrite andb_true_iff, negb_true_iff, IH. split.
  - intros [H N]. constructor; [ | exact N ]. intro I. unfold str_in in H. rewrite <- not_true_iff_false in H. apply H. apply existsb_exists.
    exists x. split; [ exact I | apply String.eqb_refl ].
  - intro N. inversion N; subst. split; [ now apply str_in_none | assumption ].
Qed.
Lemma distinct_insert : forall a b x, distinct (a ++ b)%list = true -> ~ In x (a ++ b)%list -> distinct (a ++ x :: b)%list = true.
Proof.
  intros a b x D N. apply distinct_nodup. apply distinct_nodup in D. apply NoDup_Add with (a := x) (l := (a ++ b)%list); [ apply Add_app | now split ].
Qed.
Lemma str_in_iff : forall x l, str_in x l = true <-> In x l.
Proof.
  intros x l. unfold str_in. rewrite existsb_exists. split.
  - intros (y & I & E). apply String.eqb_eq in E. now subst y.
  - intro I. exists x. split; [ exact I | apply String.eqb_refl ].
Qed.
Lemma rtraverse_app : forall A B (f : A -> res B) a b l, rtraverse f (a ++ b)%list = Ok l ->
  exists la lb, l = (la ++ lb)%list /\ rtraverse f a = Ok la /\ rtraverse f b = Ok lb.
Proof.
  intros A B f a b. induction a as [|x a IH]; intros l H.
  - exists [], l. now repeat split.
  - cbn [app] in H. rewrite rtraverse_cons in *. destruct (f x) as [y| | ]; try discriminate H. cbn [rbind] in H.
    destruct (rtraverse f (a ++ b)) as [t| | ] eqn:E; try discriminate H. injection H as <-. destruct (IH t eq_refl) as (la & lb & -> & Ea & Eb).
    exists (y :: la), lb. rewrite Ea. now repeat split.
Qed.
Lemma rtraverse_app_ok : forall A B (f : A -> res B) a b la lb, rtraverse f a = Ok la -> rtraverse f b = Ok lb -> rtraverse f (a ++ b)%list = Ok (la ++ lb)%list.
Proof.
  intros A B f a b la lb. revert la. induction a as [|x a IH]; intros la Ha Hb.
  - injection Ha as <-. exact Hb.
  - cbn [app]. rewrite rtraverse_cons in *. destruct (f x) as [y| | ]; try discriminate Ha. cbn [rbind] in *.
    destruct (rtraverse f a) as [t| | ]; try discriminate Ha. injection Ha as <-. now rewrite (IH t eq_refl Hb).
Qed.
Lemma lefts_app : forall A B (a b : list (A + B)), lefts (a ++ b)%list = (lefts a ++ lefts b)%list.
Proof. induction a as [|[x|x] a IH]; intro b; cbn [app lefts]; now rewrite ?IH. Qed.
Lemma rights_app : forall A B (a b : list (A + B)), rights (a ++ b)%list = (rights a ++ rights b)%list.
Proof. induction a as [|[x|x] a IH]; intro b; cbn [app rights]; now rewrite ?IH. Qed.
Lemma index_conjunct : forall e n c, take_index e = Some (n, c) ->
  exists a b l op r, conjuncts e = (a ++ EBinary l op r :: b)%list /\ index_test l op r = Some n /\
    match c with Some x => conjuncts x = (a ++ b)%list | None => a = [] /\ b = [] end.
Proof.
  intro e. induction e as [l o r IHl IHr|o r IH|m args F|e m IH|e He] using expr_induct; intros n c T; try discriminate T.
  - cbn [take_index] in T. destruct (index_test l o r) as [m|] eqn:X.
    + injection T as <- <-. exists [], [], l, o, r. cbn [app]. split; [ | now split ]. cbn [conjuncts].
      apply index_test_inv in X. destruct X as (_ & _ & -> & _). reflexivity.
    + destruct (String.eqb o "AND") eqn:O; [ | discriminate T ]. cbn [conjuncts]. rewrite O. apply String.eqb_eq in O. subst o.
      destruct (take_index l) as [[nl cl]|]; destruct (take_index r) as [[nr cr]|]; try (destruct cl); try discriminate T.
      * injection T as <- <-. destruct (IHl nl _ eq_refl) as (a & b & l' & o' & r' & E & I & X'). exists a, (b ++ conjuncts r)%list, l', o', r'.
        rewrite E, <- app_assoc. split; [ reflexivity | split; [ exact I | ] ]. cbn [conjuncts]. change (String.eqb "AND" "AND") with true. cbv iota. now rewrite X', app_assoc.
      * injection T as <- <-. destruct (IHl nl _ eq_refl) as (a & b & l' & o' & r' & E & I & -> & ->). exists [], (conjuncts r), l', o', r'.
        rewrite E. split; [ reflexivity | split; [ exact I | reflexivity ] ].
      * destruct cr as [r0|]; injection T as <- <-; destruct (IHr nr _ eq_refl) as (a & b & l' & o' & r' & E & I & X').
        -- exists (conjuncts l ++ a)%list, b, l', o', r'. rewrite E, <- !app_assoc. split; [ reflexivity | split; [ exact I | ] ].
           cbn [conjuncts]. change (String.eqb "AND" "AND") with true. cbv iota. now rewrite X'.
        -- destruct X' as [-> ->]. exists (conjuncts l), [], l', o', r'. rewrite E. split; [ reflexivity | split; [ exact I | now rewrite app_nil_r ] ].
  - destruct e; try contradiction; discriminate T.
Qed.
Lemma index_arg : forall l op r n rt, index_test l op r = Some n ->
  search_runtime_arg rt (EBinary l op r) = Ok (inr ("index", RExpr (pylit_str n))).
Proof.
  intros l op r n rt X. unfold index_test in X. destruct l as [[[]|?|?|?]|?|?|?|?|?|?|?|?|?]; try discriminate X.
  destruct r as [[[]|?|?|?]|?|?|?|?|?|?|?|?|?]; try discriminate X;
    match type of X with (if ?b then _ else _) = _ => destruct b eqn:B; [ | discriminate X ] end; injection X as <-;
    apply andb_true_iff in B; destruct B as [B _]; apply andb_true_iff in B; destruct B as [B1 B2];
    apply String.eqb_eq in B1, B2; subst; reflexivity.
Qed.

(** ** stats *)
Definition stats_path (f : string) : Prop :=
  let p := ("functions.stats." ++ f)%string in
  contains "." p = true /\ py_path p = PAttr (PAttr (PName "functions") "stats") f /\
  match split_on "." p with x :: l => py_ident x && forallb py_ident l | [] => false end = true.
Definition agg_of (g : Stat) (tree : Py -> Py) : Prop := forall sp a u, lit_val u = None -> (forall r v, ev sp r a = Some v -> cv sp r u = Some v) ->
  forall rows w, group_value sp g [a] rows = Some w -> agg_val sp rows (tree u) = Some w.
Definition lib_stat_entry (f : string) : Prop :=
  exists g tree, stat_of f = Some g /\ stats_path f /\
  (forall vs u, trees vs = Some [u] -> Runtime.stats_call f vs = Some (VStats (timed g) (Some (tree u)))) /\ agg_of g tree.
Section Groups.
  Variables (sp : Spark) (a : Expr) (u : Py).
  Hypothesis N : lit_val u = None.
  Hypothesis V : forall r v, ev sp r a = Some v -> cv sp r u = Some v.
  Lemma arg_rows : forall (more : list Py) (l : list FArg), (forall r, arg_vals sp r more = Some l) ->
    forall rows vs, all_some (map (fun r => ev sp r a) rows) = Some vs ->
    all_some (map (fun r => arg_vals sp r (u :: more)) rows) = Some (map (fun v => AVal v :: l) vs).
  Proof.
    intros more l M. induction rows as [|r rows IH]; intros vs Evs; [ now injection Evs as <- | ].
    cbn [map all_some] in *. destruct (ev sp r a) as [v|] eqn:Er; [ | discriminate ].
    destruct (all_some (map (fun r => ev sp r a) rows)) as [l'|]; [ | discriminate ]. injection Evs as <-. rewrite (IH l' eq_refl).
    unfold arg_vals in *. cbn [map all_some]. rewrite (V r v Er). cbn [option_map]. rewrite M. unfold py_arg. now rewrite N.
  Qed.
  Lemma agg_with : forall g more l, str_in g aggregate_functions = true -> (forall r, arg_vals sp r more = Some l) ->
    forall rows vs, all_some (map (fun r => ev sp r a) rows) = Some vs ->
    agg_val sp rows (py_F g (u :: more)) = Some (sp_agg sp g (map (fun v => AVal v :: l) vs)).
  Proof.
    intros g more l A M rows vs E. unfold py_F. cbn [agg_val]. rewrite A. change (String.eqb "F" "F" && true) with true. cbv iota.
    now rewrite (arg_rows more l M rows vs E).
  Qed.
  Lemma agg_times : forall g rows, str_in g aggregate_functions = true ->
    agg_val sp rows (py_F g [py_F "col" [PStr "_time"]]) = Some (sp_agg sp g (map (fun r => [AVal (cell "_time" r)]) rows)).
  Proof.
    intros g rows A. unfold py_F. cbn [agg_val]. rewrite A. change (String.eqb "F" "F" && true) with true. cbv iota.
    replace (all_some _) with (Some (map (fun r : Row => [AVal (cell "_time" r)]) rows)); [ reflexivity | ].
    symmetry. rewrite <- (all_some_total (fun r : Row => [AVal (cell "_time" r)])). reflexivity.
  Qed.
End Groups.
Lemma agg_plain : forall g, str_in g aggregate_functions = true -> agg_of (SPlain g) (fun u => py_F g [u]).
Proof.
  intros g A sp a u N V rows w E. cbn [group_value] in E. destruct (all_some (map (fun r => ev sp r a) rows)) as [vs|] eqn:Evs; [ | discriminate E ].
  injection E as <-. exact (agg_with sp a u N V g [] [] A (fun _ => eq_refl) rows vs Evs).
Qed.
Lemma agg_true : forall g st, str_in g aggregate_functions = true -> st = SOrdered g \/ st = SWith g (ALit (SBool true)) ->
  agg_of st (fun u => py_F g [u; PName "True"]).
Proof.
  intros g st A S sp a u N V rows w E. destruct S as [-> | ->]; cbn [group_value] in E;
    (destruct (all_some (map (fun r => ev sp r a) rows)) as [vs|] eqn:Evs; [ | discriminate E ]);
    injection E as <-; exact (agg_with sp a u N V g [PName "True"] [ALit (SBool true)] A (fun _ => eq_refl) rows vs Evs).
Qed.
Lemma agg_rate : agg_of SRate (fun u => PBin "/" (PBin "-" (py_F "last" [u]) (py_F "first" [u]))
  (PBin "-" (py_F "max" [py_F "col" [PStr "_time"]]) (py_F "min" [py_F "col" [PStr "_time"]]))).
Proof.
  intros sp a u N V rows w E. cbn [group_value] in E. destruct (all_some (map (fun r => ev sp r a) rows)) as [vs|] eqn:Evs; [ | discriminate E ].
  destruct (forallb not_null vs); [ | discriminate E ]. injection E as <-.
  pose proof (fun g A => agg_with sp a u N V g [] [] A (fun _ => eq_refl) rows vs Evs) as G.
  assert (B : forall op x y v z, agg_val sp rows x = Some v -> agg_val sp rows y = Some z -> bin_val sp op v z = Some (lifted (sp_arith sp op) v z) ->
    agg_val sp rows (PBin op x y) = Some (lifted (sp_arith sp op) v z)) by (intros op x y v z X Y Z; cbn [agg_val]; now rewrite X, Y).
  assert (L : forall op v z, op = "-" \/ op = "/" -> bin_val sp op v z = Some (lifted (sp_arith sp op) v z)).
  { intros op v z [-> | ->]; destruct v, z; reflexivity. }
  apply B; [ | | apply L; now right ]; apply B; try (apply L; now left); try (apply G; reflexivity); apply agg_times; reflexivity.
Qed.
Lemma lib_stat_entries : forall f, str_in f lib_stats = true -> lib_stat_entry f.
Proof.
  intros f H. apply str_in_iff in H. unfold lib_stats in H.
  repeat (destruct H as [<-|H]; [ eexists _, _; split; [ reflexivity | split; [ now vm_compute | split;
    [ intros vs u T; unfold Runtime.stats_call; rewrite T; reflexivity
    | first [ apply agg_plain; reflexivity | apply agg_true; [ reflexivity | auto ] | exact agg_rate ] ] ] ] | ]). contradiction.
Qed.
Lemma agg_label : forall e n g args, aggregation e = Some (n, g, args) -> label e = n /\
  exists f, stat_of f = Some g /\ (e = ECall f args /\ n = f \/ e = EAlias (ECall f args) n).
Proof.
  intros e n g args H. unfold aggregation in H. destruct e as [?|?|?|?|f l|?|e m|?|?|?]; try discriminate H.
  - destruct (stat_of f) as [g'|] eqn:L; [ | discriminate H ]. injection H as <- <- <-. split; [ reflexivity | ]. exists f. auto.
  - destruct e as [?|?|?|?|f l|?|?|?|?|?]; try discriminate H. destruct (stat_of f) as [g'|] eqn:L; [ | discriminate H ].
    injection H as <- <- <-. split; [ reflexivity | ]. exists f. auto.
Qed.
Definition agg_means (sp : Spark) (e : Expr) (t : Py) : Prop :=
  exists n g args u, aggregation e = Some (n, g, args) /\ t = py_method u "alias" [PStr n] /\
    forall rows v, group_value sp g args rows = Some v -> agg_val sp rows u = Some v.
Definition agg_timed (e : Expr) : bool := match aggregation e with Some (_, g, _) => timed g | None => false end.
Lemma lib_agg_ok : forall e, plain_agg e = true -> lib_agg e = true ->
  exists x a, transform_stats_runtime_expr Allow e = Ok (label e, x) /\ plain_rt x = true /\
    lv (snd (rt_prog x)) = Some (VStats (agg_timed e) (Some a)) /\ forall sp, agg_means sp e (py_method a "alias" [PStr (label e)]).
Proof.
  intros e P L. unfold plain_agg in P. destruct (aggregation e) as [[[n g] args]|] eqn:Ea; [ | discriminate P ].
  apply andb_true_iff in P. destruct P as [Pn Pa]. apply andb_true_iff in Pn. destruct Pn as [Pn _]. destruct (agg_label e n g args Ea) as (Lb & f & Lf & S). rewrite Lb.
  assert (T : forall cs, rtraverse (to_spark_expr Allow) args = Ok cs ->
     transform_stats_runtime_expr Allow e = Ok (n, RExpr (PCol (CFunctionCall ("functions.stats." ++ f) cs)))).
  { intros cs H. unfold transform_stats_runtime_expr. destruct S as [[-> ->]| ->]; cbn [expr_unaliased_with_name fst]; rewrite H; reflexivity. }
  assert (K : args = [] /\ f = "count" \/ exists a, args = [a] /\ plain_expr true a = true /\ str_in f lib_stats = true /\ lib_value false a = true).
  { destruct args as [|a [|b args]]; try discriminate Pa.
    - left. split; [ reflexivity | ]. destruct S as [[-> ->]| ->]; now apply String.eqb_eq.
    - right. exists a. split; [ reflexivity | split; [ exact Pa | ] ].
      destruct S as [[-> ->]| ->]; cbn [lib_agg] in L; now apply andb_true_iff in L. }
  destruct K as [[-> ->]|(a & -> & Pe & Ls & La)].
  - injection Lf as <-. eexists. exists (py_F "count" [py_F "lit" [PNum "1"]]). split; [ apply T; reflexivity | ]. split; [ reflexivity | split; [ unfold agg_timed; rewrite Ea; reflexivity | ] ].
    intro sp. eexists _, _, _, _. split; [ exact Ea | split; [ reflexivity | ] ]. intros rows v E.
    cbn [group_value] in E. change (String.eqb "count" "count") with true in E. cbv iota in E. injection E as <-.
    cbn [agg_val py_F]. change (String.eqb "F" "F" && str_in "count" aggregate_functions) with true. cbv iota.
    replace (all_some _) with (Some (map (fun _ : Row => [AVal (SInt 1)]) rows)); [ reflexivity | ].
    symmetry. rewrite <- (all_some_total (fun _ : Row => [AVal (SInt 1)])). reflexivity.
  - destruct (lib_stat_entries f Ls) as (g' & tree & Lg & (D & PP & PI) & C & V). rewrite Lg in Lf. injection Lf as <-.
    destruct (lib_expr_ok a Pe false La) as (c & Ec & Sc). pose proof Sc as (F & Pc & v & u & Lv & St & N & M & Vu).
    eexists. exists (tree u). split; [ apply T; rewrite rtraverse_cons, Ec; reflexivity | ].
    cbn [plain_rt plain_pexpr plain_col rt_prog snd pexpr_tree col_tree map forallb].
    rewrite D, PP. split; [ cbn [forallb]; rewrite Pc; rewrite andb_true_r; exact PI | ]. split.
    + cbn [lv lib_function map all_some]. rewrite Lv. change (String.eqb "functions" "functions") with true. cbv iota.
      change (String.eqb "stats" "eval") with false. change (String.eqb "stats" "stats") with true. cbv iota.
      unfold agg_timed. rewrite Ea. apply C. unfold trees. cbn [map all_some]. now rewrite (stands_arg _ _ _ St).
    + intro sp. exists n, g', [a], (tree u). split; [ exact Ea | split; [ reflexivity | ] ]. intros rows w E.
      exact (V sp a u N (Vu sp) rows w E).
Qed.
Lemma lib_aggs_ok : forall funcs, forallb plain_agg funcs = true -> forallb lib_agg funcs = true ->
  exists kw fs, rtraverse (transform_stats_runtime_expr Allow) funcs = Ok kw /\ map fst kw = map label funcs /\
    forallb (fun kv => plain_rt (snd kv)) kw = true /\
    stats_functions_of (call_kw kw) = Some fs /\
    exists aggs, (forall sp rows ags, all_some (map aggregation funcs) = Some ags -> stats_aggs sp fs rows = Some (in_order sp ags rows, aggs)) /\ forall sp, Forall2 (agg_means sp) funcs aggs.
Proof.
  induction funcs as [|e l IH]; intros P L.
  - exists [], []. repeat split. exists []. split; [ intros sp rows ags E; injection E as <-; reflexivity | constructor ].
  - cbn [forallb] in P, L. apply andb_true_iff in P. destruct P as [P Ps]. apply andb_true_iff in L. destruct L as [L Ls].
    destruct (lib_agg_ok e P L) as (x & a & Ex & Px & Lx & A). destruct (IH Ps Ls) as (kw & fs & Ek & Kf & Pk & Sf & aggs & Ag & F).
    exists ((label e, x) :: kw), ((label e, (agg_timed e, Some a)) :: fs). rewrite rtraverse_cons, Ex, Ek. cbn [rbind map fst snd forallb]. rewrite Kf, Px, Pk.
    split; [ reflexivity | split; [ reflexivity | split; [ reflexivity | split ] ] ].
    { unfold stats_functions_of, call_kw in *. cbn [map all_some fst snd]. rewrite Lx. now rewrite Sf. }
    exists (py_method a "alias" [PStr (label e)] :: aggs). split.
    + intros sp rows ags E. cbn [map all_some] in E. unfold agg_timed. destruct (aggregation e) as [[[n g] args]|]; [ | discriminate E ].
      destruct (all_some (map aggregation l)) as [ags'|]; [ | discriminate E ]. injection E as <-. cbn [stats_aggs in_order fst snd].
      now rewrite (Ag _ _ ags' eq_refl).
    + intro sp. constructor; [ apply A | apply F ].
Qed.
Lemma aggregate_trees : forall sp funcs ts keys rows out aggs, Forall2 (agg_means sp) funcs ts -> all_some (map aggregation funcs) = Some aggs ->
  all_some (map (fun k => option_map (app (combine keys k))
          (all_some (map (fun a => option_map (pair (fst (fst a))) (group_value sp (snd (fst a)) (snd a) (group_rows keys rows k))) aggs)))
        (match keys with [] => [[]] | _ => distinct_keys [] (map (key_of keys) rows) end)) = Some out ->
  aggregate sp keys rows ts = Some out.
Proof.
  intros sp funcs ts keys rows out aggs A E G. unfold aggregate.
  assert (K : exists named, all_some (map (fun a => option_map (fun n => (n, unalias a)) (out_name a)) ts) = Some named /\
     Forall2 (fun a na => fst na = fst (fst a) /\ forall rows v, group_value sp (snd (fst a)) (snd a) rows = Some v -> agg_val sp rows (snd na) = Some v) aggs named).
  { clear G out. revert aggs E. induction A as [|e c l cs (n & g & args & t & Ea & Et & V) _ IH]; intros aggs E.
    - injection E as <-. exists []. split; [ reflexivity | constructor ].
    - cbn [map all_some] in *. rewrite Ea in E. destruct (all_some (map aggregation l)) as [aggs'|]; [ | discriminate E ]. injection E as <-.
      destruct (IH aggs' eq_refl) as (named & E1 & F). rewrite E1. exists ((n, t) :: named). split.
      + rewrite Et. reflexivity.
      + constructor; [ split; [ reflexivity | exact V ] | exact F ]. }
  destruct K as (named & -> & F).
  eapply all_some_ext; [ exact G | ]. intros k row Hk Hr. cbv beta in *.
  destruct (all_some (map (fun a => option_map (pair (fst (fst a))) (group_value sp (snd (fst a)) (snd a) (group_rows keys rows k))) aggs)) as [cells|] eqn:Ec; [ | discriminate Hr ].
  replace (all_some (map (fun na => option_map (pair (fst na)) (agg_val sp (group_rows keys rows k) (snd na))) named)) with (Some cells); [ exact Hr | ].
  symmetry. clear - F Ec. revert cells Ec. induction F as [|a na aggs named [E V] _ IH]; intros cells Ec; [ exact Ec | ].
  cbn [map all_some] in *. destruct (group_value sp (snd (fst a)) (snd a) (group_rows keys rows k)) as [v|] eqn:Ev; [ | discriminate ].
  rewrite (V _ _ Ev), E. cbn [option_map] in *. destruct (all_some (map _ aggs)) as [l|]; [ | discriminate ]. now rewrite (IH l eq_refl).
Qed.
(** Fields after BY *)
Lemma lib_by_ok : forall by_ keys, by_names by_ = Some keys -> lib_by by_ = true ->
  forallb (fun kv => plain_rt (snd kv)) (by_runtime by_) = true /\ map fst (by_runtime by_) = by_keyword by_ /\
  by_columns (keyword "by" (call_kw (by_runtime by_))) = Some keys.
Proof.
  intros [l|] keys E L; [ | injection E as <-; repeat split ]. cbn [by_runtime forallb map fst snd plain_rt lib_by by_keyword] in *.
  split; [ | split; [ reflexivity | ] ].
  - rewrite andb_true_r. revert keys E. induction l as [|f l IH]; intros keys E; [ reflexivity | ]. cbn [by_names map all_some forallb] in *.
    apply andb_true_iff in L. destruct L as [Lf L]. unfold transform_by_field at 1. destruct (msf_span f); [ discriminate E | ].
    cbn [runtime_of_con plain_rt plain_pexpr plain_col]. rewrite Lf. destruct (all_some _) as [ks|] eqn:Ek; [ | discriminate E ]. now apply (IH L ks).
  - unfold call_kw, keyword. cbn [map fst snd lookup_in rt_prog]. change (String.eqb "by" "by") with true. cbv iota. cbn [by_columns]. rewrite !map_map.
    revert keys E. induction l as [|f l IH]; intros keys E; [ exact E | ]. cbn [by_names map all_some forallb] in *.
    apply andb_true_iff in L. destruct L as [_ L]. unfold transform_by_field at 1. destruct (msf_span f); [ discriminate E | ].
    destruct (all_some (map (fun f => match msf_span f with None => Some (msf_field f) | Some _ => None end) l)) as [ks|] eqn:Ek; [ | discriminate E ].
    rewrite (IH L ks eq_refl). exact E.
Qed.

Section Calls.
  Variable sp : Spark.
  Variable db : string -> option Table.
  Variable column_type : Table -> string -> option string.
  Notation library := (library sp db column_type).
  Notation lib_at := (lib_at sp db column_type).

  (** What a command in a pipeline, after the data frame [s], is translated to *)
  Definition reaches (env : Env) (c : Command) (s : tstate) (out : Table) : Prop :=
    forall st, exists st' d, transform_command env c s st = (st', Ok (Some d)) /\ lib_at d out /\ operand d = true.

  Lemma at_plain : forall d rows, lib_at d rows -> plain_df d = true.
  Proof. intros d rows (vars & pre & t & P & _). exact P. Qed.
  Lemma search_call : forall env e d rows out, env_rt env = Allow -> plain_search e = true -> lib_conditions (conjuncts e) = true ->
    lib_at d rows -> operand d = true -> search_rows sp e rows = Some out -> reaches env (CSearch e) (Some d) out.
  Proof.
    intros env e d rows out R P C D O E st. unfold lib_conditions in C. apply andb_true_iff in C. destruct C as [C Di].
    destruct (conditions_carried (conjuncts e) (conjuncts_plain e P) C) as (l & exprs & fields & El & P1 & P2 & K & N & X & F & V).
    exists (mkSt (S (st_df st)) (st_hash st)), (DRuntime ("df_" ++ dec_nat (st_df st)) (Some d) "search" (lefts l) (rights l)).
    split; [ | split; [ | reflexivity ] ].
    - cbn [transform_command]. rewrite R. cbn [select_rt]. unfold or_else, t_search_runtime, bind, lift, d_runtime, bind, unique_name, ret.
      rewrite conjuncts_same, El. reflexivity.
    - apply (call_at sp db column_type d rows); [ exact D | | ].
      + apply plain_call; [ reflexivity | | exact P1 | exact P2 | now rewrite K ]. rewrite O. exact (at_plain d rows D).
      + unfold Runtime.library. change (String.eqb "search" "search") with true. cbv iota. unfold Runtime.run_search.
        rewrite call_kw_fst, K. rewrite str_in_none by (intro I; destruct (N _ I); congruence).
        rewrite X, others_keep, F.
        * rewrite (search_keeps sp (conjuncts e) exprs fields rows e out (V sp) (fun row => conjuncts_true sp row e) P E). reflexivity.
        * intros f I. rewrite call_kw_fst, K in I. now apply N.
  Qed.

  Lemma lookup_params : forall ks a n b, (forall f, In f (a ++ b)%list -> str_in f search_params = false) -> incl ks search_params ->
    forall k kwa kwb, In k ks -> map fst kwa = a -> map fst kwb = b ->
    Runtime.text_keyword k (kwa ++ ("index", PStr n) :: kwb)%list = Some (if String.eqb k "index" then Some n else None).
  Proof.
    intros ks a n b N I k kwa kwb K Ea Eb. apply I in K. unfold Runtime.text_keyword, keyword. rewrite lookup_app.
    assert (A : forall l kw, map fst kw = l -> (forall f, In f l -> str_in f search_params = false) -> lookup_in k (kw : list (string * Py)) = None).
    { intros l kw <- H. apply lookup_none. intro J. specialize (H k J). apply str_in_iff in K. congruence. }
    rewrite (A a kwa Ea) by (intros; apply N, in_or_app; now left). cbn [lookup_in].
    destruct (String.eqb k "index"); [ reflexivity | ]. rewrite (A b kwb Eb) by (intros; apply N, in_or_app; now right). reflexivity.
  Qed.
  Lemma search_starts : forall env e n c rows out, env_rt env = Allow -> take_index e = Some (n, c) -> String.eqb n "" = false ->
    plain_between dquote n = true ->
    match c with Some x => plain_search x && lib_conditions (conjuncts x) | None => true end = true ->
    db n = Some rows -> match c with Some x => search_rows sp x rows | None => Some rows end = Some out -> reaches env (CSearch e) None out.
  Proof.
    intros env e n c rows out R T Nn Pn P Edb E st. destruct (index_conjunct e n c T) as (a & b & l & op & r & Ec & It & Rest).
    assert (C : forallb plain_search (a ++ b) = true /\ lib_conditions (a ++ b) = true).
    { destruct c as [x|]; [ | destruct Rest as [-> ->]; now split ]. apply andb_true_iff in P. destruct P as [P1 P2]. rewrite <- Rest.
      split; [ now apply conjuncts_plain | exact P2 ]. }
    destruct C as [C1 C2]. unfold lib_conditions in C2. apply andb_true_iff in C2. destruct C2 as [C2 Di].
    destruct (conditions_carried (a ++ b) C1 C2) as (lab & exprs & fields & El & P1 & P2 & K & N & X & F & V).
    destruct (rtraverse_app _ _ _ _ _ _ El) as (la & lb & -> & Ea & Eb).
    rewrite lefts_app in *. rewrite rights_app in *.
    assert (Eall : rtraverse (search_runtime_arg Allow) (conjuncts e) = Ok (la ++ inr ("index", RExpr (pylit_str n)) :: lb)%list).
    { rewrite Ec. apply rtraverse_app_ok; [ exact Ea | ]. rewrite rtraverse_cons, (index_arg l op r n Allow It), Eb. reflexivity. }
    assert (Le : lefts (la ++ inr ("index", RExpr (pylit_str n)) :: lb)%list = (lefts la ++ lefts lb)%list) by (now rewrite lefts_app).
    assert (Re : rights (la ++ inr ("index", RExpr (pylit_str n)) :: lb)%list = (rights la ++ ("index", RExpr (pylit_str n)) :: rights lb)%list) by (now rewrite rights_app).
    assert (Ni : forall f, In f (map fst (rights la ++ rights lb)) -> str_in f search_params = false) by (intros f I; rewrite K in I; now apply N).
    assert (NI : ~ In "index" (map fst (rights la ++ rights lb))) by (intro I; specialize (Ni _ I); discriminate Ni).
    exists (mkSt (S (st_df st)) (st_hash st)), (DRuntime ("df_" ++ dec_nat (st_df st)) None "search" (lefts la ++ lefts lb) (rights la ++ ("index", RExpr (pylit_str n)) :: rights lb)).
    split; [ | split; [ | reflexivity ] ].
    - cbn [transform_command]. rewrite R. cbn [select_rt]. unfold or_else, t_search_runtime, bind, lift, d_runtime, bind, unique_name, ret.
      rewrite conjuncts_same, Eall. rewrite Le, Re. reflexivity.
    - apply (first_at sp db column_type).
      + apply plain_call; [ reflexivity | reflexivity | exact P1 | | ].
        * rewrite forallb_app in P2. apply andb_true_iff in P2. destruct P2 as [Pa Pb]. rewrite forallb_app. cbn [forallb fst snd plain_rt pylit_str plain_pexpr].
          rewrite Pa, Pb, (quoted_plain n Pn). reflexivity.
        * rewrite map_app. cbn [map fst]. rewrite map_app in K, NI. apply distinct_insert; [ now rewrite K | exact NI ].
      + unfold Runtime.library. change (String.eqb "search" "search") with true. cbv iota. unfold Runtime.run_search.
        rewrite call_kw_fst. rewrite str_in_none.
        2:{ rewrite map_app. cbn [map fst]. intro I. apply in_app_or in I. destruct I as [I|[I|I]]; [ | discriminate I | ];
              (destruct (N "df") as [_ H]; [ rewrite <- K, map_app; apply in_or_app; auto | congruence ]). }
        rewrite X.
        assert (Kw : call_kw (rights la ++ ("index", RExpr (pylit_str n)) :: rights lb) = (call_kw (rights la) ++ ("index", PStr n) :: call_kw (rights lb))%list).
        { unfold call_kw. rewrite map_app. cbn [map fst snd rt_prog pylit_str pexpr_tree]. now rewrite quoted_between. }
        assert (O : others search_params (call_kw (rights la ++ ("index", RExpr (pylit_str n)) :: rights lb)) = call_kw (rights la ++ rights lb)).
        { rewrite Kw. unfold others. rewrite filter_app. cbn [filter fst]. change (str_in "index" search_params) with true. cbn [negb].
          rewrite map_app in Ni. pose proof (others_keep search_params) as OK. unfold others in OK. rewrite !OK; [ unfold call_kw; now rewrite map_app | | ];
            intros f I; rewrite call_kw_fst in I; apply Ni, in_or_app; auto. }
        rewrite O, F.
        assert (L : Runtime.search_lookup sp db (call_kw (rights la ++ ("index", RExpr (pylit_str n)) :: rights lb)) = Some rows).
        { unfold Runtime.search_lookup. rewrite Kw. rewrite map_app in Ni.
          rewrite (map_ext_in (fun k => Runtime.text_keyword k _) (fun k => Some (if String.eqb k "index" then Some n else None))).
          2:{ intros k I. exact (lookup_params search_params _ n _ Ni (incl_refl _) k (call_kw (rights la)) (call_kw (rights lb)) I (call_kw_fst _) (call_kw_fst _)). }
          rewrite all_some_total. cbn [map search_params]. cbn [String.eqb Ascii.eqb Bool.eqb]. unfold table_lookup. cbn [Runtime.lk_index].
          destruct n as [|ch n]; [ discriminate Nn | ]. cbn [Runtime.given]. rewrite Edb. reflexivity. }
        rewrite L. cbn [obind]. destruct c as [x|].
        * apply andb_true_iff in P. destruct P as [Px _].
          rewrite (search_keeps sp (a ++ b)%list exprs fields rows x out (V sp)); [ reflexivity | | exact Px | exact E ].
          intro row. rewrite <- Rest. apply conjuncts_true.
        * injection E as <-. destruct Rest as [-> ->]. cbn [app] in El. injection Ea as <-. injection Eb as <-. cbn in X, F. injection X as <-. injection F as <-.
          assert (KR : keep_where sp (search_condition [] []) rows = Some rows); [ | now rewrite KR ].
          apply (keep_ok sp (fun _ => Some (SBool true)) _ rows rows).
          -- clear. induction rows as [|q rows IH]; [ reflexivity | ]. cbn [rows_where]. now rewrite IH.
          -- intros q v _ Hv. injection Hv as <-. exists (SBool true). repeat split; discriminate.
  Qed.

  (** ** eval *)
  Lemma eval_args : forall l, forallb (fun ne => plain_name_text (fst ne) && plain_expr true (snd ne)) l = true ->
    forallb (fun ne => py_ident (fst ne) && negb (String.eqb (fst ne) "df") && lib_value false (snd ne)) l = true ->
    exists kw us, rtraverse (fun fe => let? c := eval_column Allow (snd fe) in Ok (fst fe, RExpr (PCol (cl_unaliased c)))) l = Ok kw /\
      map fst kw = map fst l /\ forallb (fun kv => py_ident (fst kv) && plain_rt (snd kv)) kw = true /\ ~ In "df" (map fst l) /\
      named_exprs (call_kw kw) = Some us /\
      forall rows out, all_some (map (assign sp l) rows) = Some out -> with_columns sp us rows = Some out.
  Proof.
    induction l as [|[n e] l IH]; intros P L.
    - exists [], []. repeat split; [ tauto | ]. intros rows out E. change (assign sp []) with (fun r : Row => Some r) in E.
      rewrite (all_some_total (fun r => r)), map_id in E. exact E.
    - cbn [forallb fst snd] in P, L. apply andb_true_iff in P. destruct P as [P Pl]. apply andb_true_iff in P. destruct P as [Pn Pe].
      apply andb_true_iff in L. destruct L as [L Ll]. apply andb_true_iff in L. destruct L as [L Le]. apply andb_true_iff in L. destruct L as [Li Ld].
      destruct (lib_expr_ok e Pe false Le) as (c & Ec & Sc). destruct (IH Pl Ll) as (kw & us & Ek & Kf & Pk & Nd & Nm & W).
      destruct (lsem_arg _ _ _ Sc) as (u & Lu & _ & _ & V).
      exists ((n, RExpr (PCol c)) :: kw), ((n, u) :: us). rewrite rtraverse_cons. unfold eval_column at 1. cbn [fst snd]. rewrite Ec. cbn [rbind].
      rewrite (flat_cl c (proj1 Sc)), Ek. cbn [rbind map fst snd forallb plain_rt plain_pexpr]. rewrite Kf, Li, Pk, (proj1 (proj2 Sc)).
      split; [ reflexivity | split; [ reflexivity | split; [ reflexivity | split; [ | split ] ] ] ].
      + intros [H|H]; [ subst n; discriminate Ld | tauto ].
      + unfold named_exprs, call_kw in *. cbn [map all_some fst snd rt_prog pexpr_tree]. rewrite Lu. cbn [swap snd fst]. now rewrite Nm.
      + intros rows out E. destruct (all_some_split (fun r => option_map (fun v => set_cell n v r) (ev sp r e)) (assign sp l) rows out) as (mid & E1 & E2).
        { rewrite <- E. f_equal. apply map_ext. intro r. cbn [assign]. now destruct (ev sp r e). }
        cbn [with_columns]. unfold map_rows.
        rewrite (all_some_ext _ (fun r => option_map (fun v => set_cell n v r) (cv sp r u)) rows mid E1).
        * cbn [obind]. now apply W.
        * intros r w Hr Hw. cbv beta in *. destruct (ev sp r e) as [v|] eqn:Ev; [ | discriminate Hw ]. now rewrite (V sp r v Ev).
  Qed.
  Lemma eval_calls : forall env l d rows out, env_rt env = Allow -> call_command (CEval l) = true ->
    lib_at d rows -> operand d = true -> all_some (map (assign sp l) rows) = Some out -> reaches env (CEval l) (Some d) out.
  Proof.
    intros env l d rows out R C D O E st. unfold call_command in C. apply andb_true_iff in C. destruct C as [P C]. apply andb_true_iff in C. destruct C as [C Di].
    destruct (eval_args l P C) as (kw & us & Ek & Kf & Pk & Nd & Nm & W).
    exists (mkSt (S (st_df st)) (st_hash st)), (DRuntime ("df_" ++ dec_nat (st_df st)) (Some d) "eval" [] kw).
    split; [ | split; [ | reflexivity ] ].
    - cbn [transform_command]. rewrite R. cbn [select_rt]. unfold or_else, t_eval_runtime, bind, lift, d_runtime, bind, unique_name, ret. now rewrite Ek.
    - apply (call_at sp db column_type d rows); [ exact D | | ].
      + apply plain_call; [ reflexivity | | reflexivity | exact Pk | now rewrite Kf ]. rewrite O. exact (at_plain d rows D).
      + unfold Runtime.library. change (String.eqb "eval" "search") with false. change (String.eqb "eval" "eval") with true. cbv iota. unfold Runtime.run_eval.
        rewrite call_kw_fst, Kf, (str_in_none _ _ Nd), Nm. cbn [call_args map]. now rewrite (W rows out E).
  Qed.

  (** ** stats and tstats *)
  Lemma keep_labels : forall taken pre kw, (forall f, In f (map fst kw) -> str_in f taken = false) -> (forall f, In f (map fst pre) -> str_in f taken = true) ->
    others taken (call_kw (pre ++ kw)) = call_kw kw.
  Proof.
    intros taken pre kw H G. unfold call_kw. rewrite map_app. unfold others. rewrite filter_app.
    assert (A : filter (fun kv => negb (str_in (fst kv) taken)) (map (fun kv => (fst kv, snd (rt_prog (snd kv)))) pre) = []).
    { clear H. induction pre as [|[k v] pre IH]; [ reflexivity | ]. cbn [map filter fst]. rewrite (G k) by (now left). cbn [negb]. apply IH. intros; apply G; now right. }
    rewrite A. cbn [app]. apply (others_keep taken (call_kw kw)). intros f I. rewrite call_kw_fst in I. now apply H.
  Qed.
  Lemma labels_ok : forall taken funcs, lib_aggs taken funcs = true -> forallb lib_agg funcs = true /\ distinct (map label funcs) = true /\
    (forall f, In f (map label funcs) -> py_ident f = true /\ str_in f taken = false).
  Proof.
    intros taken funcs H. unfold lib_aggs in H. apply andb_true_iff in H. destruct H as [H D]. apply andb_true_iff in H. destruct H as [A L].
    split; [ exact A | split; [ exact D | ] ]. intros f I. rewrite forallb_forall in L. specialize (L f I). apply andb_true_iff in L. destruct L as [L1 L2].
    split; [ exact L1 | now apply negb_true_iff ].
  Qed.
  Lemma idents : forall kw, (forall f, In f (map fst kw) -> py_ident f = true) -> forallb (fun kv : string * RuntimeExpr => plain_rt (snd kv)) kw = true ->
    forallb (fun kv => py_ident (fst kv) && plain_rt (snd kv)) kw = true.
  Proof.
    intros kw H P. rewrite forallb_forall in *. intros kv I. rewrite (P kv I), (H (fst kv)); [ reflexivity | ]. now apply in_map.
  Qed.
  Lemma distinct_app : forall a b, distinct a = true -> distinct b = true -> (forall x, In x a -> ~ In x b) -> distinct (a ++ b)%list = true.
  Proof.
    induction a as [|x a IH]; intros b A B H; [ exact B | ]. cbn [app distinct] in *. apply andb_true_iff in A. destruct A as [A1 A2].
    rewrite IH; [ | exact A2 | exact B | intros; apply H; now right ]. rewrite andb_true_r. apply negb_true_iff, str_in_none. intro I. apply in_app_or in I.
    destruct I as [I|I]; [ apply str_in_iff in I; rewrite I in A1; discriminate A1 | now apply (H x); [ left | ] ].
  Qed.
  Lemma stats_value : forall funcs by_ keys rows out fs aggs, by_names by_ = Some keys -> stats_rows sp funcs by_ rows = Some out ->
    nonempty_list funcs = true -> (forall ags, all_some (map aggregation funcs) = Some ags -> stats_aggs sp fs rows = Some (in_order sp ags rows, aggs)) ->
    Forall2 (agg_means sp) funcs aggs ->
    Runtime.stats sp rows keys fs = Some (OFrame None out).
  Proof.
    intros funcs by_ keys rows out fs aggs B E N S F. unfold Runtime.stats. unfold stats_rows in E. rewrite B in E.
    destruct (all_some (map aggregation funcs)) as [ags|] eqn:Ea; [ | discriminate E ]. rewrite (S ags eq_refl).
    destruct aggs as [|a aggs]; [ inversion F; subst; discriminate N | ]. cbv zeta in E. now rewrite (aggregate_trees sp funcs _ keys _ out ags F Ea E).
  Qed.
  Lemma stats_calls : forall env o funcs by_ d rows out, env_rt env = Allow -> call_command (CStats o funcs by_) = true ->
    lib_at d rows -> operand d = true -> stats_rows sp funcs by_ rows = Some out -> reaches env (CStats o funcs by_) (Some d) out.
  Proof.
    intros env o funcs by_ d rows out R C D O E st. unfold call_command in C. apply andb_true_iff in C. destruct C as [P C]. apply andb_true_iff in C. destruct C as [La Lb].
    cbn [plain1] in P. apply andb_true_iff in P. destruct P as [P _]. apply andb_true_iff in P. destruct P as [Pn Pf].
    destruct (labels_ok _ _ La) as (Lg & Di & Fr). destruct (lib_aggs_ok funcs Pf Lg) as (kw & fs & Ek & Kf & Pk & Sf & aggs & Ag & F).
    assert (B : exists keys, by_names by_ = Some keys) by (unfold stats_rows in E; destruct (all_some (map aggregation funcs)); [ | discriminate E ]; destruct (by_names by_); [ eauto | discriminate E ]).
    destruct B as (keys & B). destruct (lib_by_ok by_ keys B Lb) as (Pb & Kb & Cb).
    assert (Ib : forall f, In f (map fst (by_runtime by_)) -> f = "by") by (intros f I; rewrite Kb in I; destruct by_; cbn in I; tauto || (destruct I; auto; contradiction)).
    exists (mkSt (S (st_df st)) (st_hash st)), (DRuntime ("df_" ++ dec_nat (st_df st)) (Some d) "stats" [] (by_runtime by_ ++ kw)).
    split; [ | split; [ | reflexivity ] ].
    - cbn [transform_command]. rewrite R. cbn [select_rt]. unfold or_else, t_stats_runtime, bind, lift, d_runtime, bind, unique_name, ret. now rewrite Ek.
    - apply (call_at sp db column_type d rows); [ exact D | | ].
      + apply plain_call; [ reflexivity | | reflexivity | | ].
        * rewrite O. exact (at_plain d rows D).
        * apply idents; [ | now rewrite forallb_app, Pb, Pk ]. intros f I. rewrite map_app in I. apply in_app_or in I. destruct I as [I|I]; [ rewrite (Ib f I); reflexivity | ].
          rewrite Kf in I. now apply Fr.
        * rewrite map_app, Kf, Kb. apply distinct_app; [ now destruct by_ | exact Di | ]. rewrite <- Kb. intros x I J. rewrite (Ib x I) in J. destruct (Fr _ J) as [_ H]. discriminate H.
      + unfold Runtime.library. change (String.eqb "stats" "search") with false. change (String.eqb "stats" "eval") with false. change (String.eqb "stats" "fill_null") with false.
        change (String.eqb "stats" "stats") with true. cbv iota. unfold Runtime.run_stats.
        rewrite call_kw_fst, str_in_none.
        2:{ rewrite map_app. intro I. apply in_app_or in I. destruct I as [I|I]; [ specialize (Ib _ I); discriminate Ib | ]. rewrite Kf in I. destruct (Fr _ I) as [_ H]. discriminate H. }
        rewrite (keep_labels ["by"] (by_runtime by_) kw), Sf.
        2:{ intros f I. rewrite Kf in I. destruct (Fr f I) as [_ H]. unfold str_in in *. cbn [existsb] in *. now rewrite orb_false_iff in H. }
        2:{ intros f I. now rewrite (Ib f I). }
        assert (K : keyword "by" (call_kw (by_runtime by_ ++ kw)) = keyword "by" (call_kw (by_runtime by_))).
        { unfold call_kw, keyword. rewrite map_app, lookup_app. destruct (lookup_in "by" (map _ (by_runtime by_))); [ reflexivity | ].
          apply lookup_none. change (map (fun kv => (fst kv, snd (rt_prog (snd kv)))) kw) with (call_kw kw). rewrite call_kw_fst, Kf. intro I. destruct (Fr _ I) as [_ H]. discriminate H. }
        rewrite K, Cb. cbn [call_args map]. exact (stats_value funcs by_ keys rows out fs aggs B E Pn (Ag sp rows) (F sp)).
  Qed.

  Lemma where_keeps : forall e col c rows out, lsem col c (ev_of e) -> rows_where (fun r => ev sp r e) rows = Some out ->
    exists u, lib_expr (col_tree c) = Some u /\ keep_where sp u rows = Some out.
  Proof.
    intros e col c rows out S E. destruct (lsem_arg _ _ _ S) as (u & L & _ & _ & V). exists u. split; [ exact L | ].
    apply (keep_ok sp _ _ rows out E). intros r v I Hv. destruct (rows_where_truth _ rows out r E I) as (w & Hw & T). rewrite Hv in Hw. injection Hw as <-.
    exists v. split; [ now apply V | now split ].
  Qed.
  Lemma split_nonempty : forall s, split_on "." s <> [].
  Proof. intros [|c s]; [ discriminate | ]. cbn [split_on]. destruct (Ascii.eqb "." c); [ discriminate | ]. now destruct (split_on "." s). Qed.
  Lemma join_split : forall s, join "." (split_on "." s) = s.
  Proof.
    induction s as [|c s IH]; [ reflexivity | ]. cbn [split_on]. destruct (Ascii.eqb "." c) eqn:E.
    - apply Ascii.eqb_eq in E. subst c. cbn [join]. destruct (split_on "." s) eqn:S; [ elim (split_nonempty s S) | ]. now rewrite IH.
    - destruct (split_on "." s) as [|h t] eqn:S; [ cbn [join] in IH; now subst s | ]. destruct t as [|u t]; [ cbn [join] in *; now rewrite IH | ].
      change (join "." (String c h :: u :: t)) with (String c (h ++ "." ++ join "." (u :: t))). f_equal. exact IH.
  Qed.
  Lemma text_assoc : forall a b c : string, ((a ++ b) ++ c = a ++ b ++ c)%string.
  Proof. induction a as [|x a IH]; intros b c; [ reflexivity | ]. cbn [append]. now rewrite IH. Qed.
  Lemma join_two : forall a b, a <> [] -> b <> [] -> join "." (a ++ b)%list = (join "." a ++ "." ++ join "." b)%string.
  Proof.
    induction a as [|x a IH]; intros b A B; [ congruence | ]. destruct a as [|y a].
    - cbn [app]. destruct b as [|z b]; [ congruence | reflexivity ].
    - change ((x :: y :: a) ++ b)%list with (x :: (y :: a) ++ b)%list. specialize (IH b ltac:(discriminate) B).
      change (join "." (x :: (y :: a) ++ b)%list) with (x ++ "." ++ join "." ((y :: a) ++ b)%list)%string. rewrite IH.
      change (join "." (x :: y :: a)) with (x ++ "." ++ join "." (y :: a))%string. now rewrite !text_assoc.
  Qed.
  Lemma after_tail : forall s rest, after_dot s = Some rest -> tl (split_on "." s) <> [].
  Proof.
    induction s as [|c s IH]; intros rest H; [ discriminate H | ]. cbn [after_dot] in H. cbn [split_on].
    rewrite Ascii.eqb_sym in H. destruct (Ascii.eqb "." c) eqn:E.
    - cbn [tl]. apply split_nonempty.
    - destruct (split_on "." s) as [|h t] eqn:S; [ elim (split_nonempty s S) | ]. cbn [tl] in *. now apply (IH rest).
  Qed.
  Lemma model_table : forall m n t rows, dataset_table (Some m) n = Some t -> String.eqb t "" = false -> db t = Some rows ->
    Runtime.data_model sp db m n = Some rows.
  Proof.
    intros m n t rows T N E.
    assert (J : join "." (split_on "." m ++ tl (split_on "." (match n with Some d => d | None => "" end))) = t).
    { destruct n as [n|]; cbn [dataset_table] in T.
      - destruct (after_dot n) as [rest|] eqn:A; [ | discriminate T ]. injection T as <-.
        rewrite join_two; [ | apply split_nonempty | now apply (after_tail n rest) ]. now rewrite join_split, (split_dot n rest A).
      - injection T as <-. cbn [split_on tl]. rewrite app_nil_r. apply join_split. }
    unfold Runtime.data_model. rewrite J. unfold table_lookup. cbn [Runtime.lk_index]. destruct t as [|ch t]; [ discriminate N | ]. cbn [Runtime.given].
    rewrite E. reflexivity.
  Qed.

  Lemma tstats_starts : forall env o funcs m n w b t pre rows out, env_rt env = Allow ->
    first_call (CTStats o funcs m n w b None) = true -> same_as (CTStats o funcs m n w b None) = Some (t, pre) ->
    db t = Some rows -> run1 sp pre rows = Some out -> reaches env (CTStats o funcs m n w b None) None out.
  Proof.
    intros env o funcs m n w b t pre rows out R C H Edb E st. cbn [first_call] in C. rewrite H in C. cbn [same_as] in H.
    destruct (tst_prestats o || _ || _ || _ || _) eqn:Opt; [ discriminate H | ].
    destruct (dataset_table m n) as [t'|] eqn:T; [ | discriminate H ]. cbn [option_map] in H. injection H as -> <-.
    repeat (apply andb_true_iff in C; let X := fresh "C" in destruct C as [C X]). apply negb_true_iff in C.
    destruct m as [m|]; [ | discriminate T ].
    assert (Ok1 : tstats_ok o = true).
    { unfold tstats_ok. destruct (tst_prestats o), (tst_local o), (tst_append o), (tst_include_reduced_buckets o); try discriminate Opt; reflexivity. }
    assert (Fn : tst_fill_null_value o = None) by (destruct (tst_fill_null_value o); [ rewrite orb_true_r in Opt; discriminate Opt | reflexivity ]).
    set (w' := match w with Some e => let? x := to_spark_expr Allow e in Ok [("where", RExpr x)] | None => Ok [] end).
    assert (W : exists kw mid, w' = Ok kw /\ forallb (fun kv => plain_rt (snd kv)) kw = true /\ (forall f, In f (map fst kw) -> f = "where") /\
       distinct (map fst kw) = true /\
       match keyword "where" (call_kw kw) with None => Some rows | Some x => obind (lib_expr x) (fun c => obind (Some rows) (keep_where sp c)) end = Some mid /\
       step1 sp (CStats (mkStatsOpts 1 false " " false) funcs b) mid = Some out /\ plain1 (CStats (mkStatsOpts 1 false " " false) funcs b) = true).
    { unfold w'. destruct w as [e|].
      - cbn [app forallb run1 step1] in C5, E. apply andb_true_iff in C5. destruct C5 as [Pe Ps]. apply andb_true_iff in Ps. destruct Ps as [Ps _].
        destruct (rows_where (fun r => ev sp r e) rows) as [mid|] eqn:Er; [ | discriminate E ].
        destruct (lib_expr_ok e Pe false C2) as (c & Ec & Sc). rewrite Ec. cbn [rbind]. destruct (where_keeps e false c rows mid Sc Er) as (u & Lu & Ku).
        exists [("where", RExpr (PCol c))], mid. split; [ reflexivity | split; [ cbn; now rewrite (proj1 (proj2 Sc)) | ] ].
        split; [ intros f [<-|[]]; reflexivity | split; [ reflexivity | split ] ].
        + unfold keyword. cbn. rewrite Lu. exact Ku.
        + split; [ | exact Ps ]. cbn [step1]. destruct (stats_rows sp funcs b mid); [ exact E | discriminate E ].
      - cbn [app forallb run1] in C5, E. apply andb_true_iff in C5. destruct C5 as [Ps _]. exists [], rows.
        split; [ reflexivity | split; [ reflexivity | split; [ contradiction | split; [ reflexivity | split; [ reflexivity | split; [ | exact Ps ] ] ] ] ] ].
        destruct (step1 sp _ rows); [ exact E | discriminate E ]. }
    destruct W as (kww & mid & Ew & Pw & Iw & Dw & Vw & Es & Ps). cbn [plain1] in Ps. apply andb_true_iff in Ps. destruct Ps as [Ps _]. apply andb_true_iff in Ps. destruct Ps as [Pn Pf].
    cbn [step1] in Es.
    destruct (labels_ok _ _ C1) as (Lg & Di & Fr). destruct (lib_aggs_ok funcs Pf Lg) as (kw & fs & Ek & Kf & Pk & Sf & aggs & Ag & F).
    assert (B : exists keys, by_names b = Some keys) by (unfold stats_rows in Es; destruct (all_some (map aggregation funcs)); [ | discriminate Es ]; destruct (by_names b); [ eauto | discriminate Es ]).
    destruct B as (keys & B). destruct (lib_by_ok b keys B C0) as (Pb & Kb & Cb).
    assert (Ib : forall f, In f (map fst (by_runtime b)) -> f = "by") by (intros f I; rewrite Kb in I; destruct b; cbn in I; tauto || (destruct I; auto; contradiction)).
    set (frm := ("from_", RDict [("datamodel", opt_pylit (Some m)); ("nodename", opt_pylit n)])).
    set (pre := ([frm] ++ [] ++ kww ++ by_runtime b)%list).
    assert (Ip : forall f, In f (map fst pre) -> f = "from_" \/ f = "where" \/ f = "by").
    { intros f I. unfold pre in I. cbn [app map fst] in I. rewrite map_app in I. destruct I as [<-|I]; [ now left | ]. apply in_app_or in I. destruct I as [I|I]; [ right; left; now apply Iw | right; right; now apply Ib ]. }
    exists (mkSt (S (st_df st)) (st_hash st)), (DRuntime ("df_" ++ dec_nat (st_df st)) None "tstats" [] (pre ++ kw)).
    split; [ | split; [ | reflexivity ] ].
    - cbn [transform_command]. rewrite R. cbn [select_rt]. unfold or_else, t_tstats_runtime, bind, lift, d_runtime, bind, unique_name, ret.
      rewrite Ok1, Fn. cbn [ensure]. fold w'. rewrite Ew, Ek. unfold pre. cbn [app]. now rewrite app_assoc.
    - assert (Pt : forallb (fun kv => plain_rt (snd kv)) (pre ++ kw) = true).
      { rewrite forallb_app, Pk, andb_true_r. unfold pre. cbn [app forallb snd frm plain_rt]. rewrite forallb_app, Pw, Pb. cbn [fst snd opt_pylit pylit_opt_str plain_rt plain_pexpr forallb].
        unfold pylit_str at 1. cbn [plain_pexpr]. rewrite (quoted_plain m C4). destruct n as [n|]; [ | reflexivity ]. cbn [pylit_opt_str pylit_str plain_pexpr]. rewrite (quoted_plain n C3). reflexivity. }
      assert (Nl : forall f, In f (map fst kw) -> str_in f ["df"; "fill_null_value"; "from_"; "where"; "by"] = false) by (intros f I; rewrite Kf in I; now apply Fr).
      apply (first_at sp db column_type).
      + apply plain_call; [ reflexivity | reflexivity | reflexivity | | ].
        * apply idents; [ | exact Pt ]. intros f I. rewrite map_app in I. apply in_app_or in I. destruct I as [I|I].
          -- destruct (Ip f I) as [-> | [-> | ->]]; reflexivity.
          -- rewrite Kf in I. now apply Fr.
        * rewrite map_app. apply distinct_app; [ | now rewrite Kf | ].
          -- unfold pre. cbn [app map fst frm]. rewrite map_app.
             change (distinct ("from_" :: map fst kww ++ map fst (by_runtime b)) = true). cbn [distinct]. apply andb_true_iff. split.
             ++ apply negb_true_iff, str_in_none. intro I. apply in_app_or in I. destruct I as [I|I]; [ specialize (Iw _ I); discriminate Iw | specialize (Ib _ I); discriminate Ib ].
             ++ apply distinct_app; [ exact Dw | rewrite Kb; now destruct b | ]. intros x I J. rewrite (Ib x J) in I. specialize (Iw _ I). discriminate Iw.
          -- intros x I J. specialize (Nl x J). destruct (Ip x I) as [-> | [-> | ->]]; discriminate Nl.
      + unfold Runtime.library. change (String.eqb "tstats" "search") with false. change (String.eqb "tstats" "eval") with false. change (String.eqb "tstats" "fill_null") with false.
        change (String.eqb "tstats" "stats") with false. change (String.eqb "tstats" "data_model") with false. change (String.eqb "tstats" "tstats") with true. cbv iota. unfold Runtime.run_tstats.
        rewrite call_kw_fst, str_in_none.
        2:{ rewrite map_app. intro I. apply in_app_or in I. destruct I as [I|I]; [ destruct (Ip _ I) as [X|[X|X]]; discriminate X | ]. specialize (Nl _ I). discriminate Nl. }
        rewrite (keep_labels _ pre kw), Sf.
        2:{ intros f I. specialize (Nl f I). unfold str_in in *. cbn [existsb] in *. rewrite !orb_false_iff in *. tauto. }
        2:{ intros f I. destruct (Ip f I) as [-> | [-> | ->]]; reflexivity. }
        assert (Lk : forall k, In k ["fill_null_value"; "from_"; "where"; "by"] -> keyword k (call_kw (pre ++ kw)) = keyword k (call_kw pre)).
        { intros k I. unfold call_kw, keyword. rewrite map_app, lookup_app. destruct (lookup_in k (map _ pre)); [ reflexivity | ].
          apply lookup_none. change (map (fun kv => (fst kv, snd (rt_prog (snd kv)))) kw) with (call_kw kw). rewrite call_kw_fst. intro J. specialize (Nl _ J).
          unfold str_in in Nl. cbn [existsb] in Nl. rewrite !orb_false_iff in Nl. destruct Nl as (_ & N1 & N2 & N3 & N4 & _).
          destruct I as [<-|[<-|[<-|[<-|[]]]]]; discriminate. }
        rewrite !Lk by (cbn; auto).
        assert (K1 : keyword "from_" (call_kw pre) = Some (PDict [(PStr "datamodel", PStr m); (PStr "nodename", match n with Some x => PStr x | None => PName "None" end)])).
        { unfold pre, keyword, call_kw. cbn [app map fst snd frm lookup_in rt_prog opt_pylit pylit_opt_str pylit_str pexpr_tree]. change (String.eqb "from_" "from_") with true. cbv iota. rewrite (quoted_between m C4).
          destruct n as [n|]; [ cbn [pylit_opt_str pylit_str pexpr_tree]; now rewrite (quoted_between n C3) | reflexivity ]. }
        assert (Other : forall k, String.eqb k "from_" = false -> keyword k (call_kw pre) = match keyword k (call_kw kww) with Some x => Some x | None => keyword k (call_kw (by_runtime b)) end).
        { intros k N. unfold pre, keyword, call_kw. cbn [app map fst snd frm lookup_in]. rewrite N, map_app, lookup_app. reflexivity. }
        assert (NoW : forall k, k <> "where" -> keyword k (call_kw kww) = None) by (intros k N; apply lookup_none; rewrite call_kw_fst; intro I; now apply N, Iw).
        assert (NoB : forall k, k <> "by" -> keyword k (call_kw (by_runtime b)) = None) by (intros k N; apply lookup_none; rewrite call_kw_fst; intro I; now apply N, Ib).
        rewrite K1. rewrite (Other "by" eq_refl), (NoW "by") by discriminate. rewrite Cb.
        rewrite (Other "fill_null_value" eq_refl), (NoW "fill_null_value"), (NoB "fill_null_value") by discriminate.
        rewrite (Other "where" eq_refl), (NoB "where") by discriminate.
        assert (Sp : Runtime.specifier (Some (PDict [(PStr "datamodel", PStr m); (PStr "nodename", match n with Some x => PStr x | None => PName "None" end)])) = Some (Some (m, n))) by (destruct n; reflexivity).
        rewrite Sp. cbn [call_args map]. rewrite (model_table m n t rows T C Edb).
        assert (Vw' : match match keyword "where" (call_kw kww) with Some x => Some x | None => None end with None => Some rows | Some x => obind (lib_expr x) (fun c => obind (Some rows) (keep_where sp c)) end = Some mid)
          by (destruct (keyword "where" (call_kw kww)); exact Vw).
        rewrite Vw'. cbn [obind]. exact (stats_value funcs b keys mid out fs aggs B Es Pn (Ag sp mid) (F sp)).
  Qed.
End Calls.
