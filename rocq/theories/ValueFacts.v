(** Facts: the column generated for an expression computes the expression's value. *)
From Verif Require ReadFacts.
From Verif Require Import Str SplAst PyAst Functions Transpile PipeFacts SpecPy SpecCol SpecSpark SpecRows FrameFacts RowFacts.
Open Scope list_scope.

(** [sem x f]: the column x, without its alias, computes f in every row where f has a value *)
Definition Meaning := Spark -> Row -> option Val.
Definition sem_col (c : ColumnLike) (f : Meaning) : Prop :=
  flat c /\ plain_col c = true /\ forall sp row v, f sp row = Some v -> cv sp row (col_tree c) = Some v.
Definition sem (x : PExpr) (f : Meaning) : Prop := exists c, pe_unaliased x = PCol c /\ sem_col c f.

Lemma sem_of_col : forall c f, sem_col c f -> sem (PCol c) f.
Proof. intros c f H. exists c. split; [ apply flat_pe, H | exact H ]. Qed.
Lemma sem_ext : forall x (f g : Meaning), sem x f -> (forall sp row v, g sp row = Some v -> f sp row = Some v) -> sem x g.
Proof. intros x f g (c & E & F & P & H) G. exists c. repeat split; auto. Qed.

Lemma sem_col_ext : forall c (f g : Meaning), sem_col c f -> (forall sp row v, g sp row = Some v -> f sp row = Some v) -> sem_col c g.
Proof. intros c f g (F & P & H) G. repeat split; auto. Qed.

(** ** Binary operators *)
Lemma bin_apply : forall sp op a b v, str_in op (["AND"; "OR"]%string ++ spl_comparisons ++ spl_arithmetic) = true ->
  apply_op sp op a b = Some v -> bin_val sp (simple_op op) a b = Some v.
Proof.
  intros sp op a b v H. cbn [str_in existsb app spl_comparisons spl_arithmetic] in H.
  repeat (apply orb_true_iff in H; destruct H as [H|H]); try discriminate H;
    apply String.eqb_eq in H; subst op; intro E; first [ exact E | destruct a, b; exact E ].
Qed.
Lemma op_plain : forall op, str_in op (["AND"; "OR"]%string ++ spl_comparisons ++ spl_arithmetic) = true ->
  str_in (simple_op op) binary_ops = true.
Proof.
  intros op H. cbn [str_in existsb app spl_comparisons spl_arithmetic] in H.
  repeat (apply orb_true_iff in H; destruct H as [H|H]); try discriminate H;
    apply String.eqb_eq in H; subst op; reflexivity.
Qed.
Lemma sem_bin : forall l r f g op, str_in op (["AND"; "OR"]%string ++ spl_comparisons ++ spl_arithmetic) = true ->
  sem l f -> sem r g ->
  sem (pbin l (simple_op op) r)
      (fun sp row => match f sp row, g sp row with Some a, Some b => apply_op sp op a b | _, _ => None end).
Proof.
  intros l r f g op O (c & El & Fc & Pc & Hc) (d & Er & Fd & Pd & Hd).
  apply sem_of_col. unfold c_binary. rewrite El, Er. split; [ exact I | split ].
  - cbn [plain_col plain_pexpr]. now rewrite (op_plain op O), Pc, Pd.
  - intros sp row v H. destruct (f sp row) as [a|] eqn:E1; [ | discriminate ].
    destruct (g sp row) as [b|] eqn:E2; [ | discriminate ]. cbn [col_tree pexpr_tree].
    rewrite (cv_bin sp row _ _ _ a b); auto. now apply bin_apply.
Qed.
Lemma sem_not : forall x f, sem x f ->
  sem (pnot x) (fun sp row => match f sp row with Some v => negate v | None => None end).
Proof.
  intros x f (c & E & F & P & H). apply sem_of_col. unfold c_not. rewrite E. split; [ exact I | split ].
  - cbn [plain_col plain_pexpr is_column]. now rewrite P.
  - intros sp row v E'. destruct (f sp row) as [a|] eqn:Ea; [ | discriminate ]. cbn [col_tree pexpr_tree].
    rewrite (cv_not sp row _ a); auto.
Qed.
Lemma sem_name : forall n, plain_name_text n = true -> sem (pcol n) (fun _ row => Some (cell n row)).
Proof. intros n P. apply sem_of_col. split; [ exact I | split; [ exact P | ]]. intros sp row v E. exact E. Qed.
Lemma sem_lit : forall code (v : Val), plain_code code = true -> lit_val (code_tree code) = Some v ->
  sem (plit code) (fun _ _ => Some v).
Proof.
  intros code w P L. apply sem_of_col. split; [ exact I | split; [ exact P | ]]. intros sp row v E.
  cbn [col_tree]. rewrite cv_lit. now rewrite L.
Qed.
(** ** Wildcards and membership *)
Lemma pattern_chars : forall p, plain_pattern p = true ->
  plain_between dquote p = true /\
  sforall (fun c => negb (Ascii.eqb c "%" || Ascii.eqb c "_" || Ascii.eqb c "\")) p = true.
Proof.
  intros p H. apply andb_true_iff in H. destruct H as [H1 H2]. split; [ exact H1 | ].
  unfold plain_between in H1. induction p as [|c p IH]; [ reflexivity | ]. cbn [sforall] in *.
  apply andb_true_iff in H1. destruct H1 as [A1 H1]. apply andb_true_iff in H2. destruct H2 as [A2 H2].
  rewrite (IH H1 H2), andb_true_r. apply negb_true_iff in A1, A2. apply negb_true_iff. rewrite A2. cbn [orb].
  apply orb_false_iff in A1. destruct A1 as [A1 _]. apply orb_false_iff in A1. destruct A1 as [_ A1].
  destruct (Ascii.eqb c "\") eqn:E; [ | reflexivity ]. apply Ascii.eqb_eq in E. subst c. discriminate A1.
Qed.
Lemma between_smap : forall p, plain_between dquote p = true -> plain_between dquote (wildcard_to_like p) = true.
Proof.
  intros p H. rewrite wildcard_smap. unfold plain_between in *. induction p as [|c p IH]; [ reflexivity | ].
  cbn [sforall smap] in *. apply andb_true_iff in H. destruct H as [A H]. rewrite (IH H), andb_true_r.
  unfold star_to_percent. destruct (Ascii.eqb c "*"); [ reflexivity | exact A ].
Qed.
Lemma without_last_snoc : forall s c, without_last (s ++ one_char c) = s.
Proof.
  induction s as [|d s IH]; intro c; [ reflexivity | ]. cbn [append without_last]. rewrite IH.
  now destruct s.
Qed.
Lemma quoted_tree : forall s, stands dquote false s = true -> code_tree (dq ++ s ++ dq) = PStr s.
Proof.
  intros s P. change (dq ++ s ++ dq)%string with (String dquote (s ++ one_char dquote)). unfold code_tree.
  change (py_quote dquote) with true. cbv beta iota. rewrite without_last_snoc. unfold literal_value.
  now rewrite (proj1 (ReadFacts.stands_unquoted _ _) P).
Qed.
Lemma quoted_some : forall s, exists v, code_tree (dq ++ s ++ dq) = PStr v.
Proof. intro s. eexists. reflexivity. Qed.
Lemma quoted_between : forall s, plain_between dquote s = true -> code_tree (dq ++ s ++ dq) = PStr s.
Proof. intros s P. apply quoted_tree. now apply ReadFacts.between_stands. Qed.
Lemma quoted_stands : forall s, stands dquote false s = true -> plain_code (dq ++ s ++ dq) = true.
Proof.
  intros s P. change (dq ++ s ++ dq)%string with (String dquote (s ++ one_char dquote)). unfold plain_code.
  change (py_quote dquote) with true. cbv beta iota. rewrite without_last_snoc, String.eqb_refl. now rewrite (proj1 (ReadFacts.stands_unquoted _ _) P).
Qed.
Lemma quoted_plain : forall s, plain_between dquote s = true -> plain_code (dq ++ s ++ dq) = true.
Proof. intros s P. exact (quoted_stands s (ReadFacts.between_stands _ _ P)). Qed.
Lemma squoted_tree : forall s, stands squote false s = true -> code_tree (sq ++ s ++ sq) = PStr s.
Proof.
  intros s P. change (sq ++ s ++ sq)%string with (String squote (s ++ one_char squote)). unfold code_tree.
  change (py_quote squote) with true. cbv beta iota. rewrite without_last_snoc. unfold literal_value.
  now rewrite (proj1 (ReadFacts.stands_unquoted _ _) P).
Qed.
Lemma squoted_stands : forall s, stands squote false s = true -> plain_code (sq ++ s ++ sq) = true.
Proof.
  intros s P. change (sq ++ s ++ sq)%string with (String squote (s ++ one_char squote)). unfold plain_code.
  change (py_quote squote) with true. cbv beta iota. rewrite without_last_snoc, String.eqb_refl. now rewrite (proj1 (ReadFacts.stands_unquoted _ _) P).
Qed.
Lemma squoted_plain : forall s, plain_name_text s = true -> plain_code (sq ++ s ++ sq) = true.
Proof. intros s P. exact (squoted_stands s (ReadFacts.between_stands _ _ P)). Qed.
Lemma like_pattern : forall p v, plain_pattern p = true -> like_val v (wildcard_to_like p) = wild_val v p.
Proof. intros p v H. apply pattern_chars in H. destruct v; cbn; try reflexivity; now rewrite like_wild by apply H. Qed.
Lemma sem_like : forall n p, plain_name_text n = true -> plain_pattern p = true ->
  sem_col (c_method (pcol n) "like" [pylit_str (wildcard_to_like p)]) (fun _ row => Some (wild_val (cell n row) p)).
Proof.
  intros n p Pn Pp. split; [ exact I | split ].
  - cbn [c_method plain_col plain_pexpr pe_unaliased pe_unaliased_with_name cl_unaliased_with_name pcol fst receiver forallb pylit_str].
    rewrite Pn, quoted_plain; [ reflexivity | ]. apply between_smap. now apply pattern_chars.
  - intros sp row v E. cbn [c_method col_tree pexpr_tree pe_unaliased pe_unaliased_with_name cl_unaliased_with_name pcol fst map pylit_str].
    rewrite quoted_between by now apply between_smap, pattern_chars. rewrite (cv_like sp row _ _ (cell n row)); [ | exact I | reflexivity ].
    now rewrite like_pattern.
Qed.
Lemma number_code : forall t, plain_number t = true ->
  plain_code t = true /\ exists v, lit_val (code_tree t) = Some v /\ v <> SNull.
Proof.
  intros t H. destruct t as [|c s]; [ discriminate | ]. unfold plain_number in H.
  destruct (Ascii.eqb c "-") eqn:E.
  - apply Ascii.eqb_eq in E. subst c. split; [ exact H | ]. change (code_tree (String "-" s)) with (PUn "-" (PNum s)).
    unfold lit_val. change (String.eqb "-" "-") with true. eexists. split; [ reflexivity | ].
    destruct (num_val s) eqn:N; try discriminate. unfold num_val in N. destruct (DecimalString.NilZero.uint_of_string s); discriminate.
  - split.
    + unfold plain_code.
      assert (D : py_digit c = true) by (cbn [is_number] in H; apply andb_prop in H as [H _]; now apply andb_prop in H).
      now rewrite (digit_not_quote c D), D.
    + rewrite number_tree by exact H. eexists. split; [ reflexivity | ]. unfold num_val.
      destruct (DecimalString.NilZero.uint_of_string (String c s)); discriminate.
Qed.
Lemma cv_literal : forall sp row t v, lit_val t = Some v -> cv sp row t = Some v.
Proof.
  intros sp row t v L. unfold cv. destruct t as [x|x|x|?|?|o e|?|?|?]; try discriminate L.
  - change (cvx sp row (PName x)) with (plain_value (lit_val (PName x))). now rewrite L.
  - change (cvx sp row (PNum x)) with (plain_value (lit_val (PNum x))). now rewrite L.
  - change (cvx sp row (PStr x)) with (plain_value (lit_val (PStr x))). now rewrite L.
  - cbn [cvx]. destruct (String.eqb o "~") eqn:O; [ | now rewrite L ].
    exfalso. apply String.eqb_eq in O. subst o. destruct e; discriminate L.
Qed.
Definition in_meaning (f : string) (l : list Expr) : Meaning := fun sp row => Some (membership sp (cell f row) l).
Lemma sem_eq_lit : forall f code w, plain_name_text f = true -> plain_code code = true ->
  lit_val (code_tree code) = Some w -> w <> SNull ->
  sem_col (c_binary (pcol f) "==" (PyLit code))
    (fun sp row => Some (match cell f row with SNull => SNull | v => SBool (sp_cmp sp "==" v w) end)).
Proof.
  intros f code w Pf Pc L N. split; [ exact I | split ].
  - cbn [c_binary plain_col plain_pexpr pe_unaliased pe_unaliased_with_name cl_unaliased_with_name pcol fst].
    now rewrite Pf, Pc.
  - intros sp row v E. cbn [c_binary col_tree pexpr_tree pe_unaliased pe_unaliased_with_name cl_unaliased_with_name pcol fst].
    assert (K : cv sp row (code_tree code) = Some w).
    { now apply cv_literal. }
    rewrite (cv_bin sp row _ _ _ (cell f row) w); [ | reflexivity | exact K ].
    rewrite <- E. destruct (cell f row), w; try congruence; reflexivity.
Qed.
Lemma sem_in_item : forall f k, plain_name_text f = true -> plain_in_value k = true ->
  exists c, field_in_check f k = Ok c /\ sem_col c (in_meaning f [k]).
Proof.
  intros f k Pf Pk. unfold plain_in_value in Pk.
  destruct k as [l|?|?|?|?|?|?|?|?|?]; try discriminate Pk. destruct l as [k|?|?|?]; try discriminate Pk.
  destruct k as [ |b|z|t|s|?|?|s|s|?|s]; try discriminate Pk; cbn [field_in_check]; eexists; (split; [ reflexivity | ]).
  all: unfold in_meaning, membership; cbn [existsb in_item].
  all: try (destruct (number_code t Pk) as (P1 & w & L & N); rewrite L).
  all: eapply sem_col_ext; [ first [ apply (sem_like f _ Pf Pk)
         | apply (sem_eq_lit f _ (SBool b) Pf); [ now destruct b | now destruct b | discriminate ]
         | apply (sem_eq_lit f _ (SInt z) Pf); [ apply dec_plain | apply lit_dec | discriminate ]
         | apply (sem_eq_lit f _ w Pf P1 L N)
         | apply (sem_eq_lit f _ (SStr s) Pf); [ first [ exact (quoted_plain _ Pk) | exact (quoted_stands _ Pk) ] | first [ now rewrite (quoted_tree _ Pk) | now rewrite (quoted_between _ Pk) ] | discriminate ] ]
       | intros sp row v <-; unfold wild_val; destruct (cell f row); rewrite ?orb_false_r; reflexivity ].
Qed.
Lemma membership_app : forall sp v a b,
  bin_val sp "|" (membership sp v a) (membership sp v b) = Some (membership sp v (a ++ b)).
Proof.
  intros sp v a b. unfold membership. destruct v; [ reflexivity | .. ]; rewrite existsb_app;
    cbn; now destruct (existsb _ a), (existsb _ b).
Qed.
Lemma sem_in_fold : forall f l acc done, plain_name_text f = true -> forallb plain_in_value l = true ->
  sem_col acc (in_meaning f done) ->
  exists cs, rtraverse (field_in_check f) l = Ok cs /\
    sem_col (fold_left (fun acc x => CBinaryOp "|" (PCol acc) (PCol x)) cs acc) (in_meaning f (done ++ l)).
Proof.
  intros f l. induction l as [|k l IH]; intros acc done Pf Pl H.
  - exists []. split; [ reflexivity | ]. now rewrite app_nil_r.
  - cbn [forallb] in Pl. apply andb_true_iff in Pl. destruct Pl as [Pk Pl].
    destruct (sem_in_item f k Pf Pk) as (c & E & Hc).
    destruct (IH (CBinaryOp "|" (PCol acc) (PCol c)) (done ++ [k]) Pf Pl) as (cs & Es & Hs).
    { destruct H as (F1 & P1 & M1). destruct Hc as (F2 & P2 & M2). split; [ exact I | split ].
      - cbn [plain_col plain_pexpr]. now rewrite P1, P2.
      - intros sp row v Ev. cbn [col_tree pexpr_tree].
        rewrite (cv_bin sp row _ _ _ _ _ (M1 sp row _ eq_refl) (M2 sp row _ eq_refl)).
        rewrite membership_app. exact Ev. }
    exists (c :: cs). split; [ now rewrite rtraverse_cons, E, Es | ].
    cbn [fold_left]. now rewrite <- app_assoc in Hs.
Qed.
Lemma sem_in : forall f l, plain_name_text f = true -> l <> [] -> forallb plain_in_value l = true ->
  exists x, field_in_to_spark f l = Ok x /\ sem x (in_meaning f l).
Proof.
  intros f [|k l] Pf N Pl; [ congruence | ]. cbn [forallb] in Pl. apply andb_true_iff in Pl. destruct Pl as [Pk Pl].
  destruct (sem_in_item f k Pf Pk) as (c & E & Hc).
  destruct (sem_in_fold f l c [k] Pf Pl Hc) as (cs & Es & Hs).
  unfold field_in_to_spark. rewrite rtraverse_cons, E, Es. cbn [rbind join_as_binaries].
  eexists. split; [ reflexivity | ]. apply sem_of_col. exact Hs.
Qed.

(** ** Function calls *)
Definition fn_name (g : string) : bool :=
  negb (str_in g ["col"; "lit"; "expr"; "when"]%string) && py_ident g && negb (contains "." g).
Definition unary_entry (n g : string) : Prop :=
  existsb (String.eqb n) eval_unsupported = false /\ assoc n eval_unary = Some g /\ fn_name g = true.
Definition binary_entry (n g : string) : Prop :=
  existsb (String.eqb n) eval_unsupported = false /\ assoc n eval_unary = None /\ assoc n eval_binary = Some g /\ fn_name g = true.
Lemma entries : forall (Q : string -> string -> Prop) l, Forall (fun p => Q (fst p) (snd p)) l ->
  forall n g, lookup_name n l = Some g -> Q n g.
Proof.
  intros Q l H n g. induction H as [|[m h] l Hq _ IH]; cbn [lookup_name]; [ discriminate | ].
  destruct (String.eqb n m) eqn:E; [ | exact IH ]. apply String.eqb_eq in E. subst m. intro H. now injection H as <-.
Qed.
Lemma value_entries : forall n g, lookup_name n value_functions = Some g -> unary_entry n g.
Proof. apply entries. repeat (apply Forall_cons; [ vm_compute; auto | ]). apply Forall_nil. Qed.
Lemma two_value_entries : forall n g, lookup_name n two_value_functions = Some g -> binary_entry n g.
Proof. apply entries. repeat (apply Forall_cons; [ vm_compute; auto | ]). apply Forall_nil. Qed.

Definition ev_of (e : Expr) : Meaning := fun sp row => ev sp row e.
(** Calls other than of relative_time *)
Lemma ev_call : forall sp row name args, String.eqb name "relative_time" = false ->
  ev sp row (ECall name args) = match all_some (map (ev sp row) args) with Some l => apply_fn sp name l | None => None end.
Proof.
  intros sp row name args N. cbn [ev]. rewrite N. destruct (all_some _); [ reflexivity | ].
  destruct args as [|a [|[l|?|?|?|?|?|?|?|?|?] [|]]]; try reflexivity.
  all: destruct l as [[]|?|?|?]; reflexivity.
Qed.
Lemma not_relative : forall name args, arity_ok name (length args) = true \/ further name args = true -> String.eqb name "relative_time" = false.
Proof.
  intros name args H. destruct (String.eqb name "relative_time") eqn:N; [ | reflexivity ]. apply String.eqb_eq in N. subst name.
  destruct H as [H|H]; [ discriminate H | ]. destruct args as [|a [|b [|]]]; discriminate H.
Qed.
Definition translated (rt : Rt) (e : Expr) : Prop := exists x, to_spark_expr rt e = Ok x /\ sem x (ev_of e).
Lemma map_args_ok : forall rt args, Forall (translated rt) args ->
  exists cs, map_args (map (fun a => (a, to_spark_expr rt a)) args) = Ok (map PCol cs) /\
    Forall2 (fun c e => sem_col c (ev_of e)) cs args.
Proof.
  intros rt args H. unfold map_args. induction H as [|e l (x & E & c & U & S) _ (cs & E2 & F)].
  - exists []. split; [ reflexivity | constructor ].
  - exists (c :: cs). split; [ | now constructor ].
    cbn [map]. rewrite rtraverse_cons. unfold arg_expr at 1. cbn [snd]. rewrite E. cbn [rmap rbind].
    rewrite U. match goal with |- rbind ?r _ = _ => replace r with (Ok (map PCol cs)) by (symmetry; exact E2) end. reflexivity.
Qed.
(** The columns and their values in a row *)
Definition args_in (sp : Spark) (row : Row) (cs : list ColumnLike) (vs : list Val) : Prop :=
  Forall2 (fun c v => cv sp row (col_tree c) = Some v) cs vs.
Definition good_col (c : ColumnLike) : Prop := flat c /\ plain_col c = true.
Lemma args_values : forall cs args, Forall2 (fun c e => sem_col c (ev_of e)) cs args ->
  Forall good_col cs /\
  forall sp row vs, all_some (map (ev sp row) args) = Some vs -> args_in sp row cs vs.
Proof.
  induction 1 as [|c e cs args (F & P & H) _ [G V]].
  - split; [ constructor | ]. intros sp row vs E. injection E as <-. constructor.
  - split; [ now constructor | ]. intros sp row vs E. cbn [map all_some] in E.
    destruct (ev sp row e) as [v|] eqn:Ev; [ | discriminate ].
    destruct (all_some (map (ev sp row) args)) as [l|] eqn:El; [ | discriminate ]. cbn in E. injection E as <-.
    constructor; [ now apply H | now apply V ].
Qed.
Lemma good_plain : forall cs, Forall good_col cs -> forallb plain_pexpr (map PCol cs) = true.
Proof. induction 1 as [|c cs [_ P] _ IH]; [ reflexivity | ]. cbn [map forallb plain_pexpr]. now rewrite P. Qed.
Lemma args_fargs : forall sp row cs vs, Forall good_col cs -> args_in sp row cs vs ->
  Forall2 (arg_of sp row) (map pexpr_tree (map PCol cs)) (map AVal vs).
Proof.
  intros sp row cs vs G H. induction H as [|c v cs vs E _ IH]; [ constructor | ].
  inversion G as [|? ? [F P] G']; subst. cbn [map]. constructor; [ | now apply IH ].
  unfold arg_of. cbn [pexpr_tree]. rewrite E. cbn [option_map]. unfold py_arg. now rewrite flat_not_literal.
Qed.
Lemma sem_fn : forall g cs (f : Meaning), fn_name g = true -> Forall good_col cs ->
  (forall sp row v, f sp row = Some v -> exists vs, args_in sp row cs vs /\ fn_val sp g (map AVal vs) = Some v) ->
  sem_col (c_func g (map PCol cs)) f.
Proof.
  intros g cs f N G H. unfold fn_name in N. apply andb_true_iff in N. destruct N as [N D].
  apply andb_true_iff in N. destruct N as [N I1]. apply negb_true_iff in N, D.
  split; [ exact I | split ].
  - cbn [c_func plain_col]. rewrite D, I1. cbn [andb]. now apply good_plain.
  - intros sp row v E. destruct (H sp row v E) as (vs & A & V).
    cbn [c_func col_tree]. rewrite D. change (PCall (PAttr (PName "F") g) ?a []) with (py_F g a).
    rewrite (cv_fn sp row g _ (map AVal vs)), named_vals; auto. now apply args_fargs.
Qed.
Lemma sem_out : forall name c f, sem_col c f -> sem (PCol (ft_out name c)) f.
Proof.
  intros name c f H. pose proof (proj1 H) as F. exists c. split; [ | exact H ].
  unfold ft_out, c_aliased. rewrite (flat_cl c F), (flat_pe c F).
  unfold pe_unaliased, pe_unaliased_with_name. cbn [cl_unaliased_with_name fst]. now rewrite flat_unaliased.
Qed.

(** if, case and validate *)
Lemma cvx_of_cv : forall sp row t v, cv sp row t = Some v -> exists ch, cvx sp row t = Some (v, ch).
Proof. intros sp row t v. unfold cv. destruct (cvx sp row t) as [[w ch]|]; [ | discriminate ]. cbn. intro E. injection E as ->. eauto. Qed.
Definition branch_of (c v : Val) : Val * Chain := if is_true c then (v, Decided) else (SNull, Undecided).
Lemma cvx_when : forall sp row c v x y t, cv sp row c = Some x -> cv sp row v = Some y -> truth x = Some t ->
  cvx sp row (py_F "when" [c; v]) = Some (branch_of x y).
Proof.
  intros sp row c v x y t Hc Hv T. unfold py_F. cbn [cvx]. unfold cv in *.
  change (String.eqb "F" "F") with true. cbn. rewrite Hc, Hv, T. reflexivity.
Qed.
Lemma cvx_method_when : forall sp row e c v w ch x y t, not_name e -> cvx sp row e = Some (w, ch) -> ch <> NoChain ->
  cv sp row c = Some x -> cv sp row v = Some y -> truth x = Some t ->
  cvx sp row (py_method e "when" [c; v]) = Some (match ch with Decided => (w, Decided) | _ => branch_of x y end).
Proof.
  intros sp row e c v w ch x y t N E C Hc Hv T. unfold py_method. cbn [cvx]. unfold cv in *.
  destruct e; try contradiction; rewrite E; cbn; destruct ch; try congruence; rewrite ?Hc, ?Hv, ?T; reflexivity.
Qed.
Lemma cv_otherwise : forall sp row e v w ch y, not_name e -> cvx sp row e = Some (w, ch) -> ch <> NoChain ->
  cv sp row v = Some y ->
  cv sp row (py_method e "otherwise" [v]) = Some (match ch with Decided => w | _ => y end).
Proof.
  intros sp row e v w ch y N E C Hv. unfold py_method, cv in *. cbn [cvx].
  destruct e; try contradiction; rewrite E; cbn; destruct ch; try congruence; rewrite ?Hv; reflexivity.
Qed.
(** A chain of when calls that are all columns of a row's values *)
Definition chain_val (w : Val * Chain) (rest : Val) : Val := match snd w with Decided => fst w | _ => rest end.
Lemma plain_when : forall c v, good_col c -> good_col v -> plain_col (c_func "when" [PCol c; PCol v]) = true.
Proof. intros c v [_ P] [_ Q]. cbn [c_func plain_col forallb plain_pexpr]. now rewrite P, Q. Qed.
Definition cond_col (neg : bool) (c : ColumnLike) : ColumnLike := if neg then CUnaryNot (PCol c) else c.
Definition cond_val (neg : bool) (x : Val) : Val := if neg then of_truth (k_not (match truth x with Some t => t | None => None end)) else x.
Lemma cond_good : forall neg c, good_col c -> good_col (cond_col neg c).
Proof. intros [] c [F P]; [ split; [ exact I | exact P ] | now split ]. Qed.
Lemma cond_pexpr : forall (neg : bool) c, good_col c -> (if neg then pnot (PCol c) else PCol c) = PCol (cond_col neg c).
Proof. intros [] c [F P]; [ | reflexivity ]. unfold pnot, c_not. now rewrite flat_pe. Qed.
Lemma cond_cv : forall sp row neg c x t, cv sp row (col_tree c) = Some x -> truth x = Some t ->
  cv sp row (col_tree (cond_col neg c)) = Some (cond_val neg x) /\ exists t', truth (cond_val neg x) = Some t'.
Proof.
  intros sp row [] c x t H T; [ | split; [ exact H | now exists t ] ]. unfold cond_col, cond_val. rewrite T. split.
  - cbn [col_tree pexpr_tree]. rewrite (cv_not sp row _ x H). unfold negate. now rewrite T.
  - destruct t as [b|]; cbn; eauto.
Qed.
Lemma first_branch_cons : forall neg x y l t r, truth x = Some t -> first_branch (negb neg) l = Some r ->
  first_branch (negb neg) (x :: y :: l) = Some (chain_val (branch_of (cond_val neg x) y) r).
Proof.
  intros neg x y l t r T R. cbn [first_branch]. rewrite T, R. unfold cond_val, branch_of, chain_val. rewrite T.
  destruct neg, t as [[]|]; cbn; try reflexivity;
    destruct x as [ |[]|?|?|?]; cbn in T; try discriminate T; reflexivity.
Qed.
Lemma first_branch_inv : forall b x y l r, first_branch b (x :: y :: l) = Some r ->
  exists t r', truth x = Some t /\ first_branch b l = Some r'.
Proof.
  intros b x y l r H. cbn [first_branch] in H. destruct (truth x) as [t|]; [ | discriminate ].
  destruct (first_branch b l) as [r'|]; [ | discriminate ]. eauto.
Qed.
Definition in_chain (w : Val * Chain) : Prop :=
  match snd w with NoChain => False | Undecided => fst w = SNull | Decided => True end.
Lemma branch_in_chain : forall x y, in_chain (branch_of x y).
Proof. intros x y. unfold branch_of. now destruct (is_true x). Qed.
Lemma when_chain_ok : forall neg n cs acc, length cs = 2 * n -> Forall good_col cs -> good_col acc ->
  receiver (PCol acc) = true ->
  exists c, when_chain neg (Some acc) (map PCol cs) = Some (Some c) /\ good_col c /\
    forall sp row w vs r, cvx sp row (col_tree acc) = Some w -> in_chain w ->
      args_in sp row cs vs -> first_branch (negb neg) vs = Some r ->
      cv sp row (col_tree c) = Some (chain_val w r).
Proof.
  intro neg. induction n as [|n IH]; intros cs acc L G A R.
  - destruct cs; [ | discriminate L ]. exists acc. split; [ reflexivity | ]. split; [ exact A | ].
    intros sp row w vs r E C V B. inversion V; subst. injection B as <-. unfold cv. rewrite E.
    unfold chain_val, in_chain in *. destruct w as [w []]; cbn in *; try contradiction; congruence.
  - destruct cs as [|c [|v cs]]; cbn in L; try lia.
    inversion G as [|? ? Gc G1]; subst. inversion G1 as [|? ? Gv G2]; subst.
    pose proof (cond_good neg c Gc) as Gc'.
    set (acc' := c_method (PCol acc) "when" [PCol (cond_col neg c); PCol v]).
    assert (A' : good_col acc').
    { split; [ exact I | ]. unfold acc', c_method. rewrite flat_pe by apply A. cbn [plain_col forallb plain_pexpr].
      destruct Gc' as [_ P1], Gv as [_ P2], A as [_ P3]. now rewrite R, P1, P2, P3. }
    destruct (IH cs acc' ltac:(lia) G2 A' eq_refl) as (d & E & Gd & H).
    exists d. cbn [map when_chain]. rewrite (cond_pexpr neg c Gc). split; [ exact E | split; [ exact Gd | ] ].
    intros sp row w vs r Ew C V B. inversion V as [|? x ? l Hx V1]; subst. inversion V1 as [|? y ? l' Hy V2]; subst.
    destruct (first_branch_inv _ _ _ _ _ B) as (t & r' & T & B').
    rewrite (first_branch_cons neg x y l' t r' T B') in B. injection B as <-.
    destruct (cond_cv sp row neg c x t Hx T) as (Hx' & t' & T').
    destruct w as [w ch].
    assert (K : cvx sp row (col_tree acc') = Some (match ch with Decided => (w, Decided) | _ => branch_of (cond_val neg x) y end)).
    { unfold acc', c_method. rewrite flat_pe by apply A. cbn [col_tree map pexpr_tree].
      apply (cvx_method_when sp row _ _ _ w ch _ _ t'); auto; [ apply col_not_name | now destruct ch ]. }
    rewrite (H sp row _ l' r' K); auto.
    + unfold chain_val at 1 2. destruct ch; [ contradiction | reflexivity | reflexivity ].
    + destruct ch; [ apply branch_in_chain | apply branch_in_chain | exact I ].
Qed.
Lemma case_ok : forall neg n cs, length cs = 2 * S n -> Forall good_col cs ->
  exists c, case_body neg (map PCol cs) = Ok c /\ good_col c /\
    forall sp row vs r, args_in sp row cs vs -> first_branch (negb neg) vs = Some r -> cv sp row (col_tree c) = Some r.
Proof.
  intros neg n cs L G. destruct cs as [|c [|v cs]]; cbn in L; try lia.
  inversion G as [|? ? Gc G1]; subst. inversion G1 as [|? ? Gv G2]; subst.
  pose proof (cond_good neg c Gc) as Gc'.
  set (acc := c_func "when" [PCol (cond_col neg c); PCol v]).
  destruct (when_chain_ok neg n cs acc ltac:(lia) G2) as (d & E & Gd & H).
  { split; [ exact I | now apply plain_when ]. }
  { reflexivity. }
  exists d. unfold case_body. cbn [map when_chain]. rewrite (cond_pexpr neg c Gc). fold acc. rewrite E.
  split; [ reflexivity | split; [ exact Gd | ] ].
  intros sp row vs r V B. inversion V as [|? x ? l Hx V1]; subst. inversion V1 as [|? y ? l' Hy V2]; subst.
  destruct (first_branch_inv _ _ _ _ _ B) as (t & r' & T & B').
  rewrite (first_branch_cons neg x y l' t r' T B') in B. injection B as <-.
  destruct (cond_cv sp row neg c x t Hx T) as (Hx' & t' & T').
  apply (H sp row (branch_of (cond_val neg x) y) l' r'); auto; [ | apply branch_in_chain ].
  apply (cvx_when sp row _ _ _ _ t'); auto.
Qed.

Lemma find_first : forall vs, first_value (map AVal vs) = Some (match find not_null vs with Some v => v | None => SNull end).
Proof. induction vs as [|v vs IH]; [ reflexivity | ]. destruct v; cbn in *; rewrite ?IH; reflexivity. Qed.

Lemma unary_call : forall name g args, unary_entry name g ->
  eval_fn_bare name args = ft1 name args (fun x => Ok (c_func g [x])).
Proof. intros name g args (U & A & _). unfold eval_fn_bare. now rewrite U, A. Qed.
Lemma binary_call : forall name g args, binary_entry name g ->
  eval_fn_bare name args = ft2 name args (fun x y => Ok (c_func g [x; y])).
Proof. intros name g args (U & A & B & _). unfold eval_fn_bare. now rewrite U, A, B. Qed.
Lemma if_call : forall args, eval_fn_bare "if" args =
  match args with
  | [a; b; c] =>
      let? x := arg_expr a in let? y := arg_expr b in let? z := arg_expr c in
      Ok (ft_out "if" (c_method (pfun "when" [x; y]) "otherwise" [z]))
  | _ => Err
  end.
Proof. reflexivity. Qed.
Lemma case_call : forall args, eval_fn_bare "case" args = ft_map "case" args (case_body false).
Proof. reflexivity. Qed.
Lemma validate_call : forall args, eval_fn_bare "validate" args = ft_map "validate" args (case_body true).
Proof. reflexivity. Qed.
Lemma coalesce_call : forall args, eval_fn_bare "coalesce" args = ft_map "coalesce" args (fun l => Ok (c_func "coalesce" l)).
Proof. reflexivity. Qed.
Lemma true_call : eval_fn_bare "true" [] = Ok (ft_out "true" (CLiteral "True")). Proof. reflexivity. Qed.
Lemma false_call : eval_fn_bare "false" [] = Ok (ft_out "false" (CLiteral "False")). Proof. reflexivity. Qed.
Lemma null_call : eval_fn_bare "null" [] = Ok (ft_out "null" (CLiteral "None")). Proof. reflexivity. Qed.

Lemma arg_ok : forall e, translated Disallow e -> exists c,
  arg_expr (e, to_spark_expr Disallow e) = Ok (PCol c) /\ sem_col c (ev_of e).
Proof. intros e (x & E & c & U & S). exists c. split; [ | exact S ]. unfold arg_expr. cbn [snd]. rewrite E. unfold rmap, rbind. f_equal. exact U. Qed.

Lemma sem_col_lit : forall code v, plain_code code = true -> lit_val (code_tree code) = Some v ->
  sem_col (CLiteral code) (fun _ _ => Some v).
Proof.
  intros code w P L. split; [ exact I | split; [ exact P | ]]. intros sp row v E.
  cbn [col_tree]. rewrite cv_lit. now rewrite L.
Qed.
Lemma sem_if : forall a b c ea eb ec, sem_col a (ev_of ea) -> sem_col b (ev_of eb) -> sem_col c (ev_of ec) ->
  sem_col (c_method (pfun "when" [PCol a; PCol b]) "otherwise" [PCol c]) (ev_of (ECall "if" [ea; eb; ec])).
Proof.
  intros a b c ea eb ec (Fa & Pa & Ha) (Fb & Pb & Hb) (Fc & Pc & Hc). split; [ exact I | split ].
  - cbn [c_method pfun pe_unaliased pe_unaliased_with_name cl_unaliased_with_name fst c_func plain_col receiver forallb plain_pexpr].
    now rewrite Pa, Pb, Pc.
  - intros sp row v E. unfold ev_of in E. rewrite ev_call in E by reflexivity. cbn [map all_some] in E.
    destruct (ev sp row ea) as [x|] eqn:Ea; [ | discriminate ].
    destruct (ev sp row eb) as [y|] eqn:Eb; [ | discriminate ].
    destruct (ev sp row ec) as [z|] eqn:Ec; [ | discriminate ]. cbn [option_map] in E.
    unfold apply_fn in E. change (String.eqb "if" "if") with true in E. cbv beta iota in E.
    destruct (truth x) as [t|] eqn:T; [ | discriminate ]. injection E as <-.
    cbn [c_method pfun pe_unaliased pe_unaliased_with_name cl_unaliased_with_name fst c_func col_tree map pexpr_tree].
    change (contains "." "when") with false. cbv beta iota.
    change (PCall (PAttr (PName "F") "when") ?l []) with (py_F "when" l).
    pose proof (cvx_when sp row _ _ x y t (Ha sp row x Ea) (Hb sp row y Eb) T) as W.
    destruct (branch_of x y) as [w ch] eqn:B.
    rewrite (cv_otherwise sp row _ _ w ch z); auto; [ | exact I | ].
    + unfold branch_of in B. destruct (is_true x); injection B as <- <-; reflexivity.
    + unfold branch_of in B. destruct (is_true x); injection B as <- <-; discriminate.
Qed.

Lemma call_ok : forall name args, arity_ok name (length args) = true -> Forall (translated Disallow) args ->
  translated Disallow (ECall name args).
Proof.
  intros name args A F. pose proof (not_relative name args (or_introl A)) as NR. unfold arity_ok in A.
  destruct (map_args_ok Disallow args F) as (cs & M & S). destruct (args_values cs args S) as [G V].
  assert (L : length cs = length args) by (clear - S; induction S; cbn; congruence).
  unfold translated. cbn [to_spark_expr]. unfold eval_fn.
  destruct (String.eqb name "if") eqn:N1.
  { apply String.eqb_eq in N1. subst name. destruct args as [|a [|b [|c [|]]]]; try discriminate A.
    rewrite if_call. cbn [map]. inversion F as [|? ? Ta F1]; subst. inversion F1 as [|? ? Tb F2]; subst.
    inversion F2 as [|? ? Tc F3]; subst.
    destruct (arg_ok a Ta) as (ca & -> & Sa). destruct (arg_ok b Tb) as (cb & -> & Sb). destruct (arg_ok c Tc) as (cc & -> & Sc).
    cbn [rbind rmap]. eexists. split; [ reflexivity | ]. apply sem_out. now apply sem_if. }
  destruct (str_in name ["case"; "validate"]) eqn:N2.
  { apply andb_true_iff in A. destruct A as [A1 A2]. apply Nat.ltb_lt in A1. apply Nat.even_spec in A2.
    destruct A2 as [k A2]. destruct k as [|k]; [ lia | ]. rewrite A2 in L.
    cbn [str_in existsb] in N2. repeat (apply orb_true_iff in N2; destruct N2 as [N2|N2]); try discriminate N2;
      apply String.eqb_eq in N2; subst name.
    - destruct (case_ok false k cs L G) as (d & E & Gd & H). rewrite case_call. unfold ft_map. rewrite M. cbn [rbind].
      rewrite E. cbn [rmap]. eexists. split; [ reflexivity | ]. apply sem_out. split; [ apply Gd | split; [ apply Gd | ]].
      intros sp row v Ev. unfold ev_of in Ev. rewrite ev_call in Ev by exact NR.
      destruct (all_some (map (ev sp row) args)) as [vs|] eqn:Av; [ | discriminate ]. apply (H sp row vs v); auto.
    - destruct (case_ok true k cs L G) as (d & E & Gd & H). rewrite validate_call. unfold ft_map. rewrite M. cbn [rbind].
      rewrite E. cbn [rmap]. eexists. split; [ reflexivity | ]. apply sem_out. split; [ apply Gd | split; [ apply Gd | ]].
      intros sp row v Ev. unfold ev_of in Ev. rewrite ev_call in Ev by exact NR.
      destruct (all_some (map (ev sp row) args)) as [vs|] eqn:Av; [ | discriminate ]. apply (H sp row vs v); auto. }
  destruct (String.eqb name "coalesce") eqn:N3.
  { apply String.eqb_eq in N3. subst name. rewrite coalesce_call. unfold ft_map. rewrite M. cbn [rbind rmap].
    eexists. split; [ reflexivity | ]. apply sem_out. apply sem_fn; [ reflexivity | exact G | ].
    intros sp row v Ev. unfold ev_of in Ev. rewrite ev_call in Ev by exact NR.
    destruct (all_some (map (ev sp row) args)) as [vs|] eqn:Av; [ | discriminate ]. exists vs. split; [ now apply V | ].
    unfold fn_val. change (String.eqb "coalesce" "coalesce") with true. cbv beta iota. rewrite find_first. exact Ev. }
  destruct (str_in name ["true"; "false"; "null"]) eqn:N4.
  { apply Nat.eqb_eq in A. destruct args; [ | discriminate A ]. cbn [map].
    cbn [str_in existsb] in N4. repeat (apply orb_true_iff in N4; destruct N4 as [N4|N4]); try discriminate N4;
      apply String.eqb_eq in N4; subst name.
    - eexists. split; [ exact (f_equal (rmap PCol) true_call) | ]. apply sem_out.
      eapply sem_col_ext; [ apply (sem_col_lit "True" (SBool true)); reflexivity | ]. intros sp row v E. exact E.
    - eexists. split; [ exact (f_equal (rmap PCol) false_call) | ]. apply sem_out.
      eapply sem_col_ext; [ apply (sem_col_lit "False" (SBool false)); reflexivity | ]. intros sp row v E. exact E.
    - eexists. split; [ exact (f_equal (rmap PCol) null_call) | ]. apply sem_out.
      eapply sem_col_ext; [ apply (sem_col_lit "None" SNull); reflexivity | ]. intros sp row v E. exact E. }
  assert (AF : forall sp l, apply_fn sp name l =
     match lookup_name name value_functions, l with
         | Some g, [a] => fn_val sp g [AVal a]
         | _, _ =>
             match lookup_name name two_value_functions, l with
             | Some g, [a; b] => fn_val sp g [AVal a; AVal b]
             | _, _ => more_fn sp name l
             end
         end).
  { intros sp l. unfold apply_fn. cbn [str_in existsb] in N2, N4.
    apply orb_false_iff in N2. destruct N2 as [N2a N2b]. apply orb_false_iff in N2b. destruct N2b as [N2b _].
    apply orb_false_iff in N4. destruct N4 as [N4a N4b]. apply orb_false_iff in N4b. destruct N4b as [N4b N4c].
    apply orb_false_iff in N4c. destruct N4c as [N4c _]. now rewrite N1, N2a, N2b, N3, N4a, N4b, N4c. }
  destruct (lookup_name name value_functions) as [g|] eqn:E1.
  - pose proof (value_entries _ _ E1) as U. rewrite (unary_call name g _ U). destruct U as (_ & _ & U).
    apply Nat.eqb_eq in A. destruct args as [|a [|]]; try discriminate A. inversion F as [|? ? Ta _]; subst.
    destruct (arg_ok a Ta) as (ca & Ea & Sa). cbn [map ft1]. rewrite Ea. cbn [rbind rmap].
    eexists. split; [ reflexivity | ]. apply sem_out. apply (sem_fn g [ca]); [ exact U | repeat constructor; apply Sa | ].
    intros sp row v Ev. unfold ev_of in Ev. rewrite ev_call in Ev by exact NR. cbn [map all_some] in Ev.
    destruct (ev sp row a) as [x|] eqn:Ex; [ | discriminate ]. cbn [option_map] in Ev. rewrite AF in Ev.
    exists [x]. split; [ constructor; [ now apply Sa | constructor ] | exact Ev ].
  - destruct (lookup_name name two_value_functions) as [g|] eqn:E2; [ | discriminate A ].
    pose proof (two_value_entries _ _ E2) as U. rewrite (binary_call name g _ U). destruct U as (_ & _ & _ & U).
    apply Nat.eqb_eq in A. destruct args as [|a [|b [|]]]; try discriminate A. inversion F as [|? ? Ta F1]; subst.
    inversion F1 as [|? ? Tb _]; subst.
    destruct (arg_ok a Ta) as (ca & Ea & Sa). destruct (arg_ok b Tb) as (cb & Eb & Sb).
    cbn [map ft2]. rewrite Ea, Eb. cbn [rbind rmap].
    eexists. split; [ reflexivity | ]. apply sem_out.
    apply (sem_fn g [ca; cb]); [ exact U | constructor; [ split; apply Sa | constructor; [ split; apply Sb | constructor ]] | ].
    intros sp row v Ev. unfold ev_of in Ev. rewrite ev_call in Ev by exact NR. cbn [map all_some] in Ev.
    destruct (ev sp row a) as [x|] eqn:Ex; [ | discriminate ]. destruct (ev sp row b) as [y|] eqn:Ey; [ | discriminate ].
    cbn [option_map] in Ev. rewrite AF in Ev.
    exists [x; y]. split; [ constructor; [ now apply Sa | constructor; [ now apply Sb | constructor ]] | exact Ev ].
Qed.

(** ** Columns a method can be called on *)
Definition holds_of {A} (P : A -> Prop) (r : res A) : Prop := forall a, r = Ok a -> P a.
Lemma of_ok : forall A (P : A -> Prop) a, P a -> holds_of P (Ok a). Proof. intros A P a H b E. now injection E as <-. Qed.
Lemma of_err : forall A (P : A -> Prop), holds_of P Err. Proof. intros A P a E. discriminate. Qed.
Lemma of_bind : forall A B (P : B -> Prop) (r : res A) f, (forall a, holds_of P (f a)) -> holds_of P (let? x := r in f x).
Proof. intros A B P r f H b E. destruct r; cbn in E; try discriminate. eapply H, E. Qed.
Lemma of_map : forall A B (Q : A -> Prop) (P : B -> Prop) f r, holds_of Q r -> (forall a, Q a -> P (f a)) -> holds_of P (rmap f r).
Proof. intros A B Q P f r H G b E. destruct r; cbn in E; try discriminate. injection E as <-. apply G, H. reflexivity. Qed.
Definition bare_dot (c : ColumnLike) : Prop := flat c /\ receiver (PCol c) = true.
Definition dotted (c : ColumnLike) : Prop := exists d n, c = CAliased (PCol d) n /\ bare_dot d.
Lemma dot_out : forall n c, bare_dot c -> dotted (ft_out n c).
Proof. intros n c [F R]. exists c, n. split; [ | now split ]. unfold ft_out, c_aliased. now rewrite (flat_cl c F), (flat_pe c F). Qed.
Lemma when_dot : forall neg l acc c, (forall a, acc = Some a -> bare_dot a) -> when_chain neg acc l = Some (Some c) -> bare_dot c.
Proof.
  intros neg l. assert (K : forall n l acc c, length l <= n -> (forall a, acc = Some a -> bare_dot a) -> when_chain neg acc l = Some (Some c) -> bare_dot c).
  { clear l. induction n as [|n IH]; intros [|x [|y l]] acc c L A H; cbn in L; try lia; cbn [when_chain] in H; try discriminate H.
    - injection H as ->. now apply A.
    - injection H as ->. now apply A.
    - eapply (IH l); [ lia | | exact H ]. intros a E. injection E as <-. destruct acc; split; exact I || reflexivity. }
  intros acc c. apply (K (length l)). lia.
Qed.
Lemma case_dot : forall neg l, holds_of bare_dot (case_body neg l).
Proof.
  intros neg l c E. unfold case_body in E. destruct (when_chain neg None l) as [[d|]|] eqn:W; try discriminate E. injection E as <-.
  eapply when_dot; [ | exact W ]. discriminate.
Qed.
Lemma round_dot : forall t s, holds_of bare_dot (round_time t s).
Proof. intros t s. unfold round_time. destruct (assoc s round_units); [ apply of_ok; now split | apply of_err ]. Qed.
Ltac dots :=
  match goal with
  | |- holds_of _ (Ok _) => apply of_ok; first [ apply dot_out; now split | now split ]
  | |- holds_of _ Err => apply of_err
  | |- holds_of dotted (ft0 _ ?l _) => unfold ft0; destruct l; dots
  | |- holds_of dotted (ft1 _ ?l _) => unfold ft1; destruct l as [|? [|]]; dots
  | |- holds_of dotted (ft2 _ ?l _) => unfold ft2; destruct l as [|? [|? [|]]]; dots
  | |- holds_of dotted (ft_ei _ ?l _) => unfold ft_ei; destruct l as [|? [|? [|]]]; dots
  | |- holds_of dotted (ft_es _ ?l _) => unfold ft_es; destruct l as [|? [|? [|]]]; dots
  | |- holds_of dotted (ft_map _ _ _) => unfold ft_map; dots
  | |- holds_of dotted (rmap _ _) => apply (of_map _ _ bare_dot); [ dots | intros ? ?; now apply dot_out ]
  | |- holds_of bare_dot (case_body _ _) => apply case_dot
  | |- holds_of _ (rbind _ _) => apply of_bind; intro; dots
  | |- holds_of _ (match ?x with _ => _ end) => destruct x; dots
  end.
#[local] Opaque convert_time_format.
Lemma bare_dots : forall name args, str_in name ["max"; "min"]%string = false -> holds_of dotted (eval_fn_bare name args).
Proof.
  intros name args N. unfold eval_fn_bare. cbn [str_in existsb] in N. apply orb_false_iff in N. destruct N as [N1 N2].
  apply orb_false_iff in N2. destruct N2 as [N2 _].
  destruct (existsb (String.eqb name) eval_unsupported); [ dots | ].
  destruct (assoc name eval_unary); [ dots | ]. destruct (assoc name eval_binary); [ dots | ].
  rewrite N1, N2.
  repeat match goal with |- holds_of _ (if String.eqb name ?x then _ else _) => destruct (String.eqb name x); [ try (dots; fail) | ] end.
  all: try (dots; fail).
  - destruct args as [|a [|[e r] rest]]; [ apply of_err | apply of_bind; intro; apply of_err | ]. apply of_bind. intro t. cbv beta iota.
    destruct e as [l|?|?|?|?|?|?|?|?|?]; try exact (of_err _ _). destruct l as [k|?|?|?]; try exact (of_err _ _). destruct k; try exact (of_err _ _).
    intros c E. destruct (round_time _ _) as [d| |] eqn:R; try discriminate E. apply round_dot in R. cbn [rbind] in E. injection E as <-.
    apply dot_out. destruct (sn_offset t0); [ now split | exact R ].
  - apply of_bind. intro l. apply of_ok. eexists _, _. split; [ reflexivity | now split ].
Qed.
Lemma in_dot : forall f l x, field_in_to_spark f l = Ok x -> forall c, pe_unaliased x = PCol c -> receiver (PCol c) = true.
Proof.
  intros f l x E c U. unfold field_in_to_spark in E. destruct (rtraverse (field_in_check f) l) as [cs| |] eqn:Es; try discriminate E. cbn [rbind] in E.
  assert (A : Forall bare_dot cs).
  { clear E U. revert cs Es. induction l as [|k l IH]; intros cs Es; [ injection Es as <-; constructor | ]. rewrite rtraverse_cons in Es.
    destruct (field_in_check f k) as [d| |] eqn:Ek; try discriminate Es. cbn [rbind] in Es.
    destruct (rtraverse (field_in_check f) l) as [ds| |]; try discriminate Es. cbn [rbind] in Es. injection Es as <-. constructor; [ | now apply IH ].
    unfold field_in_check in Ek. destruct k as [lf|?|?|?|?|?|?|?|?|?]; try discriminate Ek. destruct lf as [k|?|?|?]; try discriminate Ek.
    destruct k; try discriminate Ek; injection Ek as <-; now split. }
  assert (B : forall l acc, bare_dot acc -> bare_dot (fold_left (fun acc x => CBinaryOp "|" (PCol acc) (PCol x)) l acc)).
  { induction l0 as [|d l0 IH]; intros acc H; [ exact H | ]. cbn [fold_left]. apply IH. now split. }
  destruct A as [|d cs Hd _]; cbn [join_as_binaries] in E; [ injection E as <-; injection U as <-; reflexivity | ]. injection E as <-. specialize (B cs d Hd). rewrite (flat_pe _ (proj1 B)) in U. injection U as <-. apply B.
Qed.
Lemma dot_of : forall e x c, takes_dot e = true -> to_spark_expr Disallow e = Ok x -> pe_unaliased x = PCol c -> receiver (PCol c) = true.
Proof.
  intros e x c D E U. destruct e as [l|?|l o r|?|n args|f l|?|?|?|?]; try discriminate D; cbn [to_spark_expr] in E; try discriminate E.
  - destruct l as [k|?|?|?]; try discriminate E. destruct k; try discriminate E; injection E as <-; injection U as <-; reflexivity.
  - destruct (cidr_case l (simple_op o) r) as [y|] eqn:C.
    + injection E as <-. unfold cidr_case in C. destruct l as [[[]|?|?|?]|?|?|?|?|?|?|?|?|?]; try discriminate C.
      destruct r as [[[]|?|?|?]|?|?|?|?|?|?|?|?|?]; try discriminate C. destruct (String.eqb _ _); [ | discriminate C ]. injection C as <-. injection U as <-. reflexivity.
    + assert (K : exists a b, x = pbin a (simple_op o) b).
      { destruct (to_spark_expr Disallow l) as [a| |], (to_spark_expr Disallow r) as [b| |]; cbn [rbind] in E;
          destruct r as [[[]|?|?|?]|?|?|?|?|?|?|?|?|?]; try discriminate E; try discriminate D; injection E as <-; eauto. }
      destruct K as (a & b & ->). injection U as <-. reflexivity.
  - destruct (eval_fn Disallow n _) as [d| |] eqn:K; try discriminate E. injection E as <-. apply bare_dots in K; [ | now apply negb_true_iff in D ].
    destruct K as (d' & m & -> & F & R). unfold pe_unaliased, pe_unaliased_with_name in U. cbn [cl_unaliased_with_name fst] in U.
    rewrite (flat_unaliased d' F) in U. injection U as <-. exact R.
  - eapply in_dot; eassumption.
Qed.

(** ** Further functions *)
(** A list of arguments and their values in each row *)
Definition arg_means (x : PExpr) (f : Spark -> Row -> option FArg) : Prop :=
  plain_pexpr x = true /\ forall sp row a, f sp row = Some a -> arg_of sp row (pexpr_tree x) a.
Lemma arg_col : forall c f, sem_col c f -> arg_means (PCol c) (fun sp row => option_map AVal (f sp row)).
Proof.
  intros c f (F & P & H). split; [ exact P | ]. intros sp row a E. destruct (f sp row) as [v|] eqn:Ev; [ | discriminate E ]. injection E as <-.
  unfold arg_of. cbn [pexpr_tree]. rewrite (H sp row v Ev). cbn [option_map]. unfold py_arg. now rewrite flat_not_literal.
Qed.
Lemma arg_code : forall code v, plain_code code = true -> lit_val (code_tree code) = Some v -> arg_means (PyLit code) (fun _ _ => Some (ALit v)).
Proof.
  intros code v P L. split; [ exact P | ]. intros sp row a E. injection E as <-. unfold arg_of. cbn [pexpr_tree].
  rewrite (cv_literal sp row _ v L). cbn [option_map]. unfold py_arg. now rewrite L.
Qed.
Lemma arg_int_code : forall z, arg_means (pylit_int z) (fun _ _ => Some (ALit (SInt z))).
Proof. intro z. apply arg_code; [ apply dec_plain | apply lit_dec ]. Qed.
Lemma arg_str_code : forall s, plain_between dquote s = true -> arg_means (pylit_str s) (fun _ _ => Some (ALit (SStr s))).
Proof. intros s P. apply arg_code; [ now apply quoted_plain | now rewrite quoted_between ]. Qed.
Lemma arg_str_stands : forall s, stands dquote false s = true -> arg_means (pylit_str s) (fun _ _ => Some (ALit (SStr s))).
Proof. intros s P. apply arg_code; [ now apply quoted_stands | now rewrite quoted_tree ]. Qed.
Lemma args_plain : forall xs fs, Forall2 arg_means xs fs -> forallb plain_pexpr xs = true.
Proof. induction 1 as [|x f xs fs [P _] _ IH]; [ reflexivity | ]. cbn [forallb]. now rewrite P. Qed.
Lemma args_hold : forall xs fs sp row l, Forall2 arg_means xs fs -> all_some (map (fun f => f sp row) fs) = Some l ->
  Forall2 (arg_of sp row) (map pexpr_tree xs) l.
Proof.
  intros xs fs sp row l H. revert l. induction H as [|x f xs fs [_ H] _ IH]; intros l E; [ injection E as <-; constructor | ].
  cbn [map all_some] in E. destruct (f sp row) as [a|] eqn:Ea; [ | discriminate E ].
  destruct (all_some _) as [l'|]; [ | discriminate E ]. injection E as <-. cbn [map]. constructor; [ now apply H | now apply IH ].
Qed.
Lemma sem_fn_args : forall g xs fs, fn_name g = true -> String.eqb g "regexp_like" = false -> Forall2 arg_means xs fs ->
  sem_col (c_func g xs) (fun sp row => match all_some (map (fun f => f sp row) fs) with Some l => fn_val sp g l | None => None end).
Proof.
  intros g xs fs N R H. unfold fn_name in N. apply andb_true_iff in N. destruct N as [N D].
  apply andb_true_iff in N. destruct N as [N I1]. apply negb_true_iff in N, D.
  split; [ exact I | split ].
  - cbn [c_func plain_col]. rewrite D, I1. cbn [andb]. eapply args_plain, H.
  - intros sp row v E. destruct (all_some _) as [l|] eqn:El; [ | discriminate E ].
    cbn [c_func col_tree]. rewrite D. change (PCall (PAttr (PName "F") g) ?a []) with (py_F g a).
    rewrite (cv_fn sp row g _ l), named_other; auto. eapply args_hold; eassumption.
Qed.
Definition open_method (m : string) : bool :=
  py_ident m && negb (str_in m ["alias"; "like"; "ilike"; "when"; "otherwise"; "isNotNull"]%string).
Lemma cv_method : forall sp row t m x ts l, open_method m = true -> not_name t -> cv sp row t = Some x -> Forall2 (arg_of sp row) ts l ->
  cv sp row (py_method t m ts) = Some (sp_method sp m x l).
Proof.
  intros sp row t m x ts l O N H A. unfold open_method in O. apply andb_true_iff in O. destruct O as [_ O]. apply negb_true_iff in O.
  cbn [str_in existsb] in O. repeat (apply orb_false_iff in O; destruct O as [?O O]).
  destruct (cvx_of_cv sp row t x H) as [ch E]. unfold cv, py_method. cbn [cvx].
  pose proof (all_some_map _ ts l A) as V. unfold cv in V.
  destruct t; try contradiction; rewrite E, O0, O1, O2, O3, O4, O5; unfold plain_value; rewrite V; reflexivity.
Qed.
Lemma sem_method : forall c f m xs fs, open_method m = true -> sem_col c f -> receiver (PCol c) = true -> Forall2 arg_means xs fs ->
  sem_col (c_method (PCol c) m xs)
    (fun sp row => match f sp row, all_some (map (fun f => f sp row) fs) with Some v, Some l => Some (sp_method sp m v l) | _, _ => None end).
Proof.
  intros c f m xs fs O (F & P & H) R A. pose proof O as O'. unfold open_method in O'. apply andb_true_iff in O'. destruct O' as [O' _].
  unfold c_method. rewrite (flat_pe c F). split; [ exact I | split ].
  - cbn [plain_col plain_pexpr]. now rewrite R, P, O', (args_plain xs fs A).
  - intros sp row v E. destruct (f sp row) as [x|] eqn:Ex; [ | discriminate E ]. destruct (all_some _) as [l|] eqn:El; [ | discriminate E ].
    injection E as <-. cbn [col_tree pexpr_tree]. apply cv_method; [ exact O | apply col_not_name | now apply H | eapply args_hold; eassumption ].
Qed.
(** Texts as numbers *)
Lemma sem_part : forall ca f pattern i, sem_col ca f -> stands dquote false pattern = true ->
  sem_col (c_func "regexp_extract" [PCol ca; pylit_str pattern; pylit_int i]) (fun sp row => option_map (part sp pattern i) (f sp row)).
Proof.
  intros ca f pattern i S P.
  eapply sem_col_ext;
    [ apply (sem_fn_args "regexp_extract" _ _ eq_refl eq_refl (Forall2_cons _ _ (arg_col ca f S) (Forall2_cons _ _ (arg_str_stands pattern P)
        (Forall2_cons _ _ (arg_int_code i) (Forall2_nil _))))) | ].
  intros sp row v E. cbn [map all_some]. destruct (f sp row) as [w|]; [ exact E | discriminate E ].
Qed.
Lemma sem_number : forall c f, sem_col c f -> receiver (PCol c) = true ->
  sem_col (c_method (PCol c) "cast" [pylit_str "double"]) (fun sp row => option_map (as_number sp) (f sp row)).
Proof.
  intros c f S R. eapply sem_col_ext; [ apply sem_method; [ reflexivity | exact S | exact R | exact (Forall2_cons _ _ (arg_str_code "double" eq_refl) (Forall2_nil _)) ] | ].
  intros sp row v E. cbn [map all_some]. destruct (f sp row) as [w|]; [ exact E | discriminate E ].
Qed.
Lemma sem_rmcomma : forall ca f, sem_col ca f -> sem_col (rmcomma (PCol ca)) (fun sp row => option_map (without_commas sp) (f sp row)).
Proof.
  intros ca f S. unfold rmcomma. eapply sem_col_ext;
    [ apply sem_number; [ apply (sem_fn_args "regexp_replace" _ _ eq_refl eq_refl (Forall2_cons _ _ (arg_col ca f S)
        (Forall2_cons _ _ (arg_str_code "," eq_refl) (Forall2_cons _ _ (arg_str_code "" eq_refl) (Forall2_nil _))))) | reflexivity ] | ].
  intros sp row v E. cbn [map all_some]. destruct (f sp row) as [w|]; [ exact E | discriminate E ].
Qed.
Lemma sem_rmunit : forall ca f, sem_col ca f -> sem_col (rmunit (PCol ca)) (fun sp row => option_map (without_unit sp) (f sp row)).
Proof.
  intros ca f S. unfold rmunit. eapply sem_col_ext;
    [ apply sem_number; [ apply (sem_part ca f rmunit_regex 1 S); vm_compute; reflexivity | reflexivity ] | ].
  intros sp row v E. cbv beta. destruct (f sp row) as [w|]; [ exact E | discriminate E ].
Qed.
Lemma sem_memk : forall ca f, sem_col ca f -> sem_col (memk (PCol ca)) (fun sp row => option_map (in_kilobytes sp) (f sp row)).
Proof.
  intros ca f S. unfold memk, pmeth, pfun, pbin. cbv zeta.
  assert (P : stands dquote false memk_regex = true) by (vm_compute; reflexivity).
  pose proof (sem_number _ _ (sem_part ca f memk_regex 1 S P) eq_refl) as (Fn & Pn & Hn).
  pose proof (sem_fn_args "upper" _ _ eq_refl eq_refl (Forall2_cons _ _ (arg_col _ _ (sem_part ca f memk_regex 2 S P)) (Forall2_nil _))) as Su.
  set (num := c_method (PCol (c_func "regexp_extract" [PCol ca; pylit_str memk_regex; pylit_int 1])) "cast" [pylit_str "double"]) in *. set (unit := c_func "upper" _) in *. clearbody num.
  assert (Is : forall u, plain_between dquote u = true ->
    sem_col (c_binary (PCol unit) "==" (plit (dq ++ u ++ dq)))
      (fun sp row => option_map (fun v => compare sp "==" (sp_fn sp "upper" [AVal (part sp memk_regex 2 v)]) (SStr u)) (f sp row))).
  { intros u Pu. destruct Su as (Fu & Pl & Hu). split; [ exact I | split ].
    - unfold c_binary. cbn [plain_col]. rewrite (flat_pe unit Fu). cbn [pe_unaliased pe_unaliased_with_name cl_unaliased_with_name fst plit plain_pexpr plain_col].
      rewrite Pl, (quoted_plain u Pu). reflexivity.
    - intros sp row v E. destruct (f sp row) as [w|] eqn:Ew; [ | discriminate E ]. injection E as <-.
      specialize (Hu sp row (sp_fn sp "upper" [AVal (part sp memk_regex 2 w)])). cbn [map all_some] in Hu. rewrite Ew in Hu. specialize (Hu eq_refl).
      unfold c_binary. rewrite (flat_pe unit Fu). cbn [col_tree pexpr_tree pe_unaliased pe_unaliased_with_name cl_unaliased_with_name fst plit]. rewrite quoted_between by exact Pu.
      erewrite cv_bin; [ | exact Hu | reflexivity ]. unfold compare, lifted. destruct (sp_fn sp "upper" _); reflexivity. }
  pose proof (Is "K" eq_refl) as (_ & Pk & Hk). pose proof (Is "M" eq_refl) as (_ & Pm & Hm). pose proof (Is "G" eq_refl) as (_ & Pg & Hg). clear Is.
  set (ck := c_binary (PCol unit) "==" (plit (dq ++ "K" ++ dq))) in *. set (cm := c_binary (PCol unit) "==" (plit (dq ++ "M" ++ dq))) in *.
  set (cg := c_binary (PCol unit) "==" (plit (dq ++ "G" ++ dq))) in *. clearbody ck cm cg. clear Su. clearbody unit.
  unfold c_binary. rewrite (flat_pe num Fn).
  cbn [pe_unaliased pe_unaliased_with_name cl_unaliased_with_name fst pmeth c_method pfun c_func plit].
  split; [ exact I | split ].
  - cbn [plain_col plain_pexpr receiver forallb]. rewrite Pn, Pk, Pm, Pg. reflexivity.
  - intros sp row v E. destruct (f sp row) as [w|] eqn:Ew; [ | discriminate E ]. injection E as <-.
    specialize (Hn sp row (as_number sp (part sp memk_regex 1 w))). rewrite Ew in Hn. specialize (Hn eq_refl).
    specialize (Hk sp row _ (f_equal (option_map _) Ew)). specialize (Hm sp row _ (f_equal (option_map _) Ew)). specialize (Hg sp row _ (f_equal (option_map _) Ew)).
    set (u := sp_fn sp "upper" [AVal (part sp memk_regex 2 w)]) in *.
    assert (T : forall a b, exists t, truth (compare sp "==" a b) = Some t).
    { intros a b. unfold compare, lifted. destruct a, b; eexists; reflexivity. }
    destruct (T u (SStr "K")) as [tk Tk]. destruct (T u (SStr "M")) as [tm Tm]. destruct (T u (SStr "G")) as [tg Tg].
    cbn [col_tree pexpr_tree map]. change (contains "." "when") with false. cbv iota.
    change (PCall (PAttr (PName "F") "when") ?a []) with (py_F "when" a).
    pose proof (cvx_when sp row _ (pexpr_tree (plit "1.0")) _ (SNum "1.0") _ Hk eq_refl Tk) as C1.
    destruct (branch_of (compare sp "==" u (SStr "K")) (SNum "1.0")) as [w1 c1] eqn:B1.
    assert (N1 : c1 <> NoChain) by (unfold branch_of in B1; destruct (is_true _) in B1; injection B1 as _ <-; discriminate).
    set (t1 := py_F "when" _) in *. pose proof (cvx_method_when sp row t1 _ (pexpr_tree (plit "1024.0")) w1 c1 _ (SNum "1024.0") _ I C1 N1 Hm eq_refl Tm) as C2.
    destruct (match c1 with Decided => (w1, Decided) | _ => branch_of (compare sp "==" u (SStr "M")) (SNum "1024.0") end) as [w2 c2] eqn:B2.
    assert (N2 : c2 <> NoChain) by (destruct c1; [ congruence | unfold branch_of in B2; destruct (is_true _) in B2 | ]; injection B2 as _ <-; discriminate).
    set (t2 := py_method t1 _ _) in *. pose proof (cvx_method_when sp row t2 _ (pexpr_tree (plit "1048576.0")) w2 c2 _ (SNum "1048576.0") _ I C2 N2 Hg eq_refl Tg) as C3.
    destruct (match c2 with Decided => (w2, Decided) | _ => branch_of (compare sp "==" u (SStr "G")) (SNum "1048576.0") end) as [w3 c3] eqn:B3.
    assert (N3 : c3 <> NoChain) by (destruct c2; [ congruence | unfold branch_of in B3; destruct (is_true _) in B3 | ]; injection B3 as _ <-; discriminate).
    set (t3 := py_method t2 _ _) in *. pose proof (cv_otherwise sp row t3 (pexpr_tree (plit "1.0")) w3 c3 (SNum "1.0") I C3 N3 eq_refl) as C4.
    erewrite cv_bin; [ | exact Hn | exact C4 ].
    unfold in_kilobytes. fold memk_regex. fold u. cbv zeta. clear C1 C2 C3 C4 N3. unfold branch_of in *.
    destruct (is_true (compare sp "==" u (SStr "K"))).
    + injection B1 as <- <-. injection B2 as <- <-. injection B3 as <- <-. unfold lifted. destruct (as_number sp _); reflexivity.
    + injection B1 as <- <-. destruct (is_true (compare sp "==" u (SStr "M"))).
      * injection B2 as <- <-. injection B3 as <- <-. unfold lifted. destruct (as_number sp _); reflexivity.
      * injection B2 as <- <-. destruct (is_true (compare sp "==" u (SStr "G"))); injection B3 as <- <-; unfold lifted; destruct (as_number sp _); reflexivity.
Qed.
Lemma fold_sem : forall (f : PExpr -> PExpr -> PExpr) (g : Spark -> Val -> Val -> Val),
  (forall c d fc fd, sem_col c fc -> sem_col d fd -> exists e, f (PCol c) (PCol d) = PCol e /\
     sem_col e (fun sp row => match fc sp row, fd sp row with Some a, Some b => Some (g sp a b) | _, _ => None end)) ->
  forall cs es, Forall2 (fun c e => sem_col c (ev_of e)) cs es -> forall acc facc, sem_col acc facc ->
  exists e, fold_left f (map PCol cs) (PCol acc) = PCol e /\
    sem_col e (fun sp row => match facc sp row, all_some (map (ev sp row) es) with Some a, Some l => Some (fold_left (g sp) l a) | _, _ => None end).
Proof.
  intros f g H cs es F. induction F as [|c e cs es Hc _ IH]; intros acc facc A.
  - exists acc. split; [ reflexivity | ]. eapply sem_col_ext; [ exact A | ]. intros sp row v E. cbn [map all_some fold_left] in E.
    destruct (facc sp row); [ exact E | discriminate E ].
  - destruct (H acc c facc (ev_of e) A Hc) as (d & Ed & Sd). cbn [map fold_left]. rewrite Ed.
    destruct (IH d _ Sd) as (k & Ek & Sk). exists k. split; [ exact Ek | ]. eapply sem_col_ext; [ exact Sk | ].
    intros sp row v E. cbn [map all_some fold_left] in E. unfold ev_of.
    destruct (facc sp row) as [a|]; [ | discriminate E ]. destruct (ev sp row e) as [b|]; [ | discriminate E ].
    destruct (all_some (map (ev sp row) es)) as [l|]; [ | discriminate E ]. exact E.
Qed.
Lemma add_sem : forall c d fc fd, sem_col c fc -> sem_col d fd -> exists e, pbin (PCol c) "+" (PCol d) = PCol e /\
  sem_col e (fun sp row => match fc sp row, fd sp row with Some a, Some b => Some (lifted (sp_arith sp "+") a b) | _, _ => None end).
Proof.
  intros c d fc fd (Fc & Pc & Hc) (Fd & Pd & Hd). eexists. split; [ reflexivity | ]. unfold c_binary. rewrite (flat_pe c Fc), (flat_pe d Fd).
  split; [ exact I | split ].
  - cbn [plain_col plain_pexpr]. now rewrite Pc, Pd.
  - intros sp row v E. destruct (fc sp row) as [a|] eqn:E1; [ | discriminate E ]. destruct (fd sp row) as [b|] eqn:E2; [ | discriminate E ].
    cbn [col_tree pexpr_tree]. rewrite (cv_bin sp row _ _ _ a b); auto. rewrite <- E. destruct a, b; reflexivity.
Qed.
Lemma two_sem : forall g, fn_name g = true -> String.eqb g "regexp_like" = false -> (forall sp l, fn_val sp g l = Some (sp_fn sp g l)) ->
  forall c d fc fd, sem_col c fc -> sem_col d fd -> exists e, pfun g [PCol c; PCol d] = PCol e /\
  sem_col e (fun sp row => match fc sp row, fd sp row with Some a, Some b => Some (sp_fn sp g [AVal a; AVal b]) | _, _ => None end).
Proof.
  intros g N R V c d fc fd Hc Hd. eexists. split; [ reflexivity | ].
  eapply sem_col_ext; [ apply (sem_fn_args g _ _ N R (Forall2_cons _ _ (arg_col c fc Hc) (Forall2_cons _ _ (arg_col d fd Hd) (Forall2_nil _)))) | ].
  intros sp row v E. cbn [map all_some]. destruct (fc sp row) as [a|]; [ | discriminate E ]. destruct (fd sp row) as [b|]; [ | discriminate E ].
  cbn [option_map]. now rewrite V.
Qed.
Ltac name_cases H := repeat (apply orb_true_iff in H; destruct H as [H|H]); try discriminate H; apply String.eqb_eq in H; subst.
Lemma further_apply : forall name, str_in name further_names = true -> forall sp l, apply_fn sp name l = more_fn sp name l.
Proof. intros name H. cbn in H. name_cases H; reflexivity. Qed.
Lemma lookup_kinds_in : forall name l g, lookup_kinds name l = Some g -> str_in name (map fst l) = true.
Proof.
  intros name l g. unfold str_in. induction l as [|[m h] l IH]; cbn [lookup_kinds map fst existsb]; [ discriminate | ].
  destruct (String.eqb name m); [ reflexivity | exact IH ].
Qed.
Lemma str_in_app : forall n a b, str_in n (a ++ b) = str_in n a || str_in n b.
Proof. intros n a b. apply existsb_app. Qed.
Lemma further_in : forall name args, further name args = true -> str_in name further_names = true.
Proof.
  intros name [|a rest] H; cbn [further] in H.
  - unfold further_names. rewrite str_in_app. apply orb_true_iff. left. cbn [str_in existsb] in *. name_cases H; reflexivity.
  - unfold further_names. rewrite !str_in_app.
    destruct (str_in name ["avg"; "max"; "min"; "mvappend"]%string) eqn:N1; [ cbn [str_in existsb] in *; name_cases N1; reflexivity | ].
    destruct (lookup_kinds name constant_functions) as [[g ks]|] eqn:K; [ rewrite (lookup_kinds_in _ _ _ K); rewrite ?orb_true_r; cbn [orb]; rewrite ?orb_true_r; reflexivity | ].
    destruct (String.eqb name "mvindex") eqn:N2; [ apply String.eqb_eq in N2; subst; reflexivity | ].
    destruct rest as [|b [|]]; [ | | discriminate H ].
    + apply orb_true_iff in H. destruct H as [H|H].
      * rewrite str_in_app in H. apply orb_true_iff in H. destruct H as [H|H]; [ cbn [str_in existsb] in *; name_cases H; reflexivity | ]. rewrite H. rewrite ?orb_true_r; cbn [orb]; rewrite ?orb_true_r; reflexivity.
      * apply andb_true_iff in H. destruct H as [H _]. rewrite H. rewrite ?orb_true_r; cbn [orb]; rewrite ?orb_true_r; reflexivity.
    + apply andb_true_iff in H. destruct H as [H _]. rewrite H. rewrite ?orb_true_r; cbn [orb]; rewrite ?orb_true_r; reflexivity.
Qed.
Lemma wrap_small : forall z, (0 <= z < 2 ^ 63)%Z -> wrap64 z = z.
Proof. intros z H. unfold wrap64. rewrite Z.mod_small by lia. lia. Qed.
Lemma kint_ok : forall z r, arg_int (ELeaf (LConstant (KInt z)), r) = Ok z. Proof. reflexivity. Qed.
Lemma kstr_ok : forall s r, arg_str (ELeaf (LConstant (KStr s)), r) = Ok s. Proof. reflexivity. Qed.
Lemma constant_cases : forall k e, is_constant k e = true ->
  match k with
  | AnInt => exists z, e = ELeaf (LConstant (KInt z))
  | AText => exists s, e = ELeaf (LConstant (KStr s)) /\ stands dquote false s = true
  end.
Proof.
  intros [] e H; destruct e as [l|?|?|?|?|?|?|?|?|?]; try discriminate H; destruct l as [k|?|?|?]; try discriminate H;
    destruct k; try discriminate H; eauto.
Qed.
Lemma further_ok : forall name args, further name args = true -> Forall (translated Disallow) args ->
  translated Disallow (ECall name args).
Proof.
  intros name args A F. pose proof (further_apply name (further_in name args A)) as AF.
  destruct (map_args_ok Disallow args F) as (cs & M & S).
  assert (Ev : forall c, eval_fn_bare name (map (fun a => (a, to_spark_expr Disallow a)) args) = Ok c ->
     sem (PCol c) (fun sp row => match all_some (map (ev sp row) args) with Some l => more_fn sp name l | None => None end) ->
     translated Disallow (ECall name args)).
  { intros c E H. exists (PCol c). split; [ cbn [to_spark_expr eval_fn]; now rewrite E | ]. eapply sem_ext; [ exact H | ].
    intros sp row v K. unfold ev_of in K. rewrite ev_call in K by (eapply not_relative; right; exact A). cbv beta. destruct (all_some (map (ev sp row) args)); [ | discriminate K ]. rewrite <- AF. exact K. }
  clear AF. unfold further in A. destruct args as [|a rest].
  { cbn [str_in existsb] in A. name_cases A; (eapply Ev; [ reflexivity | ]); apply sem_out.
    - eapply sem_col_ext; [ apply (sem_col_lit "3.141592653589793" (SNum "3.141592653589793")); reflexivity | ]. intros sp row v E; exact E.
    - eapply sem_col_ext; [ apply (sem_fn_args "current_timestamp" [] [] eq_refl eq_refl (Forall2_nil _)) | ]. intros sp row v E; exact E.
    - eapply sem_col_ext; [ apply (sem_fn_args "current_timestamp" [] [] eq_refl eq_refl (Forall2_nil _)) | ]. intros sp row v E; exact E. }
  inversion F as [|? ? Fa Fr]; subst. inversion S as [|ca ? cr ? Sa Sr]; subst.
  destruct (arg_ok a Fa) as (ca' & Ea & _).
  assert (ca' = ca).
  { cbn [map] in M. unfold map_args in M. rewrite rtraverse_cons in M. rewrite Ea in M. cbn [rbind] in M.
    match type of M with rbind ?r _ = _ => destruct r end; try discriminate M. cbn [rbind] in M. now injection M. }
  subst ca'.
  destruct (str_in name ["avg"; "max"; "min"; "mvappend"]%string) eqn:N1.
  { clear A. cbn [str_in existsb] in N1. name_cases N1.
    - destruct (fold_sem (fun v c => pbin v "+" c) (fun sp => lifted (sp_arith sp "+")) add_sem cr rest Sr ca _ Sa) as (k & Ek & Fk & Pk & Hk).
      eapply Ev.
      + unfold eval_fn_bare. cbv beta. change (existsb _ eval_unsupported) with false. cbv iota. change (assoc "avg" eval_unary) with (@None string).
        change (assoc "avg" eval_binary) with (@None string). cbv iota. cbn [String.eqb Ascii.eqb Bool.eqb]. cbv iota.
        unfold ft_map. rewrite M. cbn [map rbind fold_args]. rewrite Ek. reflexivity.
      + apply sem_out. unfold c_binary. rewrite (flat_pe k Fk). change (pe_unaliased (pylit_int ?z)) with (pylit_int z).
        split; [ exact I | split ].
        * cbn [plain_col plain_pexpr pylit_int]. rewrite Pk. apply dec_plain.
        * intros sp row v E. cbn [map all_some] in E. unfold ev_of in Hk. specialize (Hk sp row).
          destruct (ev sp row a) as [x|] eqn:Ex; [ | discriminate E ].
          destruct (all_some (map (ev sp row) rest)) as [l|] eqn:El; [ | discriminate E ]. cbn [option_map] in E. injection E as <-.
          specialize (Hk _ eq_refl). cbn [col_tree pexpr_tree pylit_int].
          rewrite (cv_bin sp row _ _ _ _ _ Hk (cv_literal sp row _ _ (lit_dec _))).
          assert (Ln : length l = length (map PCol cr)).
          { rewrite map_length. clear - Sr El. revert l El. induction Sr as [|? y ? ? _ _ IH]; intros k0 El; cbn in El; [ now injection El as <- | ].
            destruct (ev sp row y); [ | discriminate ]. destruct (all_some _) as [k1|]; [ | discriminate ]. injection El as <-. cbn. f_equal. now apply IH. }
          cbn [length map]. rewrite Ln. destruct (fold_left _ l x); reflexivity.
    - destruct (fold_sem (fun v c => pfun "greatest" [v; c]) (fun sp m x => sp_fn sp "greatest" [AVal m; AVal x]) (two_sem "greatest" eq_refl eq_refl (fun _ _ => eq_refl)) cr rest Sr ca _ Sa) as (k & Ek & Sk).
      eapply Ev.
      + unfold eval_fn_bare. change (existsb _ eval_unsupported) with false. cbv iota. change (assoc "max" eval_unary) with (@None string).
        change (assoc "max" eval_binary) with (@None string). cbv iota. cbn [String.eqb Ascii.eqb Bool.eqb]. cbv iota.
        rewrite M. cbn [map rbind fold_args]. rewrite Ek. reflexivity.
      + change (ft_out_e "max" (PCol k)) with (c_aliased (pe_unaliased (PCol k)) "max"). rewrite (flat_pe k (proj1 Sk)).
        assert (X : c_aliased (PCol k) "max" = ft_out "max" k) by (unfold ft_out, c_aliased; now rewrite (flat_cl k (proj1 Sk))).
        rewrite X. apply sem_out. eapply sem_col_ext; [ exact Sk | ]. intros sp row v E. unfold ev_of. cbn [map all_some] in E.
        destruct (ev sp row a) as [x|]; [ | discriminate E ]. destruct (all_some (map (ev sp row) rest)); [ exact E | discriminate E ].
    - destruct (fold_sem (fun v c => pfun "least" [v; c]) (fun sp m x => sp_fn sp "least" [AVal m; AVal x]) (two_sem "least" eq_refl eq_refl (fun _ _ => eq_refl)) cr rest Sr ca _ Sa) as (k & Ek & Sk).
      eapply Ev.
      + unfold eval_fn_bare. change (existsb _ eval_unsupported) with false. cbv iota. change (assoc "min" eval_unary) with (@None string).
        change (assoc "min" eval_binary) with (@None string). cbv iota. cbn [String.eqb Ascii.eqb Bool.eqb]. cbv iota.
        rewrite M. cbn [map rbind fold_args]. rewrite Ek. reflexivity.
      + change (ft_out_e "min" (PCol k)) with (c_aliased (pe_unaliased (PCol k)) "min"). rewrite (flat_pe k (proj1 Sk)).
        assert (X : c_aliased (PCol k) "min" = ft_out "min" k) by (unfold ft_out, c_aliased; now rewrite (flat_cl k (proj1 Sk))).
        rewrite X. apply sem_out. eapply sem_col_ext; [ exact Sk | ]. intros sp row v E. unfold ev_of. cbn [map all_some] in E.
        destruct (ev sp row a) as [x|]; [ | discriminate E ]. destruct (all_some (map (ev sp row) rest)); [ exact E | discriminate E ].
    - destruct (args_values (ca :: cr) (a :: rest) S) as [G V].
      eapply Ev.
      + unfold eval_fn_bare. change (existsb _ eval_unsupported) with false. cbv iota. change (assoc "mvappend" eval_unary) with (@None string).
        change (assoc "mvappend" eval_binary) with (@None string). cbv iota. cbn [String.eqb Ascii.eqb Bool.eqb]. cbv iota.
        unfold ft_map. rewrite M. cbn [rbind rmap]. reflexivity.
      + apply sem_out. apply sem_fn; [ reflexivity | exact G | ].
        intros sp row v E. destruct (all_some (map (ev sp row) (a :: rest))) as [vs|] eqn:Av; [ | discriminate E ]. exists vs. split; [ now apply V | ].
        destruct vs; [ | exact E ]. cbn in Av. destruct (ev sp row a); [ | discriminate Av ]. destruct (all_some _); discriminate Av. }
  pose proof (arg_col ca _ Sa) as Aa.
  destruct (lookup_kinds name constant_functions) as [[g ks]|] eqn:K.
  { unfold constant_functions in K. cbn [lookup_kinds] in K.
    repeat match type of K with (if String.eqb name ?x then _ else _) = _ =>
      let N := fresh "N" in destruct (String.eqb name x) eqn:N; [ apply String.eqb_eq in N; subst name; injection K as <- <- | ] end; [ .. | discriminate K ].
    all: destruct rest as [|b [|c [|]]]; try discriminate A; cbn [are_constants] in A; rewrite ?andb_false_r in A; try discriminate A.
    all: rewrite ?andb_true_r in A; try (apply andb_true_iff in A; destruct A as [A B]; apply constant_cases in B); apply constant_cases in A.
    all: cbn iota beta in *.
    all: repeat match goal with H : exists _, _ |- _ => destruct H as [? H] end; subst; repeat match goal with H : _ /\ _ |- _ => destruct H; subst end.
    all: try discriminate; (eapply Ev; [ cbn [map]; unfold eval_fn_bare; cbv beta; cbn [existsb eval_unsupported assoc eval_unary eval_binary String.eqb Ascii.eqb Bool.eqb orb]; cbv iota;
           unfold ft_ei, ft_es; rewrite Ea; rewrite ?kint_ok, ?kstr_ok; cbn [rbind rmap]; reflexivity | ]).
    all: apply sem_out; eapply sem_col_ext;
         [ apply sem_fn_args; [ reflexivity | reflexivity | repeat first [ apply Forall2_nil | apply Forall2_cons; [ first [ exact Aa | apply arg_int_code | now apply arg_str_stands ] | ] ] ] | ].
    all: intros sp row v E; cbn [map all_some ev const_val] in E |- *; unfold ev_of; destruct (ev sp row a) as [w|]; [ exact E | discriminate E ]. }
  destruct (String.eqb name "mvindex") eqn:N2.
  { apply String.eqb_eq in N2. subst name. destruct rest as [|b [|c [|]]]; try discriminate A.
    - cbn [map] in A. destruct (int_constant b) as [z|] eqn:Eb; [ | discriminate A ].
      destruct b as [l|?|?|?|?|?|?|?|?|?]; try discriminate Eb. destruct l as [k|?|?|?]; try discriminate Eb. destruct k; try discriminate Eb.
      cbn in Eb. injection Eb as ->.
      eapply Ev.
      + cbn [map]. unfold eval_fn_bare. cbn [existsb eval_unsupported assoc eval_unary eval_binary String.eqb Ascii.eqb Bool.eqb orb]. cbv iota.
        rewrite Ea, kint_ok. cbn [rbind]. reflexivity.
      + apply sem_out. eapply sem_col_ext;
          [ apply (sem_fn_args "get" _ _ eq_refl eq_refl (Forall2_cons _ _ Aa (Forall2_cons _ _ (arg_int_code z) (Forall2_nil _)))) | ].
        intros sp row v E; cbn [map all_some ev const_val] in E |- *; unfold ev_of; destruct (ev sp row a) as [w|]; [ exact E | discriminate E ].
    - cbn [map] in A. destruct (int_constant b) as [z|] eqn:Eb; [ | discriminate A ]. destruct (int_constant c) as [y|] eqn:Ec; [ | discriminate A ].
      destruct b as [l|?|?|?|?|?|?|?|?|?]; try discriminate Eb. destruct l as [k|?|?|?]; try discriminate Eb. destruct k; try discriminate Eb.
      destruct c as [l|?|?|?|?|?|?|?|?|?]; try discriminate Ec. destruct l as [k|?|?|?]; try discriminate Ec. destruct k; try discriminate Ec.
      cbn in Eb, Ec. injection Eb as ->. injection Ec as ->.
      apply andb_true_iff in A. destruct A as [A A3]. apply andb_true_iff in A. destruct A as [A1 A2].
      apply Z.leb_le in A1, A2. apply Z.ltb_lt in A3.
      eapply Ev.
      + cbn [map]. unfold eval_fn_bare. cbn [existsb eval_unsupported assoc eval_unary eval_binary String.eqb Ascii.eqb Bool.eqb orb]. cbv iota.
        rewrite Ea, !kint_ok. cbn [rbind]. rewrite (wrap_small (z + 1)) by lia. rewrite (wrap_small (y - z)) by lia. rewrite (wrap_small (y - z + 1)) by lia. reflexivity.
      + apply sem_out. eapply sem_col_ext;
          [ apply (sem_fn_args "slice" _ _ eq_refl eq_refl (Forall2_cons _ _ Aa (Forall2_cons _ _ (arg_int_code (z + 1)) (Forall2_cons _ _ (arg_int_code (y - z + 1)) (Forall2_nil _))))) | ].
        intros sp row v E; cbn [map all_some ev const_val] in E |- *; unfold ev_of; destruct (ev sp row a) as [w|]; [ exact E | discriminate E ].
    - cbn [map] in A. destruct (int_constant b), (int_constant c); discriminate A. }
  destruct rest as [|b [|]]; [ | | discriminate A ].
  - apply orb_true_iff in A. destruct A as [A|A].
    + cbn [str_in existsb app map fst hashes] in A. clear K N1 N2. name_cases A.
      all: eapply Ev; [ cbn [map]; unfold eval_fn_bare; cbn [existsb eval_unsupported assoc eval_unary eval_binary String.eqb Ascii.eqb Bool.eqb orb]; cbv iota;
        unfold ft1; rewrite Ea; cbn [rbind rmap]; reflexivity | ]; apply sem_out.
      * split; [ exact I | split ].
        -- cbn [c_method pfun pe_unaliased pe_unaliased_with_name cl_unaliased_with_name fst c_func plain_col receiver forallb plain_pexpr pylit_str].
           rewrite (proj1 (proj2 Sa)). reflexivity.
        -- intros sp row v E. cbn [map all_some] in E. destruct (ev sp row a) as [w|] eqn:Ew; [ | discriminate E ]. cbn in E. injection E as <-.
           pose proof (sem_fn_args "get_json_object" _ _ eq_refl eq_refl (Forall2_cons _ _ Aa (Forall2_cons _ _ (arg_str_code "$" eq_refl) (Forall2_nil _)))) as (_ & _ & H).
           specialize (H sp row). cbn [map all_some] in H. unfold ev_of in H. rewrite Ew in H. specialize (H _ eq_refl).
           destruct (cvx_of_cv sp row _ _ H) as [ch X].
           change (col_tree (c_method (pfun "get_json_object" [PCol ca; pylit_str "$"]) "isNotNull" []))
             with (py_method (col_tree (c_func "get_json_object" [PCol ca; pylit_str "$"])) "isNotNull" []).
           unfold cv, py_method. cbn [cvx]. destruct (col_tree (c_func _ _)) eqn:Y; try discriminate Y. rewrite X. reflexivity.
      * eapply sem_col_ext; [ apply sem_rmcomma; exact Sa | ].
        intros sp row v E; cbn [map all_some ev const_val] in E |- *; unfold ev_of; destruct (ev sp row a) as [w|]; [ exact E | discriminate E ].
      * eapply sem_col_ext; [ apply sem_rmunit; exact Sa | ].
        intros sp row v E; cbn [map all_some ev const_val] in E |- *; unfold ev_of; destruct (ev sp row a) as [w|]; [ exact E | discriminate E ].
      * eapply sem_col_ext; [ apply sem_memk; exact Sa | ].
        intros sp row v E; cbn [map all_some ev const_val] in E |- *; unfold ev_of; destruct (ev sp row a) as [w|]; [ exact E | discriminate E ].
      * eapply sem_col_ext;
          [ apply (sem_fn_args "sha2" _ _ eq_refl eq_refl (Forall2_cons _ _ Aa (Forall2_cons _ _ (arg_int_code 256) (Forall2_nil _)))) | ].
        intros sp row v E; cbn [map all_some ev const_val] in E |- *; unfold ev_of; destruct (ev sp row a) as [w|]; [ exact E | discriminate E ].
      * eapply sem_col_ext;
          [ apply (sem_fn_args "sha2" _ _ eq_refl eq_refl (Forall2_cons _ _ Aa (Forall2_cons _ _ (arg_int_code 512) (Forall2_nil _)))) | ].
        intros sp row v E; cbn [map all_some ev const_val] in E |- *; unfold ev_of; destruct (ev sp row a) as [w|]; [ exact E | discriminate E ].
    + apply andb_true_iff in A. destruct A as [A D]. cbn [str_in existsb app map fst conversions] in A. clear K N1 N2.
      assert (R : receiver (PCol ca) = true).
      { unfold arg_expr in Ea. cbn [snd] in Ea. destruct (to_spark_expr Disallow a) as [x| |] eqn:Ex; try discriminate Ea. cbn [rmap rbind] in Ea. injection Ea as Ea.
        eapply dot_of; eassumption. }
      name_cases A.
      all: eapply Ev; [ cbn [map]; unfold eval_fn_bare; cbn [existsb eval_unsupported assoc eval_unary eval_binary String.eqb Ascii.eqb Bool.eqb orb]; cbv iota;
        unfold ft1; rewrite Ea; cbn [rbind rmap]; reflexivity | ]; apply sem_out.
      all: eapply sem_col_ext;
          [ apply sem_method; [ reflexivity | exact Sa | exact R | apply Forall2_cons; [ apply arg_str_code; reflexivity | apply Forall2_nil ] ] | ].
      all: intros sp row v E; cbn [map all_some ev const_val] in E |- *; unfold ev_of; destruct (ev sp row a) as [w|]; [ exact E | discriminate E ].
  - apply andb_true_iff in A. destruct A as [A D]. cbn [str_in existsb app map fst bitwise] in A. clear K N1 N2.
    assert (R : receiver (PCol ca) = true).
    { unfold arg_expr in Ea. cbn [snd] in Ea. destruct (to_spark_expr Disallow a) as [x| |] eqn:Ex; try discriminate Ea. cbn [rmap rbind] in Ea. injection Ea as Ea.
      eapply dot_of; eassumption. }
    inversion Fr as [|? ? Fb _]; subst. destruct (arg_ok b Fb) as (cb & Eb & Sb). pose proof (arg_col cb _ Sb) as Ab.
    name_cases A.
    all: eapply Ev; [ cbn [map]; unfold eval_fn_bare; cbn [existsb eval_unsupported assoc eval_unary eval_binary String.eqb Ascii.eqb Bool.eqb orb]; cbv iota;
        unfold ft2; rewrite Ea, Eb; cbn [rbind rmap]; reflexivity | ]; apply sem_out.
    all: eapply sem_col_ext;
          [ apply sem_method; [ reflexivity | exact Sa | exact R | exact (Forall2_cons _ _ Ab (Forall2_nil _)) ] | ].
    all: intros sp row v E; cbn [map all_some ev const_val] in E |- *; unfold ev_of; destruct (ev sp row a) as [w|]; [ | discriminate E ];
         destruct (ev sp row b) as [y|]; [ destruct y; exact E | discriminate E ].
Qed.

(** ** Expressions *)
Lemma cidr_none : forall calls l op r, plain_expr calls r = true \/ (exists p, r = ELeaf (LConstant (KWildcard p))) -> cidr_case l op r = None.
Proof.
  intros calls l op r H. unfold cidr_case. destruct l as [[[]|?|?|?]|?|?|?|?|?|?|?|?|?]; try reflexivity.
  destruct r as [[[]|?|?|?]|?|?|?|?|?|?|?|?|?]; try reflexivity. destruct H as [H|[p H]]; discriminate H.
Qed.
Lemma snap_args : forall calls name args,
  match args with
  | [a; ELeaf (LConstant (KSnapTime s))] => String.eqb name "relative_time" && plain_expr calls a && plain_snap s
  | _ => false
  end = true ->
  exists a s, name = "relative_time"%string /\ args = [a; ELeaf (LConstant (KSnapTime s))] /\ plain_expr calls a = true /\ plain_snap s = true.
Proof.
  intros calls name args P. destruct args as [|a [|[l|?|?|?|?|?|?|?|?|?] [|]]]; try discriminate P.
  all: destruct l as [[]|?|?|?]; try discriminate P.
  apply andb_true_iff in P. destruct P as [P Ps]. apply andb_true_iff in P. destruct P as [N P]. apply String.eqb_eq in N. subst. eauto 8.
Qed.
Lemma unit_cases : forall u, plain_unit u = true -> exists n t, upper u = n /\ unit_name u = n /\ unit_start u = t /\ assoc u round_units = Some t
  /\ plain_between dquote n = true /\ plain_between dquote t = true.
Proof.
  intros u H. unfold plain_unit in H. cbn [str_in existsb map fst time_units] in H. name_cases H; do 2 eexists; repeat split; reflexivity.
Qed.
From Coq Require Import DecimalString.
Lemma dec_between : forall z, plain_between dquote (dec z) = true.
Proof.
  intro z. unfold dec. assert (U : forall d, plain_between dquote (NilEmpty.string_of_uint d) = true) by (induction d; [ reflexivity | .. ]; exact IHd).
  assert (N : forall d, plain_between dquote (NilZero.string_of_uint d) = true) by (intro d; destruct d; [ reflexivity | .. ]; apply U).
  destruct (Z.to_int z) as [d|d]; cbn [NilZero.string_of_int]; [ apply N | exact (N d) ].
Qed.
Lemma between_app : forall q a b, plain_between q (a ++ b) = plain_between q a && plain_between q b.
Proof. intros q a b. unfold plain_between. induction a as [|c a IH]; [ reflexivity | ]. cbn [append sforall]. now rewrite IH, andb_assoc. Qed.
Lemma sem_moved : forall c f o, sem_col c f -> plain_unit (ts_scale o) = true ->
  sem_col (offset_time (PCol c) o) (fun sp row => option_map (moved sp row (Some o)) (f sp row)).
Proof.
  intros c f o S P. destruct (unit_cases _ P) as (n & t & E1 & E2 & _ & _ & Pn & _).
  unfold offset_time. rewrite E1.
  assert (B : plain_between dquote ("INTERVAL " ++ dec (ts_value o) ++ " " ++ n) = true).
  { rewrite !between_app, dec_between, Pn. reflexivity. }
  set (q := ("INTERVAL " ++ dec (ts_value o) ++ " " ++ n)%string) in *.
  assert (D : sem_col (c_func "expr" [pylit_str q]) (fun sp row => Some (sp_sql sp q row))).
  { split; [ exact I | split ].
    - cbn [c_func plain_col forallb plain_pexpr pylit_str]. now rewrite quoted_plain.
    - intros sp row v E. cbn [c_func col_tree map pexpr_tree pylit_str]. rewrite quoted_between by exact B. exact E. }
  destruct (add_sem c _ _ _ S D) as (e & Ee & He).
  unfold pbin in Ee. injection Ee as Ee. unfold pexpr_sql, pfun. rewrite Ee.
  eapply sem_col_ext; [ exact He | ]. intros sp row v E. cbv beta. destruct (f sp row); [ | discriminate E ].
  cbn [option_map] in E. unfold moved, interval in E. rewrite E2 in E. exact E.
Qed.
Lemma relative_ok : forall a s, translated Disallow a -> plain_snap s = true ->
  translated Disallow (ECall "relative_time" [a; ELeaf (LConstant (KSnapTime s))]).
Proof.
  intros a s T P. destruct (arg_ok a T) as (ca & Ea & Sa).
  unfold plain_snap in P. apply andb_true_iff in P. destruct P as [P P3]. apply andb_true_iff in P. destruct P as [P1 P2].
  destruct (unit_cases _ P2) as (n & u & _ & _ & E3 & E4 & _ & Pu).
  pose proof (sem_fn_args "to_timestamp" _ _ eq_refl eq_refl (Forall2_cons _ _ (arg_col ca _ Sa) (Forall2_nil _))) as S1.
  assert (S2 : sem_col (match sn_span s with None => c_func "to_timestamp" [PCol ca] | Some sp => offset_time (PCol (c_func "to_timestamp" [PCol ca])) sp end)
    (fun sp row => option_map (fun v => moved sp row (sn_span s) (sp_fn sp "to_timestamp" [AVal v])) (ev sp row a))).
  { destruct (sn_span s) as [o|].
    - eapply sem_col_ext; [ apply (sem_moved _ _ o S1 P1) | ]. intros sp row v E. cbn [map all_some]. unfold ev_of. destruct (ev sp row a); [ exact E | discriminate E ].
    - eapply sem_col_ext; [ exact S1 | ]. intros sp row v E. cbn [map all_some]. unfold ev_of. destruct (ev sp row a); [ exact E | discriminate E ]. }
  match type of S2 with sem_col ?c _ => set (c2 := c) in * end.
  pose proof (sem_fn_args "date_trunc" _ _ eq_refl eq_refl (Forall2_cons _ _ (arg_str_code u Pu) (Forall2_cons _ _ (arg_col c2 _ S2) (Forall2_nil _)))) as S3.
  set (c3 := c_func "date_trunc" [pylit_str u; PCol c2]) in *.
  assert (S4 : sem_col (match sn_offset s with None => c3 | Some o => offset_time (PCol c3) o end)
    (fun sp row => option_map (relative sp row s) (ev sp row a))).
  { unfold relative. destruct (sn_offset s) as [o|].
    - eapply sem_col_ext; [ apply (sem_moved _ _ o S3 P3) | ]. intros sp row v E. cbn [map all_some]. unfold start_of in E. rewrite E3 in E.
      destruct (ev sp row a); [ exact E | discriminate E ].
    - eapply sem_col_ext; [ exact S3 | ]. intros sp row v E. cbn [map all_some]. unfold start_of in E. rewrite E3 in E.
      destruct (ev sp row a); [ exact E | discriminate E ]. }
  match type of S4 with sem_col ?c _ => set (c4 := c) in * end.
  exists (PCol (ft_out "now" c4)). split.
  - cbn [to_spark_expr map eval_fn]. unfold eval_fn_bare. cbn [existsb eval_unsupported assoc eval_unary eval_binary String.eqb Ascii.eqb Bool.eqb orb]. cbv iota.
    rewrite Ea. cbn [rbind]. unfold round_time. rewrite E4. reflexivity.
  - apply sem_out. eapply sem_col_ext; [ exact S4 | ]. intros sp row v E. unfold ev_of in E. cbn [ev map all_some const_val] in E.
    cbv beta. destruct (ev sp row a); cbn in E; exact E.
Qed.
Lemma expr_ok : forall rt calls, (calls = true -> rt = Disallow) ->
  forall e, plain_expr calls e = true -> translated rt e.
Proof.
  intros rt calls R e. induction e as [l o r IHl IHr|o r IH|n args F|e n IH|e He] using expr_induct; intro P.
  - assert (C : (exists p, r = ELeaf (LConstant (KWildcard p))) \/
        (forall p, r <> ELeaf (LConstant (KWildcard p)))).
    { destruct r as [[[]|?|?|?]|?|?|?|?|?|?|?|?|?]; try (right; intros q; discriminate). left. eauto. }
    destruct C as [[p ->]|C].
    + cbn [plain_expr] in P. destruct l as [[[]|?|?|?]|?|?|?|?|?|?|?|?|?]; try discriminate P.
      apply andb_true_iff in P. destruct P as [P O]. apply andb_true_iff in P. destruct P as [Pn Pp].
      destruct (sem_like s p Pn Pp) as (_ & P1 & H1).
      assert (SL : sem (pmeth (pcol s) "like" [pylit_str (wildcard_to_like p)]) (fun _ row => Some (wild_val (cell s row) p)))
        by (apply sem_of_col; split; [ exact I | split; assumption ]).
      unfold translated. cbn [str_in existsb] in O.
      repeat (apply orb_true_iff in O; destruct O as [O|O]); try discriminate O; apply String.eqb_eq in O; subst o.
      * eexists. split; [ reflexivity | ]. eapply sem_ext; [ exact SL | ]. intros sp row v E. exact E.
      * eexists. split; [ reflexivity | ]. eapply sem_ext; [ exact SL | ]. intros sp row v E. exact E.
      * eexists. split; [ reflexivity | ]. eapply sem_ext; [ apply sem_not; exact SL | ]. intros sp row v E. exact E.
    + assert (P' : plain_expr calls l && plain_expr calls r && str_in o (["AND"; "OR"]%string ++ spl_comparisons ++ spl_arithmetic) = true).
      { cbn [plain_expr] in P. destruct r as [[[]|?|?|?]|?|?|?|?|?|?|?|?|?]; try exact P. exfalso. eapply C. reflexivity. }
      apply andb_true_iff in P'. destruct P' as [P' O]. apply andb_true_iff in P'. destruct P' as [Pl Pr].
      destruct (IHl Pl) as (x & Ex & Sx). destruct (IHr Pr) as (y & Ey & Sy).
      exists (pbin x (simple_op o) y). split.
      * cbn [to_spark_expr]. rewrite (cidr_none calls) by (now left).
        rewrite Ex, Ey. cbn [rbind]. destruct r as [[[]|?|?|?]|?|?|?|?|?|?|?|?|?]; try reflexivity. exfalso. eapply C. reflexivity.
      * eapply sem_ext; [ apply (sem_bin x y _ _ o O Sx Sy) | ]. intros sp row v E. unfold ev_of in *. cbn [ev] in E.
        destruct r as [[[]|?|?|?]|?|?|?|?|?|?|?|?|?]; try exact E. exfalso. eapply C. reflexivity.
  - cbn [plain_expr] in P. apply andb_true_iff in P. destruct P as [O P]. apply String.eqb_eq in O. subst o.
    destruct (IH P) as (x & Ex & Sx). exists (pnot x). split; [ cbn [to_spark_expr]; now rewrite Ex | ].
    eapply sem_ext; [ apply sem_not, Sx | ]. intros sp row v E. exact E.
  - cbn [plain_expr] in P. apply andb_true_iff in P. destruct P as [Pc P]. rewrite (R Pc) in *.
    apply orb_true_iff in P. destruct P as [P|P].
    2: { destruct (snap_args _ _ _ P) as (a & s & -> & -> & Pa & Ps). inversion F as [|? ? Fa _]; subst. apply relative_ok; auto. }
    apply andb_true_iff in P. destruct P as [A Pa]. apply orb_true_iff in A.
    assert (T : Forall (translated Disallow) args) by (rewrite forallb_forall in Pa; rewrite Forall_forall in F |- *; intros a Ha; apply F; auto).
    destruct A as [A|A]; [ now apply call_ok | now apply further_ok ].
  - discriminate P.
  - destruct e as [l|?|?|?|?|f l|?|?|?|?]; try contradiction; try discriminate P.
    + cbn [plain_expr] in P. unfold translated. destruct l as [k|?|?|?]; try discriminate P.
      destruct k as [ |b|z|t|s|?|?|s|s|?|s]; try discriminate P; cbn [to_spark_expr leaf_to_spark].
      * eexists. split; [ reflexivity | ]. eapply sem_ext; [ apply (sem_lit (dec z) (SInt z)); [ apply dec_plain | apply lit_dec ] | ].
        intros sp row v E. exact E.
      * destruct (number_code t P) as (P1 & w & L & N).
        eexists. split; [ reflexivity | ]. eapply sem_ext; [ apply (sem_lit t w); assumption | ].
        intros sp row v E. unfold ev_of in E. cbn [ev const_val] in E. now rewrite L in E.
      * eexists. split; [ reflexivity | ]. eapply sem_ext; [ apply (sem_lit _ (SStr s)); [ now apply squoted_stands | now rewrite squoted_tree ] | ].
        intros sp row v E. exact E.
      * eexists. split; [ reflexivity | ]. eapply sem_ext; [ apply (sem_name s P) | ]. intros sp row v E. exact E.
    + cbn [plain_expr] in P. apply andb_true_iff in P. destruct P as [Pf Pl]. destruct l as [|k l]; [ discriminate | ].
      destruct (sem_in f (k :: l) Pf) as (x & E & S); [ discriminate | exact Pl | ].
      exists x. split; [ exact E | ]. exact S.
Qed.
