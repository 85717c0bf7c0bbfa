(** C17, C22: an invariant of every generated column and data frame *)
From Coq Require Import Lia Permutation.
From Verif Require Import Str SplAst PyAst Functions Transpile Render Commands SpecPipe PipeFacts AllowFacts.
Open Scope string_scope.

Definition post {A} (P : A -> Prop) (r : res A) : Prop := forall a, r = Ok a -> P a.
Lemma post_ok : forall A (P : A -> Prop) a, P a -> post P (Ok a).
Proof. intros A P a H b E. now injection E as <-. Qed.
Lemma post_err : forall A (P : A -> Prop), post P Err. Proof. intros A P a E. discriminate. Qed.
Lemma post_bind : forall A B (Q : A -> Prop) (P : B -> Prop) r f, post Q r -> (forall a, Q a -> post P (f a)) -> post P (let? x := r in f x).
Proof. intros A B Q P r f H1 H2 b E. apply rbind_inv in E. destruct E as (a & E1 & E2). exact (H2 a (H1 a E1) b E2). Qed.
Lemma post_map : forall A B (Q : A -> Prop) (P : B -> Prop) f r, post Q r -> (forall a, Q a -> P (f a)) -> post P (rmap f r).
Proof. intros A B Q P f [a| | ] H1 H2 b E; try discriminate. injection E as <-. apply H2, H1. reflexivity. Qed.
Lemma post_trav : forall A B (P : B -> Prop) (f : A -> res B) l, Forall (fun a => post P (f a)) l -> post (Forall P) (rtraverse f l).
Proof.
  intros A B P f l H. induction H as [|a l Ha Hl IH]; [ now apply post_ok | ]. rewrite rtraverse_cons.
  eapply post_bind; [ exact Ha | ]. intros b Hb. eapply post_bind; [ exact IH | ]. intros m Hm. apply post_ok. now constructor.
Qed.
Lemma post_any : forall A (r : res A), post (fun _ => True) r. Proof. intros A r a _. exact I. Qed.
Lemma post_or : forall A (P : A -> Prop) r s, post P r -> post P s -> post P (ror_else r s).
Proof. intros A P [a| | ] s H1 H2 b E; cbn in E; auto; discriminate. Qed.

Ltac perr := match goal with |- post _ Err => apply post_err end.
Section Tree.
  Variable okn : string -> Prop.
  Hypothesis okn_plain : forall f, contains "." f = false -> okn f.
  Definition N (c : ColumnLike) : Prop :=
    operands_unaliased c /\ match c with CFunctionCall f _ => okn f | CAliased (PyLit _) _ => False | _ => True end.
  Definition W (c : ColumnLike) : Prop := Forall N (subcolumns c).
  Definition PW (e : PExpr) : Prop := Forall N (subcolumns_of e).
  Lemma W_top : forall c, W c -> N c.
  Proof. intros c H. unfold W in H. destruct c; inversion H; auto. Qed.
  Lemma PW_col : forall c, PW (PCol c) <-> W c. Proof. reflexivity. Qed.
  Lemma PW_lit : forall s, PW (PyLit s). Proof. intro. constructor. Qed.
  Lemma W_unal : forall c, W c -> W (cl_unaliased c) /\ ~ is_alias (cl_unaliased c).
  Proof.
    intros c H. pose proof (W_top c H) as [T1 T2]. unfold cl_unaliased.
    destruct c as [| | | |[c|s] n| |]; cbn [cl_unaliased_with_name fst]; try (split; [ exact H | exact (fun x => x) ]).
    - assert (E : cl_unaliased_with_name c = (c, None)) by (destruct c; try reflexivity; elim T1; exact I).
      rewrite E. cbn [fst]. split; [ | exact T1 ]. unfold W in *. cbn [subcolumns subcolumns_of] in H. now inversion H.
    - contradiction.
  Qed.
  Lemma PW_unal : forall e, PW e -> PW (pe_unaliased e) /\ ~ is_alias_of (pe_unaliased e).
  Proof.
    intros [c|s] H; unfold pe_unaliased; cbn [pe_unaliased_with_name].
    - pose proof (W_unal c H) as U. unfold cl_unaliased in U. destruct (cl_unaliased_with_name c). exact U.
    - split; [ apply PW_lit | exact (fun x => x) ].
  Qed.
  Lemma F_concat : forall l, Forall PW l -> Forall N (concat (map subcolumns_of l)).
  Proof. intros l H. induction H; cbn; [ constructor | ]. apply Forall_app. split; auto. Qed.
  Lemma W_named : forall n, W (CNamed n). Proof. intro. repeat constructor. Qed.
  Lemma W_literal : forall n, W (CLiteral n). Proof. intro. repeat constructor. Qed.
  Lemma W_method : forall e f args, PW e -> Forall PW args -> W (c_method e f args).
  Proof.
    intros e f args He Ha. destruct (PW_unal e He). unfold W, c_method. cbn [subcolumns]. constructor.
    - split; [ assumption | exact I ].
    - apply Forall_app. split; [ assumption | now apply F_concat ].
  Qed.
  Lemma W_call : forall f args, okn f -> Forall PW args -> W (CFunctionCall f args).
  Proof.
    intros f args He Ha. unfold W. cbn [subcolumns]. constructor; [ split; [ exact I | exact He ] | now apply F_concat ].
  Qed.
  Lemma W_func : forall f args, contains "." f = false -> Forall PW args -> W (c_func f args).
  Proof. intros. apply W_call; auto. Qed.
  Lemma W_aliased0 : forall c n, W c -> ~ is_alias c -> W (CAliased (PCol c) n).
  Proof. intros c n H A. unfold W. cbn [subcolumns subcolumns_of]. constructor; [ | exact H ]. split; [ exact A | exact I ]. Qed.
  Lemma W_with_alias : forall c n, W c -> W (cl_with_alias c n).
  Proof.
    intros c n H. destruct (W_unal c H) as [H1 H2]. unfold cl_with_alias, c_aliased, pe_unaliased. cbn [pe_unaliased_with_name].
    destruct (W_unal _ H1) as [H3 H4]. unfold cl_unaliased in H3, H4 at 1.
    destruct (cl_unaliased_with_name (cl_unaliased c)) as [c' o] eqn:E. cbn [fst] in *.
    apply W_aliased0.
    - assert (X : c' = cl_unaliased (cl_unaliased c)) by (unfold cl_unaliased at 1; now rewrite E). rewrite X. now apply W_unal.
    - assert (X : c' = cl_unaliased (cl_unaliased c)) by (unfold cl_unaliased at 1; now rewrite E). rewrite X. now apply W_unal.
  Qed.
  Lemma W_maybe : forall c o, W c -> W (cl_maybe_with_alias c o).
  Proof. intros c [n|] H; cbn; auto. now apply W_with_alias. Qed.
  Lemma W_caliased : forall c n, W c -> W (c_aliased (PCol c) n).
  Proof.
    intros c n H. destruct (PW_unal (PCol c) H) as [H1 H2]. unfold c_aliased.
    unfold pe_unaliased in *. cbn [pe_unaliased_with_name] in *. destruct (cl_unaliased_with_name c). cbn [fst] in *.
    now apply W_aliased0.
  Qed.
  Lemma W_binary : forall l o r, PW l -> PW r -> W (c_binary l o r).
  Proof.
    intros l o r Hl Hr. destruct (PW_unal l Hl), (PW_unal r Hr). unfold W, c_binary. cbn [subcolumns]. constructor.
    - split; [ split; assumption | exact I ].
    - apply Forall_app. now split.
  Qed.
  Lemma W_not : forall r, PW r -> W (c_not r).
  Proof.
    intros r Hr. destruct (PW_unal r Hr). unfold W, c_not. cbn [subcolumns]. constructor; auto.
    split; [ assumption | exact I ].
  Qed.
  Lemma W_ft_out : forall n c, W c -> W (ft_out n c).
  Proof. intros n c H. unfold ft_out. apply W_caliased. now apply W_unal. Qed.
  Lemma W_join : forall o l c, Forall (fun c => W c /\ ~ is_alias c) l -> join_as_binaries o l = Some c -> W c /\ ~ is_alias c.
  Proof.
    intros o l c H E. destruct H as [|x l [Hx Ax] Hl]; [ discriminate | ]. cbn in E. injection E as <-.
    revert x Hx Ax. induction Hl as [|y l [Hy Ay] Hl IH]; intros x Hx Ax; [ auto | ]. cbn [fold_left]. apply IH.
    - unfold W. cbn [subcolumns subcolumns_of]. constructor; [ split; [ split; assumption | exact I ] | apply Forall_app; now split ].
    - exact (fun x => x).
  Qed.

  Definition argW (a : Arg) : Prop := post PW (snd a).
  Lemma arg_expr_W : forall a, argW a -> post PW (arg_expr a).
  Proof. intros a H. eapply post_map; [ exact H | ]. intros. now apply PW_unal. Qed.
  Lemma map_args_W : forall l, Forall argW l -> post (Forall PW) (map_args l).
  Proof. intros l H. apply post_trav. eapply Forall_impl; [ apply arg_expr_W | exact H ]. Qed.
  Lemma when_chain_W : forall neg, forall l acc, (forall c, acc = Some c -> W c) -> Forall PW l ->
    forall c, when_chain neg acc l = Some (Some c) -> W c.
  Proof.
    intro neg. fix IH 1. intros [|a [|b l]] acc HA HL c E; cbn [when_chain] in E.
    - injection E as E. auto.
    - discriminate.
    - inversion HL as [|? ? Pa HL1]; subst. inversion HL1 as [|? ? Pb HL2]; subst. apply (IH l _) in E; auto.
      intros c0 E0. injection E0 as <-.
      assert (Q : PW (if neg then pnot a else a)) by (destruct neg; auto; now apply W_not).
      destruct acc; [ apply W_method | apply W_func ]; auto. apply HA. reflexivity.
  Qed.
  Lemma case_W : forall neg l, Forall PW l -> post W (case_body neg l).
  Proof.
    intros neg l H c E. unfold case_body in E. destruct (when_chain neg None l) as [[c'|]|] eqn:X; try discriminate.
    injection E as <-. eapply when_chain_W; eauto. discriminate.
  Qed.
  Lemma fold_W : forall f l v, (forall a b, PW a -> PW b -> PW (f a b)) -> Forall PW l -> fold_args f l = Some v -> PW v.
  Proof.
    intros f l v Hf H E. destruct H as [|x l Hx Hl]; [ discriminate | ]. cbn in E. injection E as <-.
    revert x Hx. induction Hl; intros; cbn; auto.
  Qed.

  Lemma ft0_W : forall n l b, post W b -> post W (ft0 n l b).
  Proof. intros n [|] b H; cbn; [ | apply post_err ]. eapply post_map; [ exact H | apply W_ft_out ]. Qed.
  Lemma ft1_W : forall n l b, Forall argW l -> (forall x, PW x -> post W (b x)) -> post W (ft1 n l b).
  Proof.
    intros n l b H Hb. destruct H as [|a l Ha H]; [ apply post_err | ]. destruct H; [ | apply post_err ]. cbn [ft1].
    eapply post_bind; [ now apply arg_expr_W | ]. intros x Hx. eapply post_map; [ now apply Hb | apply W_ft_out ].
  Qed.
  Lemma ft2_W : forall n l b, Forall argW l -> (forall x y, PW x -> PW y -> post W (b x y)) -> post W (ft2 n l b).
  Proof.
    intros n l b H Hb. destruct H as [|a l Ha H]; [ apply post_err | ]. destruct H as [|a' l Ha' H]; [ apply post_err | ].
    destruct H; [ | apply post_err ]. cbn [ft2].
    eapply post_bind; [ now apply arg_expr_W | ]. intros x Hx. eapply post_bind; [ now apply arg_expr_W | ]. intros y Hy.
    eapply post_map; [ now apply Hb | apply W_ft_out ].
  Qed.
  Lemma ft_ei_W : forall n l b, Forall argW l -> (forall x y, PW x -> post W (b x y)) -> post W (ft_ei n l b).
  Proof.
    intros n l b H Hb. destruct H as [|a l Ha H]; [ apply post_err | ]. destruct H as [|a' l Ha' H]; [ apply post_err | ].
    destruct H; [ | apply post_err ]. cbn [ft_ei].
    eapply post_bind; [ now apply arg_expr_W | ]. intros x Hx. eapply post_bind; [ apply post_any | ]. intros y Hy.
    eapply post_map; [ now apply Hb | apply W_ft_out ].
  Qed.
  Lemma ft_es_W : forall n l b, Forall argW l -> (forall x y, PW x -> post W (b x y)) -> post W (ft_es n l b).
  Proof.
    intros n l b H Hb. destruct H as [|a l Ha H]; [ apply post_err | ]. destruct H as [|a' l Ha' H]; [ apply post_err | ].
    destruct H; [ | apply post_err ]. cbn [ft_es].
    eapply post_bind; [ now apply arg_expr_W | ]. intros x Hx. eapply post_bind; [ apply post_any | ]. intros y Hy.
    eapply post_map; [ now apply Hb | apply W_ft_out ].
  Qed.
  Lemma ft_map_W : forall n l b, Forall argW l -> (forall x, Forall PW x -> post W (b x)) -> post W (ft_map n l b).
  Proof.
    intros n l b H Hb. unfold ft_map. eapply post_bind; [ now apply map_args_W | ]. intros x Hx.
    eapply post_map; [ now apply Hb | apply W_ft_out ].
  Qed.
  Lemma offset_W : forall t o, PW t -> W (offset_time t o).
  Proof. intros t o H. unfold offset_time. apply W_binary; auto. apply W_func; auto. repeat constructor. Qed.
  Lemma round_W : forall t s, PW t -> post W (round_time t s).
  Proof.
    intros t s H. unfold round_time. destruct (assoc _ _); [ apply post_ok | apply post_err ]. apply W_func; auto.
    repeat apply Forall_cons; auto. apply PW_lit.
  Qed.
  Lemma memk_W : forall c, PW c -> W (memk c).
  Proof.
    intros c H. unfold memk.
    repeat first [ apply W_binary | apply W_method | apply W_func; [ reflexivity | ] | apply PW_lit | apply W_literal
                 | apply Forall_cons | apply Forall_nil | exact H ].
  Qed.
  Lemma rmcomma_W : forall c, PW c -> W (rmcomma c).
  Proof.
    intros c H. unfold rmcomma.
    repeat first [ apply W_binary | apply W_method | apply W_func; [ reflexivity | ] | apply PW_lit | apply W_literal
                 | apply Forall_cons | apply Forall_nil | exact H ].
  Qed.
  Lemma rmunit_W : forall c, PW c -> W (rmunit c).
  Proof.
    intros c H. unfold rmunit.
    repeat first [ apply W_binary | apply W_method | apply W_func; [ reflexivity | ] | apply PW_lit | apply W_literal
                 | apply Forall_cons | apply Forall_nil | exact H ].
  Qed.
  Lemma assoc_plain : forall l k g, Forall (fun kv => contains "." (snd kv) = false) l -> assoc k l = Some g -> contains "." g = false.
  Proof.
    intros l k g H. induction H as [|[k' v] l Hv Hl IH]; cbn; [ discriminate | ]. destruct (String.eqb k k'); auto.
    intro E. now injection E as <-.
  Qed.
  #[local] Opaque convert_time_format memk rmcomma rmunit.
  Ltac wt := repeat first
    [ exact I | assumption | apply PW_lit | apply W_literal | apply W_named
    | apply W_ft_out | apply W_binary | apply W_method | apply W_not
    | apply W_func; [ first [ reflexivity | assumption ] | ] | apply memk_W | apply rmcomma_W | apply rmunit_W | apply offset_W
    | apply Forall_cons | apply Forall_nil ].
  Ltac wp := match goal with
    | |- post _ (Ok _) => apply post_ok; wt
    | |- post _ Err => apply post_err
    | |- post _ (ft0 _ _ _) => apply ft0_W; wp
    | |- post _ (ft1 _ _ _) => apply ft1_W; [ assumption | intros; wp ]
    | |- post _ (ft2 _ _ _) => apply ft2_W; [ assumption | intros; wp ]
    | |- post _ (ft_ei _ _ _) => apply ft_ei_W; [ assumption | intros; wp ]
    | |- post _ (ft_es _ _ _) => apply ft_es_W; [ assumption | intros; wp ]
    | |- post _ (ft_map _ _ _) => apply ft_map_W; [ assumption | intros; wp ]
    | |- post _ (case_body _ _) => apply case_W; assumption
    | |- post _ (rbind (arg_expr _) _) => eapply post_bind; [ apply arg_expr_W; assumption | intros ? ?; wp ]
    | |- post _ (rbind (map_args _) _) => eapply post_bind; [ apply map_args_W; assumption | intros ? ?; wp ]
    | |- post _ (rbind (round_time _ _) _) => eapply post_bind; [ apply round_W | intros ? ?; wp ]
    | |- post _ (rbind _ _) => eapply post_bind; [ apply post_any | intros ? _; wp ]
    | H : Forall argW ?l |- post W (match ?l with _ => _ end) => inversion H; subst; wp
    | |- post W (match fold_args ?f ?l with _ => _ end) =>
        let E := fresh "E" in destruct (fold_args f l) eqn:E; [ apply fold_W in E; [ wp | intros; wt | assumption ] | wp ]
    | |- post W (match ?x with _ => _ end) => destruct x; wp
    end.
  Definition isc (e : PExpr) : Prop := exists c, e = PCol c.
  Lemma isc_unal : forall e, isc e -> isc (pe_unaliased e).
  Proof. intros e [c ->]. unfold pe_unaliased. cbn. destruct (cl_unaliased_with_name c). eexists. reflexivity. Qed.
  Lemma map_args_c : forall l, Forall (fun a => post isc (snd a)) l -> post (Forall isc) (map_args l).
  Proof.
    intros l H. apply post_trav. eapply Forall_impl; [ | exact H ]. intros a Ha. eapply post_map; [ exact Ha | apply isc_unal ].
  Qed.
  Lemma fold_c : forall f l v, (forall a b, isc (f a b)) -> Forall isc l -> fold_args f l = Some v -> isc v.
  Proof.
    intros f l v Hf H E. destruct H as [|x l Hx Hl]; [ discriminate | ]. cbn in E. injection E as <-.
    revert x Hx. induction Hl; intros; cbn; auto.
  Qed.
  Lemma W_ft_out_e : forall n e, isc e -> PW e -> W (ft_out_e n e).
  Proof.
    intros n e Hc He. unfold ft_out_e. destruct (isc_unal e Hc) as [c E]. rewrite E. apply W_caliased.
    destruct (PW_unal e He) as [P _]. now rewrite E in P.
  Qed.
  Lemma post_and : forall A (P Q : A -> Prop) r, post P r -> post Q r -> post (fun a => P a /\ Q a) r.
  Proof. intros A P Q r H1 H2 a E. split; auto. Qed.
  Lemma extreme_W : forall n f args, contains "." f = false -> Forall argW args -> Forall (fun a => post isc (snd a)) args ->
    post W (let? l := map_args args in
      match fold_args (fun v c => pfun f [v; c]) l with Some v => Ok (ft_out_e n v) | None => Err end).
  Proof.
    intros n f args Hf H HC. eapply post_bind; [ apply post_and; [ apply map_args_W | apply map_args_c ]; assumption | ].
    intros l [HW Hi]. destruct (fold_args _ l) eqn:E; [ apply post_ok | apply post_err ]. apply W_ft_out_e.
    - eapply fold_c; eauto. intros. eexists. reflexivity.
    - eapply fold_W; eauto. intros. apply W_func; auto.
  Qed.
  Lemma bare_W : forall name args, okn name -> Forall argW args -> Forall (fun a => post isc (snd a)) args -> post W (eval_fn_bare name args).
  Proof.
    intros name args HN H HC. unfold eval_fn_bare.
    destruct (existsb _ _); [ apply post_err | ].
    destruct (assoc name eval_unary) eqn:EU.
    { apply assoc_plain in EU; [ wp | repeat constructor ]. }
    destruct (assoc name eval_binary) eqn:EB.
    { apply assoc_plain in EB; [ wp | repeat constructor ]. }
    repeat (match goal with |- post W (if String.eqb name ?k then _ else _) =>
            destruct (String.eqb name k); [ first [ solve [ wp ] | now apply extreme_W | shelve ] | ] end).
    - eapply post_bind; [ now apply map_args_W | ]. intros l Hl. apply post_ok. apply W_aliased0; [ now apply W_call | exact (fun x => x) ].
      Unshelve.
      destruct H as [|a l Ha H]; [ apply post_err | ]. eapply post_bind; [ now apply arg_expr_W | ]. intros t Ht.
      destruct H as [|[e r] l He H]; [ apply post_err | ].
      destruct e as [[[| | | | |s| | | | |]| | |]| | | | | | | | |]; try (match goal with |- post _ Err => apply post_err end).
      assert (T : W (c_func "to_timestamp" [t])) by wt.
      set (u := match sn_span s with Some sp => offset_time (PCol (c_func "to_timestamp" [t])) sp | None => c_func "to_timestamp" [t] end).
      assert (U : W u) by (subst u; destruct (sn_span s); [ apply (offset_W (PCol (c_func "to_timestamp" [t]))); exact T | exact T ]).
      clearbody u. apply (post_bind _ _ W _ _ _ (round_W (PCol u) (sn_snap s) U)).
      intros c Hc. apply post_ok. apply W_ft_out. destruct (sn_offset s); [ apply (offset_W (PCol c)); exact Hc | exact Hc ].
  Qed.

  Variable rt : Rt.
  Hypothesis Hrt : rt = Disallow \/ (forall f, okn ("functions." ++ f)%string).
  Lemma runtime_W : (forall f, okn ("functions." ++ f)%string) -> forall name args, Forall argW args -> post W (eval_fn_runtime name args).
  Proof.
    intros A name args H. unfold eval_fn_runtime. destruct (String.eqb name "cidrmatch").
    - destruct H as [|a l Ha H]; [ apply post_err | ]. destruct H as [|b l Hb H]; [ apply post_err | ].
      destruct H; [ | apply post_err ]. eapply post_bind; [ apply post_any | ]. intros c _.
      eapply post_bind; [ now apply arg_expr_W | ]. intros x Hx. apply post_ok. apply W_ft_out. apply W_call; [ apply (A "eval.cidrmatch") | wt ].
    - eapply post_bind; [ now apply map_args_W | ]. intros x Hx. apply post_ok. apply W_call; [ | exact Hx ].
      apply (A ("eval." ++ runtime_eval_name name)%string).
  Qed.
  Lemma eval_fn_W : forall name args, okn name -> Forall argW args -> Forall (fun a => post isc (snd a)) args ->
    post W (eval_fn rt name args).
  Proof.
    intros name args HN H HC. destruct Hrt as [-> |A].
    - now apply bare_W.
    - destruct rt; cbn [eval_fn].
      + now apply bare_W.
      + apply post_or; [ now apply runtime_W | now apply bare_W ].
      + now apply runtime_W.
  Qed.
  Definition okcalls (l : list string) : Prop := Forall okn l.
  Lemma field_check_W : forall f e, post (fun c => W c /\ ~ is_alias c) (field_in_check f e).
  Proof.
    intros f e. destruct e as [[[]| | |]| | | | | | | | |]; cbn [field_in_check]; try (intros ? ?; discriminate); apply post_ok;
      (split; [ wt | exact (fun x => x) ]).
  Qed.
  Lemma expr_c : forall e, post isc (to_spark_expr rt e).
  Proof. intros e x E. exact (spark_col _ _ _ E). Qed.
  Lemma expr_W : forall e, okcalls (called e) -> post PW (to_spark_expr rt e).
  Proof.
    intro e. induction e as [l o r IHl IHr|o r IH|n args F|e n IH|e He] using expr_induct; intro OK.
    - cbn [called] in OK. apply Forall_app in OK. destruct OK as [OL OR]. specialize (IHl OL). specialize (IHr OR).
      cbn [to_spark_expr]. destruct (cidr_case _ _ _) eqn:C.
      + apply post_ok. unfold cidr_case in C. destruct l as [[[]| | |]| | | | | | | | |]; try discriminate.
        destruct r as [[[]| | |]| | | | | | | | |]; try discriminate. destruct (String.eqb _ _); try discriminate.
        injection C as <-. apply PW_col. unfold pexpr_sql. wt.
      + assert (D : post PW (let? lhs := to_spark_expr rt l in let? rhs := to_spark_expr rt r in Ok (pbin lhs (simple_op o) rhs))).
        { eapply post_bind; [ exact IHl | ]. intros x Hx. eapply post_bind; [ exact IHr | ]. intros y Hy. apply post_ok.
          apply PW_col. now apply W_binary. }
        destruct r as [[[]| | |]| | | | | | | | |]; try exact D.
        eapply post_bind; [ exact IHl | ]. intros x Hx. unfold wildcard_cmp.
        assert (M : W (c_method x "like" [pylit_str (wildcard_to_like s)])) by wt.
        destruct (_ || _)%bool; [ now apply post_ok | ]. destruct (String.eqb _ _); [ | apply post_err ].
        apply post_ok. apply PW_col. apply W_not. exact M.
    - cbn [to_spark_expr]. destruct (String.eqb _ _); [ | apply post_err ]. eapply post_bind; [ exact (IH OK) | ].
      intros x Hx. apply post_ok. apply PW_col. now apply W_not.
    - cbn [to_spark_expr]. cbn [called] in OK. inversion OK as [|? ? O1 O2]; subst.
      eapply post_map; [ apply eval_fn_W; [ exact O1 | | ] | auto ].
      + clear OK O1. induction F as [|a l Ha F IHF]; cbn [map]; constructor.
        * apply Ha. cbn in O2. apply Forall_app in O2. tauto.
        * apply IHF. cbn in O2. apply Forall_app in O2. tauto.
      + apply Forall_forall. intros a Hi. apply in_map_iff in Hi. destruct Hi as (e & <- & _). apply expr_c.
    - apply post_err.
    - destruct e; try contradiction; try (intros ? ?; discriminate).
      + destruct l as [[]| | |]; try (intros ? ?; discriminate); apply post_ok; apply PW_col; wt.
      + cbn [to_spark_expr]. unfold field_in_to_spark. eapply post_bind; [ apply post_trav, Forall_forall; intros x _; apply field_check_W | ].
        intros l Hl. apply post_ok. apply PW_col. destruct (join_as_binaries "|" l) eqn:E; [ | wt ].
        eapply W_join in E; eauto. tauto.
  Qed.

  (** ** Search expressions *)
  Lemma unal_not : forall c, ~ is_alias c -> cl_unaliased_with_name c = (c, None).
  Proof. intros [] H; try reflexivity. elim H. exact I. Qed.
  Fixpoint search_W (c : ColumnLike) : W c -> W (search_core c) /\ ~ is_alias (search_core c)
  with search_PW (e : PExpr) : PW e -> PW (search_pexpr e) /\ (~ is_alias_of e -> ~ is_alias_of (search_pexpr e)).
  Proof.
    - intro H. pose proof (W_top c H) as [T1 T2]. unfold W in H. destruct c as [n|n|col f args|f args|[c|s] n|op l r|r].
      + split; [ unfold search_core, raw_ilike; wt | exact (fun x => x) ].
      + split; [ unfold search_core, raw_ilike; wt | exact (fun x => x) ].
      + split; [ exact H | exact (fun x => x) ].
      + split; [ exact H | exact (fun x => x) ].
      + cbn [search_core]. apply search_W. cbn [subcolumns subcolumns_of] in H. now inversion H.
      + contradiction.
      + cbn [search_core]. destruct (_ || _)%bool; [ | split; [ exact H | exact (fun x => x) ] ].
        cbn [subcolumns] in H. inversion H as [|? ? _ H2]; subst. apply Forall_app in H2. destruct H2 as [Hl Hr].
        split; [ | exact (fun x => x) ]. apply W_binary; [ apply (search_PW l Hl) | apply (search_PW r Hr) ].
      + cbn [search_core]. cbn [subcolumns] in H. inversion H as [|? ? _ H2]; subst.
        destruct (search_PW r H2) as [P Q]. split; [ | exact (fun x => x) ]. unfold W. cbn [subcolumns]. constructor; [ | exact P ].
        split; [ exact (Q T1) | exact I ].
    - intro H. destruct e as [c|s]; [ | split; [ exact H | auto ] ]. cbn [search_pexpr].
      destruct (search_W c H) as [P Q]. split.
      + apply PW_col. now apply W_maybe.
      + cbn [is_alias_of]. intro A. rewrite (unal_not c A). exact Q.
  Qed.
  Lemma into_search_PW : forall e, isc e -> PW e -> PW (into_search_expr e).
  Proof.
    intros e [c ->] H. unfold into_search_expr. cbn [pe_unaliased_with_name].
    destruct (W_unal c H) as [U1 U2]. unfold cl_unaliased in U1, U2. destruct (cl_unaliased_with_name c) as [c' o].
    cbn [fst] in *. destruct (search_PW (PCol c') U1) as [P Q]. destruct o; cbn [pe_maybe_with_alias]; [ | exact P ].
    unfold pe_with_alias. cbn [search_pexpr] in *. apply PW_col. apply W_caliased. exact P.
  Qed.

  (** ** Data frames *)
  Definition DN (x : DataFrame) : Prop :=
    Forall PW (step_exprs x) /\ Forall (fun e => ~ is_alias_of e) (step_conditions x) /\ (is_runtime x -> rt <> Disallow).
  Definition D (d : DataFrame) : Prop := Forall DN (frames d).
  Definition DS (s : tstate) : Prop := forall d, s = Some d -> D d.
  Lemma D_source : forall n, D (DSource n). Proof. intro. constructor; [ | constructor ]. repeat split; try constructor. intros []. Qed.
  Lemma D_raw : forall n, D (DRawSource n). Proof. intro. constructor; [ | constructor ]. repeat split; try constructor. intros []. Qed.
  Lemma D_default : forall s, DS s -> D (d_or_default s).
  Proof. intros [d|] H; [ now apply H | apply D_source ]. Qed.
  Lemma DS_some : forall d, D d -> DS (Some d). Proof. intros d H d' E. now injection E as <-. Qed.
  Lemma DS_none : DS None. Proof. intros d E. discriminate. Qed.
  Ltac dstep := intros; unfold D; cbn [frames]; constructor; [ | first [ assumption | apply Forall_app; split; assumption ] ];
     split; [ | split; [ | intros [] ] ]; cbn [step_exprs step_conditions]; try apply Forall_nil.
  Lemma Forall_PCol : forall l, Forall W l -> Forall PW (map PCol l).
  Proof. intros l H. induction H; cbn; constructor; auto. Qed.
  Lemma D_select : forall d l, D d -> Forall W l -> D (DSelect d l).
  Proof. dstep. now apply Forall_PCol. Qed.
  Lemma D_agg : forall d l, D d -> Forall W l -> D (DAggregation d l).
  Proof. dstep. now apply Forall_PCol. Qed.
  Lemma D_order : forall d l, D d -> Forall W l -> D (DOrderBy d l).
  Proof. dstep. now apply Forall_PCol. Qed.
  Lemma D_where : forall d e, D d -> PW e -> D (d_where d e).
  Proof. intros d e Hd He. destruct (PW_unal e He). unfold d_where. dstep; repeat constructor; assumption. Qed.
  Lemma D_with : forall d n c, D d -> W c -> D (d_with_column d n c).
  Proof. intros d n c Hd He. destruct (W_unal c He). unfold d_with_column. dstep; repeat constructor; assumption. Qed.
  Lemma D_join : forall d o c t, D d -> D o -> PW c -> D (d_join d o c t).
  Proof. intros d o c t Hd Ho He. destruct (PW_unal c He). unfold d_join. dstep; repeat constructor; assumption. Qed.
  Lemma D_union : forall d o, D d -> D o -> D (DUnionByName d o). Proof. dstep. Qed.
  Lemma D_rename : forall d o n, D d -> D (DWithColumnRenamed d o n). Proof. dstep. Qed.
  Lemma D_limit : forall d n, D d -> D (DLimit d n). Proof. dstep. Qed.
  Lemma D_tail : forall d n, D d -> D (DTail d n). Proof. dstep. Qed.
  Lemma D_alias : forall d n, D d -> D (DAlias d n). Proof. dstep. Qed.
  Lemma D_method : forall d n l, D d -> Forall PW l -> D (DArbitraryMethod d n l). Proof. dstep. assumption. Qed.
  Lemma D_group : forall d l, D d -> Forall (fun c => Forall PW (con_exprs c)) l -> D (DGroupBy d l).
  Proof. dstep. match goal with H : Forall _ l |- _ => induction H end; cbn; [ constructor | ]. apply Forall_app. split; auto. Qed.
  Lemma by_W : forall l, Forall (fun c => Forall PW (con_exprs c)) (map transform_by_field l).
  Proof.
    induction l as [|f l IH]; cbn [map]; constructor; auto. unfold transform_by_field. destruct (msf_span f); cbn [con_exprs]; [ | constructor ].
    constructor; [ apply PW_col; wt | constructor ].
  Qed.
  Definition RW (r : RuntimeExpr) : Prop := Forall PW (rt_exprs r) /\ rt_frames r = [].
  Lemma D_runtime : rt <> Disallow -> forall n s f args kw, DS s -> Forall RW args -> Forall (fun kv => RW (snd kv)) kw ->
    D (DRuntime n s f args kw).
  Proof.
    intros R n s f args kw Hs Ha Hk. unfold D. cbn [frames].
    assert (A : concat (map rt_frames args) = []).
    { clear Hk. induction Ha as [|x l [_ Hx] Hl IH]; cbn; [ reflexivity | now rewrite Hx ]. }
    assert (K : concat (map (fun kv => rt_frames (snd kv)) kw) = []).
    { clear Ha A. induction Hk as [|x l [_ Hx] Hl IH]; cbn; [ reflexivity | now rewrite Hx ]. }
    rewrite A, K. cbn [app]. rewrite app_nil_r. constructor.
    - split; [ | split; [ constructor | auto ] ]. cbn [step_exprs]. apply Forall_app. split.
      + clear -Ha. induction Ha as [|x l [Hx _] Hl IH]; cbn; [ constructor | apply Forall_app; auto ].
      + clear -Hk. induction Hk as [|x l [Hx _] Hl IH]; cbn; [ constructor | apply Forall_app; auto ].
    - destruct s; [ now apply Hs | constructor ].
  Qed.
  Lemma RW_expr : forall e, PW e -> RW (RExpr e).
  Proof. intros e H. split; [ repeat constructor; exact H | reflexivity ]. Qed.
  Lemma RW_list : forall l, Forall RW l -> RW (RList l).
  Proof.
    intros l H. split; cbn [rt_exprs rt_frames].
    - induction H as [|x l [Hx _] Hl IH]; cbn; [ constructor | apply Forall_app; auto ].
    - induction H as [|x l [_ Hx] Hl IH]; cbn; [ reflexivity | now rewrite Hx ].
  Qed.
  Lemma RW_by : forall b, Forall (fun kv => RW (snd kv)) (by_runtime b).
  Proof.
    intros [l|]; cbn [by_runtime]; [ | constructor ]. constructor; [ | constructor ]. apply RW_list.
    induction l as [|f l IH]; cbn [map]; constructor; auto. unfold transform_by_field.
    destruct (msf_span f); cbn [runtime_of_con]; apply RW_expr; apply PW_col; wt.
  Qed.

  (** ** Aggregations *)
  Definition SW (p : DataFrame * ColumnLike) : Prop := D (fst p) /\ W (snd p).
  Lemma keep_W : forall d r, D d -> post W r -> post SW (rmap (fun c => (d, c)) r).
  Proof. intros d r Hd H. eapply post_map; [ exact H | ]. intros c Hc. split; assumption. Qed.
  Lemma sorted_D : forall d, D d -> D (order_by_time d).
  Proof. intros d H. unfold order_by_time. apply D_order; auto. wt. Qed.
  Lemma perc_W : forall a f p n args, contains "." f = false -> Forall argW args -> post W (stats_perc a f p n args).
  Proof.
    intros. unfold stats_perc. apply ft1_W; auto. intros x Hx. eapply post_bind; [ apply post_any | ]. intros q _. apply post_ok. wt.
  Qed.
  Lemma stats_bare_W : forall name args d, okn name -> Forall argW args -> D d -> post SW (stats_fn_bare name args d).
  Proof.
    intros name args d HN H Hd. unfold stats_fn_bare.
    destruct (existsb _ _); [ apply post_err | ].
    destruct (assoc name stats_unary) eqn:EU.
    { apply assoc_plain in EU; [ | repeat constructor ]. apply keep_W; auto. wp. }
    pose proof (sorted_D d Hd) as HS.
    repeat (match goal with |- post SW (if ?b then _ else _) =>
            destruct b; [ apply keep_W; [ assumption | ]; first [ apply perc_W; [ reflexivity | assumption ] | solve [ wp ] ] | ] end).
    eapply post_bind; [ now apply map_args_W | ]. intros l Hl. apply post_ok. split; [ exact Hd | ].
    apply W_aliased0; [ now apply W_call | exact (fun x => x) ].
  Qed.
  Lemma args_W : forall args, okcalls (concat (map called args)) -> Forall argW (with_args rt args).
  Proof.
    induction args as [|a l IH]; intro H; cbn [with_args map]; constructor; cbn in H; apply Forall_app in H; destruct H.
    - now apply expr_W.
    - now apply IH.
  Qed.
  Lemma stats_fn_W : forall e d, okcalls (called e) -> D d -> post SW (stats_fn rt e d).
  Proof.
    intros e d HO Hd. unfold stats_fn.
    assert (X : called (fst (expr_unaliased_with_name e)) = called e).
    { clear. induction e as [l o r IHl IHr|o r IH|n args F|e n IH|e He] using expr_induct; try reflexivity.
      - exact IH.
      - destruct e; try contradiction; reflexivity. }
    destruct (expr_unaliased_with_name e) as [e' o]. cbn [fst] in X. rewrite <- X in HO.
    destruct e'; try perr. cbn [called] in HO. inversion HO as [|? ? O1 O2]; subst.
    eapply post_bind with (Q := SW); [ | intros [d' c] [H1 H2]; apply post_ok; split; [ exact H1 | now apply W_maybe ] ].
    pose proof (args_W args O2) as HA.
    assert (R : (forall f, okn ("functions." ++ f)%string) -> post SW (stats_fn_runtime name (with_args rt args) d)).
    { intro A. unfold stats_fn_runtime. eapply post_bind; [ now apply map_args_W | ]. intros l Hl. apply post_ok.
      split; [ exact Hd | ]. apply W_call; [ | exact Hl ]. apply (A ("stats." ++ name)%string). }
    pose proof (stats_bare_W name (with_args rt args) d O1 HA Hd) as B.
    destruct Hrt as [-> |A]; [ exact B | ]. destruct rt; auto. apply post_or; auto.
  Qed.
  Lemma stats_expr_W : forall e d, okcalls (called e) -> D d -> post SW (transform_stats_expr rt d e).
  Proof.
    intros e d HO Hd. unfold transform_stats_expr.
    assert (X : called (fst (expr_unaliased_with_name e)) = called e).
    { clear. induction e as [l o r IHl IHr|o r IH|n args F|e n IH|e He] using expr_induct; try reflexivity.
      - exact IH.
      - destruct e; try contradiction; reflexivity. }
    destruct (expr_unaliased_with_name e) as [e' o]. cbn [fst] in X. rewrite <- X in HO.
    destruct e'; try perr.
    eapply post_bind; [ apply stats_fn_W; assumption | ]. intros [d' c] [H1 H2]. apply post_ok. split; [ exact H1 | now apply W_maybe ].
  Qed.
  Lemma stats_exprs_W : forall l d, okcalls (concat (map called l)) -> D d ->
    post (fun p => D (fst p) /\ Forall W (snd p)) (transform_stats_exprs rt d l).
  Proof.
    induction l as [|e l IH]; intros d HO Hd; cbn [transform_stats_exprs].
    - apply post_ok. split; [ exact Hd | constructor ].
    - cbn in HO. apply Forall_app in HO. destruct HO as [O1 O2].
      eapply post_bind; [ now apply stats_expr_W | ]. intros [d' c] [H1 H2].
      eapply post_bind; [ now apply IH | ]. intros [d'' cs] [H3 H4]. apply post_ok. split; [ exact H3 | now constructor ].
  Qed.
  Lemma called_unaliased : forall e, called (fst (expr_unaliased_with_name e)) = called e.
  Proof.
    intro e. induction e as [l o r IHl IHr|o r IH|n args F|e n IH|e He] using expr_induct; try reflexivity.
    - exact IH.
    - destruct e; try contradiction; reflexivity.
  Qed.
  Lemma okcalls_in : forall args x, okcalls (concat (map called args)) -> In x args -> okcalls (called x).
  Proof.
    intros args x H I. unfold okcalls in *. rewrite Forall_forall in *. intros f Hf. apply H. apply in_concat. exists (called x).
    split; [ now apply in_map | exact Hf ].
  Qed.
  Lemma stats_rt_W : (forall f, okn ("functions." ++ f)%string) -> forall e, okcalls (called e) -> post (fun kv => RW (snd kv)) (transform_stats_runtime_expr rt e).
  Proof.
    intros A e HO. unfold transform_stats_runtime_expr. rewrite <- called_unaliased in HO. destruct (expr_unaliased_with_name e) as [e' o].
    cbn [fst] in HO. destruct e'; try perr. cbn [called] in HO. inversion HO as [|? ? O1 O2]; subst. eapply post_bind.
    - apply post_trav, Forall_forall. intros x Hx. apply expr_W. eapply okcalls_in; eauto.
    - intros l Hl. apply post_ok. apply RW_expr. apply PW_col. apply W_call; [ | exact Hl ]. apply (A ("stats." ++ name)%string).
  Qed.

  (** ** Commands *)
  Definition postM {A} (P : A -> Prop) (m : M A) : Prop := forall st st' a, m st = (st', Ok a) -> P a.
  Lemma postM_bind : forall A B (Q : A -> Prop) (P : B -> Prop) m f, postM Q m -> (forall a, Q a -> postM P (f a)) -> postM P (bind m f).
  Proof. intros A B Q P m f H1 H2 st st' b E. apply bind_inv in E. destruct E as (s1 & a & E1 & E2). eapply H2; eauto. Qed.
  Lemma postM_lift : forall A (P : A -> Prop) r, post P r -> postM P (lift r).
  Proof. intros A P r H st st' a E. injection E as _ E. auto. Qed.
  Lemma postM_ret : forall A (P : A -> Prop) a, P a -> postM P (ret a).
  Proof. intros A P r H st st' a E. injection E as _ <-. auto. Qed.
  Lemma postM_any : forall A (m : M A), postM (fun _ => True) m. Proof. intros A m st st' a _. exact I. Qed.
  Lemma postM_runtime : rt <> Disallow -> forall s f args kw, DS s -> Forall RW args -> Forall (fun kv => RW (snd kv)) kw ->
    postM D (d_runtime s f args kw).
  Proof. intros R s f args kw Hs Ha Hk st st' d E. injection E as _ <-. now apply D_runtime. Qed.
  Lemma postM_both : forall r m, (rt <> Disallow -> postM D r) -> postM D m ->
    postM DS (do d <- select_rt rt r m; ret (Some d)).
  Proof.
    intros r m Hr Hm. eapply postM_bind; [ | intros d Hd; apply postM_ret; apply DS_some; exact Hd ].
    destruct rt; cbn [select_rt]; auto.
    - intros st st' d E. unfold or_else in E. destruct (r st) as [s1 [a| | ]] eqn:E1; try discriminate.
      + injection E as -> ->. eapply Hr; eauto. discriminate.
      + eapply Hm; eauto.
    - apply Hr. discriminate.
  Qed.
  Lemma postM_unimpl : forall P : DataFrame -> Prop, postM P unimplemented.
  Proof. intros P st st' a E. discriminate. Qed.
  Lemma all_ok : rt <> Disallow -> forall f, okn ("functions." ++ f)%string.
  Proof. destruct Hrt as [-> |A]; auto. intro H. now elim H. Qed.
  Lemma eval_column_W : forall e, okcalls (called e) -> post W (eval_column rt e).
  Proof.
    intros e H. unfold eval_column. eapply post_bind; [ now apply expr_W | ]. intros [c|s] Hc; [ | apply post_err ].
    now apply post_ok.
  Qed.
  Lemma eval_go_D : forall l d, okcalls (concat (map (fun fe => called (snd fe)) l)) -> D d -> post D (t_eval_go rt l d).
  Proof.
    induction l as [|[n e] l IH]; intros d HO Hd; cbn [t_eval_go]; [ now apply post_ok | ].
    cbn in HO. apply Forall_app in HO. destruct HO as [O1 O2]. eapply post_bind; [ now apply eval_column_W | ].
    intros c Hc. apply IH; auto. now apply D_with.
  Qed.
  Lemma convert_W : forall tf c, okn (fc_func c) -> post W (convert_fn tf c).
  Proof.
    intros tf c H. unfold convert_fn. repeat match goal with |- context [String.eqb ?a ?b] => destruct (String.eqb a b) end.
    - unfold ctime. eapply post_bind; [ apply post_any | ]. intros f _. apply post_ok. wt.
    - apply post_ok. wt.
    - apply post_ok. wt.
    - apply post_ok. wt.
    - apply post_ok. apply W_aliased0; [ | exact (fun x => x) ]. apply W_call; auto. wt.
  Qed.
  Lemma convert_D : forall tf l d, okcalls (map fc_func l) -> D d -> post D (t_convert_go tf l d).
  Proof.
    induction l as [|c l IH]; intros d HO Hd; cbn [t_convert_go]; [ now apply post_ok | ].
    inversion HO; subst. eapply post_bind; [ now apply convert_W | ]. intros x Hx. apply IH; auto. now apply D_with.
  Qed.
  Lemma rename_D : forall l d, D d -> post D (t_rename_go l d).
  Proof.
    induction l as [|[e n] l IH]; intros d Hd; cbn [t_rename_go]; [ now apply post_ok | ].
    destruct e as [[[]| | |]| | | | | | | | |]; try perr. apply IH. now apply D_rename.
  Qed.
  Lemma ands_calls : forall e x, okcalls (called e) -> In x (break_down_ands e) -> okcalls (called x).
  Proof.
    induction e as [l o r IHl IHr|o r IH|n args F|e n IH|e He] using expr_induct; intros x H I; cbn [break_down_ands] in I;
      try (destruct I as [<-|[]]; exact H).
    - unfold okcalls in *. cbn [called] in H. apply Forall_app in H as H'. destruct H' as [H1 H2].
      destruct (String.eqb o "AND"); [ apply in_app_or in I as [I|I]; auto | destruct I as [<-|[]]; exact H ].
    - destruct e; try contradiction; cbn in I; destruct I as [<-|[]]; exact H.
  Qed.
  Lemma search_arg_W : forall e, okcalls (called e) ->
    post (fun x => match x with inl r => RW r | inr kv => RW (snd kv) end) (search_runtime_arg rt e).
  Proof.
    intros e HO. assert (AC := expr_W e HO).
    assert (AR : forall l o r, e = EBinary l o r -> post PW (to_spark_expr rt r)).
    { intros l o r ->. apply expr_W. cbn [called] in HO. now apply Forall_app in HO. }
    unfold search_runtime_arg.
    assert (Dp : post (fun x => match x with inl r => RW r | inr kv => RW (snd kv) end)
        (let? x := to_spark_expr rt e in Ok (@inl RuntimeExpr (string * RuntimeExpr) (RExpr x)))).
    { eapply post_bind; [ exact AC | ]. intros x Hx. apply post_ok. now apply RW_expr. }
    destruct e as [| |l o r| | | | | | |]; try exact Dp. destruct l as [[[]| | |]| | | | | | | | |]; try exact Dp.
    destruct (assoc s search_special).
    - eapply post_bind; [ apply post_any | ]. intros _ _.
      destruct r as [[[]| | |]| | | | | | | | |]; try perr; apply post_ok; apply RW_expr; wt.
    - destruct (is_eq_op o); [ | exact Dp ]. eapply post_bind; [ eapply AR; reflexivity | ]. intros x Hx. apply post_ok. now apply RW_expr.
  Qed.
  Lemma index_union_D : forall l d, index_union l = Some d -> D d.
  Proof.
    intros [|i l] d E; [ discriminate | ]. cbn in E. injection E as <-.
    assert (G : forall l d, D d -> D (fold_left (fun d x => DUnionByName d (DSource x)) l d)).
    { clear. induction l as [|x l IH]; intros d Hd; cbn; auto. apply IH. apply D_union; auto. apply D_source. }
    apply G. apply D_source.
  Qed.
  Lemma split_calls : forall e a ind ind' c, okcalls (called e) -> split_conditions e a ind = Ok (ind', Some c) -> okcalls (called c).
  Proof.
    induction e as [l o r IHl IHr|o r IH|n args F|e n IH|e He] using expr_induct; intros a ind ind' c HO E;
      try (injection E as _ <-; exact HO).
    - cbn [split_conditions] in E. cbn [called] in HO. apply Forall_app in HO. destruct HO as [O1 O2].
      destruct (_ && _)%bool.
      + apply rbind_inv in E. destruct E as (? & _ & E). apply rbind_inv in E. destruct E as (? & _ & E). discriminate.
      + destruct (_ || _)%bool; [ discriminate | ]. apply rbind_inv in E. destruct E as ([i1 cl] & E1 & E).
        apply rbind_inv in E. destruct E as ([i2 cr] & E2 & E). apply rbind_inv in E. destruct E as (c' & E3 & E). injection E as _ ->.
        destruct cl as [cl|], cr as [cr|]; cbn [combine_sides] in E3.
        * injection E3 as <-. cbn [called]. apply Forall_app. split; [ eapply IHl; eauto | eapply IHr; eauto ].
        * destruct (_ || _)%bool; [ injection E3 as <-; eapply IHl; eauto | discriminate ].
        * destruct (_ || _)%bool; [ injection E3 as <-; eapply IHr; eauto | discriminate ].
        * discriminate.
    - destruct e; try contradiction; injection E as _ <-; exact HO.
  Qed.
  Lemma addtotals_D : forall c s, DS s -> post D (t_addtotals c s).
  Proof.
    intros c s Hs. unfold t_addtotals. apply post_ok. apply D_with; [ now apply D_default | ].
    destruct (join_as_binaries _ _) eqn:E; [ | wt ]. eapply W_join in E; [ tauto | ].
    apply Forall_forall. intros x Hi. apply in_map_iff in Hi. destruct Hi as (n & <- & _). split; [ unfold addtotals_term; wt | exact (fun x => x) ].
  Qed.
  Lemma join_D : forall o s r, DS s -> DS r -> post D (t_join o s r).
  Proof.
    intros o s r Hs Hr. unfold t_join. destruct r as [r|]; [ | apply post_err ].
    eapply post_bind; [ apply post_any | ]. intros t _. eapply post_bind with (Q := W).
    - unfold join_condition. destruct (join_as_binaries _ _) eqn:E; [ | intros ? X; discriminate ].
      eapply W_join in E.
      + destruct E. apply post_ok. destruct (jo_use_time o); auto. wt.
      + apply Forall_forall. intros x Hi. apply in_map_iff in Hi. destruct Hi as (n & <- & _). split; [ unfold join_eq; wt | exact (fun x => x) ].
    - intros c Hc. apply post_ok. apply D_join; auto; apply D_alias; auto. now apply D_default.
  Qed.
  Lemma makeresults_D : forall c, post D (t_makeresults c).
  Proof.
    intro c. unfold t_makeresults. apply post_ok. 
    assert (B : D (d_with_column (DRawSource ("spark.range(0, " ++ dec (mr_count c) ++ ", 1)")) "_time" (c_func "current_timestamp" []))).
    { apply D_with; [ apply D_raw | wt ]. }
    destruct (mr_annotate c); auto.
    repeat (apply D_with; [ | first [ apply W_literal | destruct (mr_server_group c); apply W_literal ] ]). exact B.
  Qed.
  Lemma toprare_D : forall dir c s, DS s -> post D (t_toprare dir c s).
  Proof.
    intros dir c s Hs. unfold t_toprare. eapply post_bind; [ apply post_any | ]. intros _ _. apply post_ok.
    set (d0 := DAggregation _ _).
    assert (H0 : D d0).
    { subst d0. apply D_agg; [ apply D_group; [ now apply D_default | ] | ].
      - generalize (match tr_by c with Some l => l | None => tr_fields c end). intro l.
        induction l; cbn [map]; constructor; auto. constructor.
      - constructor; [ | constructor ]. unfold pfun. apply W_caliased. wt. }
    clearbody d0. 
    assert (H1 : D (if tr_show_percent c then d_with_column d0 (tr_percent_field c)
                  (c_binary (pcol "count") "/" (pfun "sum" [pcol "count"])) else d0)).
    { destruct (tr_show_percent c); auto. apply D_with; auto. unfold pfun. wt. }
    destruct (tr_n c =? 0)%Z; [ | apply D_limit ]; (apply D_order; [ exact H1 | wt ]).
  Qed.
  Lemma datamodel_D : forall c s, DS s -> post D (t_datamodel_standalone c s).
  Proof.
    intros c s Hs. unfold t_datamodel_standalone. eapply post_bind; [ apply post_any | ]. intros _ _.
    destruct s as [d|], (dm_data_model_name c), (dm_dataset_name c); try perr; apply post_ok; try apply D_source. now apply Hs.
  Qed.
  Lemma RW_pylit : forall s, RW (RExpr (PyLit s)). Proof. intro. apply RW_expr, PW_lit. Qed.
  Lemma RW_optstr : forall o, RW (RExpr (pylit_opt_str o)). Proof. intros []; apply RW_pylit. Qed.
  Lemma datamodel_rt_D : rt <> Disallow -> forall c s, DS s -> postM D (t_datamodel_runtime c s).
  Proof.
    intros R c s Hs. apply postM_runtime; auto. repeat (apply Forall_cons; [ first [ apply RW_optstr | apply RW_pylit ] | ]). constructor.
  Qed.

  Variables (ho : nat -> list string -> list string) (gr : string -> res (list (Z * option string))).
  Let env := mkEnv rt ho gr.
  Definition Dcmd (c : Command) : Prop :=
    (forall c', occurs c' [c] -> okcalls (command_calls c')) -> forall s, DS s -> postM DS (transform_command env c s).
  Lemma run_D : forall p, Forall Dcmd p -> (forall c', occurs c' p -> okcalls (command_calls c')) -> forall s, DS s ->
    postM DS (run_commands (transform_command env) p s).
  Proof.
    intros p F. induction F as [|c p Hc F IH]; intros HO s Hs; cbn [run_commands]; [ now apply postM_ret | ].
    eapply postM_bind with (Q := DS).
    - apply Hc; auto. intros c' Ho. apply HO. inversion Ho as [? Hi|? o q Hi Hq|? qs q Hi Hq Hcc]; subst.
      + apply OC_here. destruct Hi as [Hi|[]]; subst. now left.
      + destruct Hi as [Hi|[]]; subst. eapply OC_join; [ now left | exact Hq ].
      + destruct Hi as [Hi|[]]; subst. eapply OC_multisearch; [ now left | exact Hq | exact Hcc ].
    - intros s' Hs'. apply IH; auto. intros c' Ho. apply HO. inversion Ho as [? Hi|? o q Hi Hq|? qs q Hi Hq Hcc]; subst.
      + apply OC_here. now right.
      + eapply OC_join; [ right; exact Hi | exact Hq ].
      + eapply OC_multisearch; [ right; exact Hi | exact Hq | exact Hcc ].
  Qed.
  Lemma unions_D : forall ps, Forall (Forall Dcmd) ps -> (forall q, In q ps -> forall c', occurs c' q -> okcalls (command_calls c')) ->
    forall s, DS s -> postM DS (run_unions (transform_command env) ps s).
  Proof.
    intros ps F. induction F as [|p ps Hp F IH]; intros HO s Hs; cbn [run_unions]; [ now apply postM_ret | ].
    eapply postM_bind with (Q := DS).
    - apply run_D; auto. + intros c' Ho. apply (HO p); [ now left | exact Ho ]. + apply DS_none.
    - intros [d|] Hd; [ | intros ? ? ? E; discriminate ]. apply IH.
      + intros q Hq. apply HO. now right.
      + apply DS_some. destruct s as [c|]; [ apply D_union | ]; auto.
  Qed.
  Lemma all_D : forall c, Dcmd c.
  Proof.
    intro c. induction c as [o p F|ps F|c H] using cmd_induct; intros HO s Hs.
    - cbn [transform_command]. apply postM_both; [ intro; apply postM_unimpl | ].
      eapply postM_bind; [ apply postM_any | ]. intros _ _. eapply postM_bind with (Q := DS).
      + apply run_D; auto; [ | apply DS_none ]. intros c' Ho. apply HO. eapply OC_join; [ now left | exact Ho ].
      + intros r Hr. apply postM_lift. now apply join_D.
    - cbn [transform_command]. destruct ps as [|p ps].
      { destruct (env_rt env); [ now apply postM_ret | now apply postM_ret | ]. intros ? ? ? E. discriminate. }
      apply postM_both; [ intro; apply postM_unimpl | ]. eapply postM_bind with (Q := DS).
      + apply unions_D; auto; [ | apply DS_none ]. intros q Hq c' Ho. apply HO. eapply OC_multisearch; [ now left | exact Hq | exact Ho ].
      + intros [d|] Hd; [ apply postM_ret; now apply Hd | intros ? ? ? E; discriminate ].
    - specialize (HO c (OC_here c [c] (or_introl eq_refl))). pose proof (D_default s Hs) as Hdef.
      destruct c; cbn in H; try (elim H; exact I); cbn [transform_command env_rt env];
        try (intros ? ? ? E; discriminate); cbn [command_calls] in HO;
        try (apply postM_both; [ intro; apply postM_unimpl | apply postM_lift ]).
      + now apply addtotals_D.
      + unfold t_bin. apply post_ok. apply D_with; [ | wt ]. destruct (bin_span o); auto. apply D_with; auto. wt.
      + now apply convert_D.
      + apply postM_both; [ intro; now apply datamodel_rt_D | apply postM_lift; now apply datamodel_D ].
      + apply postM_both; [ intro R | apply postM_lift; now apply eval_go_D ].
        unfold t_eval_runtime. eapply postM_bind with (Q := Forall (fun kv => RW (snd kv))).
        * apply postM_lift. apply post_trav. apply Forall_forall. intros fe Hfe.
          eapply post_bind; [ apply eval_column_W, Forall_forall; intros g Hg; unfold okcalls in HO; rewrite Forall_forall in HO; apply HO, in_concat;
            exists (called (snd fe)); split; [ now apply (in_map (fun fe => called (snd fe))) | exact Hg ] | ]. intros x Hx. apply post_ok.
          apply RW_expr. apply PW_col. now apply W_unal.
        * intros kw Hk. apply postM_runtime; auto.
      + unfold t_select. apply post_ok. apply D_select; auto. apply Forall_forall. intros x Hi. apply in_map_iff in Hi.
        destruct Hi as (n & <- & _). wt.
      + apply postM_both; [ intro R; apply postM_runtime; auto | apply postM_lift, post_ok, D_method; auto; wt ].
        apply Forall_cons; [ apply RW_pylit | apply Forall_cons; [ | apply Forall_nil ] ]. cbn [snd].
        destruct fields; [ | apply RW_pylit ]. apply RW_list. apply Forall_forall. intros x Hi. apply in_map_iff in Hi.
        destruct Hi as (n & <- & _). apply RW_pylit.
      + unfold t_head. eapply post_bind; [ apply post_any | ]. intros n _. apply post_ok. now apply D_limit.
      + unfold t_lookup. eapply post_bind; [ apply post_any | ]. intros n _. apply post_ok. now apply D_alias.
      + apply makeresults_D.
      + now apply toprare_D.
      + unfold t_regex. eapply post_bind; [ apply post_any | ]. intros [f i] _. apply post_ok. apply D_where; auto.
        destruct i; apply PW_col; unfold raw_string; wt.
      + now apply rename_D.
      + unfold t_rex. eapply post_bind; [ apply post_any | ]. intros _ _. eapply post_bind; [ apply post_any | ]. intros _ _.
        eapply post_bind; [ apply post_any | ]. intros g _. apply post_ok. revert Hdef. generalize (d_or_default s).
        induction g as [|x g IH]; intros d Hd; cbn [fold_left]; auto. apply IH. apply D_with; auto. unfold raw_string. wt.
      + apply postM_both; [ intro R | ].
        * unfold t_search_runtime. eapply postM_bind.
          { apply postM_lift, post_trav, Forall_forall. intros x Hx. apply search_arg_W. eapply ands_calls; eauto. }
          intros l Hl. apply postM_runtime; auto.
          { induction Hl as [|[a|a] l Ha Hl IH]; cbn [lefts]; auto. }
          { induction Hl as [|[a|a] l Ha Hl IH]; cbn [rights]; auto. }
        * unfold t_search_standalone. intros st st' d E. apply bind_inv in E. destruct E as (s1 & [ind cond] & E1 & E).
          injection E1 as _ E1. apply bind_inv in E. destruct E as (s2 & d0 & E2 & E).
          assert (H0 : D d0).
          { destruct ind as [|i ind]; [ now injection E2 as _ <- | ]. apply bind_inv in E2. destruct E2 as (s3 & ord & _ & E2).
            destruct (index_union ord) eqn:U; [ | discriminate ]. injection E2 as _ <-. eapply index_union_D; eauto. }
          destruct cond as [c|]; [ | now injection E as _ <- ].
          apply bind_inv in E. destruct E as (s4 & x & E4 & E). injection E as _ <-. injection E4 as _ E4.
          apply D_where; auto. apply into_search_PW; [ eapply expr_c; exact E4 | ]. eapply expr_W; [ | exact E4 ].
          eapply split_calls; eauto.
      + unfold t_spath. apply post_ok. apply D_with; auto. wt.
      + unfold t_sort. eapply post_bind with (Q := Forall W).
        * apply post_trav, Forall_forall. intros [sg e] _. unfold sort_key. cbn [snd fst].
          destruct e as [[[]| | |]| | | | | | | | |]; try perr. eapply post_bind; [ apply post_any | ]. intros b _. apply post_ok. wt.
        * intros l Hl. apply post_ok. destruct (_ =? 0)%Z; [ | apply D_limit ]; now apply D_order.
      + apply postM_both; [ intro R | apply postM_lift ].
        * unfold t_stats_runtime. eapply postM_bind.
          { apply postM_lift, post_trav, Forall_forall. intros x Hx. apply stats_rt_W; [ now apply all_ok | eapply okcalls_in; eauto ]. }
          intros kw Hk. apply postM_runtime; auto. apply Forall_app. split; [ apply RW_by | exact Hk ].
        * unfold t_stats_standalone. eapply post_bind; [ now apply stats_exprs_W | ]. intros [d a] [H1 H2]. apply post_ok.
          apply D_agg; auto. apply D_group; auto. destruct by_; [ apply by_W | constructor ].
      + unfold t_select. apply post_ok. apply D_select; auto. apply Forall_forall. intros x Hi. apply in_map_iff in Hi.
        destruct Hi as (n & <- & _). wt.
      + apply post_ok. now apply D_tail.
      + now apply toprare_D.
      + apply Forall_app in HO. destruct HO as [O1 O2]. apply postM_both; [ intro R | ].
        * unfold t_tstats_runtime. eapply postM_bind; [ apply postM_any | ]. intros _ _.
          eapply postM_bind with (Q := Forall (fun kv => RW (snd kv))).
          { apply postM_lift. destruct where_condition; [ | apply post_ok; constructor ].
            eapply post_bind; [ now apply expr_W | ]. intros x Hx. apply post_ok. constructor; [ now apply RW_expr | constructor ]. }
          intros w Hw. eapply postM_bind.
          { apply postM_lift, post_trav, Forall_forall. intros x Hx. apply stats_rt_W; [ now apply all_ok | eapply okcalls_in; eauto ]. }
          intros kw Hk. apply postM_runtime; auto. repeat (apply Forall_app; split).
          { constructor; [ | constructor ]. unfold opt_pylit. destruct datamodel, nodename; split; cbn; repeat constructor. }
          { destruct (tst_fill_null_value o); [ constructor; [ apply RW_pylit | constructor ] | constructor ]. }
          { exact Hw. } { apply RW_by. } { exact Hk. }
        * unfold t_tstats_standalone. eapply postM_bind; [ apply postM_any | ]. intros _ _. eapply postM_bind with (Q := D).
          { unfold t_datamodel. destruct rt eqn:Er; cbn [select_rt].
            - apply postM_lift. now apply datamodel_D.
            - intros st st' d E. unfold or_else in E. rewrite <- Er in *. destruct (t_datamodel_runtime _ s st) as [s1 [a| | ]] eqn:E1; try discriminate.
              injection E as -> ->. eapply datamodel_rt_D; [ congruence | exact Hs | exact E1 ].
            - rewrite <- Er in *. apply datamodel_rt_D; [ congruence | exact Hs ]. }
          intros d Hd. eapply postM_bind with (Q := D).
          { apply postM_lift. destruct where_condition; [ | now apply post_ok ].
            eapply post_bind; [ now apply expr_W | ]. intros x Hx. apply post_ok. now apply D_where. }
          intros d1 Hd1. eapply postM_bind; [ apply postM_lift, stats_exprs_W; assumption | ]. intros [d2 a] [H1 H2].
          eapply postM_bind with (Q := Forall (fun c => Forall PW (con_exprs c))).
          { apply postM_lift. destruct by_fields, by_prefix; try perr; apply post_ok; [ apply by_W | constructor ]. }
          intros cols Hc. apply postM_ret. apply D_agg; auto. now apply D_group.
      + unfold t_where. eapply post_bind; [ now apply expr_W | ]. intros x Hx. apply post_ok. now apply D_where.
  Qed.
  Lemma pipeline_D : forall p d, (forall c', occurs c' p -> okcalls (command_calls c')) -> transform_pipeline env p = Ok (Some d) -> D d.
  Proof.
    intros p d HO H. unfold transform_pipeline in H. destruct (run_commands _ p None _) as [st r] eqn:E. cbn in H. subst r.
    eapply run_D; [ | exact HO | apply DS_none | exact E | reflexivity ]. apply Forall_forall. intros. apply all_D.
  Qed.
End Tree.
