(** C16: whatever is translated without the runtime is translated with it *)
From Coq Require Import Lia Permutation.
From Verif Require Import Str SplAst PyAst Functions Transpile Render Commands SpecPipe PipeFacts.
Open Scope string_scope.

Definition le_ok {A B} (r : res A) (r' : res B) : Prop := forall a, r = Ok a -> exists b, r' = Ok b.
Lemma le_ok_ok : forall A B (r : res A) (b : B), le_ok r (Ok b).
Proof. intros A B r b a _. eauto. Qed.
Lemma le_ok_err : forall A B (r : res B), le_ok (@Err A) r.
Proof. intros A B r a H. discriminate. Qed.
Lemma le_ok_bind : forall A A' B B' (r : res A) (r' : res A') (f : A -> res B) (f' : A' -> res B'),
  le_ok r r' -> (forall a a', le_ok (f a) (f' a')) -> le_ok (let? x := r in f x) (let? x := r' in f' x).
Proof.
  intros A A' B B' r r' f f' H1 H2 b H. apply rbind_inv in H. destruct H as (a & E & H).
  destruct (H1 a E) as [a' ->]. exact (H2 a a' b H).
Qed.
Lemma le_ok_same : forall A B B' (r : res A) (f : A -> res B) (f' : A -> res B'),
  (forall a, le_ok (f a) (f' a)) -> le_ok (let? x := r in f x) (let? x := r in f' x).
Proof.
  intros A B B' r f f' H2 b H. apply rbind_inv in H. destruct H as (a & -> & H). exact (H2 a b H).
Qed.
Lemma le_ok_map : forall A A' B B' (r : res A) (r' : res A') (f : A -> B) (f' : A' -> B'),
  le_ok r r' -> le_ok (rmap f r) (rmap f' r').
Proof. intros A A' B B' [a| | ] r' f f' H b E; try discriminate. destruct (H a eq_refl) as [a' ->]. cbn. eauto. Qed.
Definition le_arg (a a' : Arg) : Prop := fst a = fst a' /\ le_ok (snd a) (snd a').
Lemma le_arg_expr : forall a a', le_arg a a' -> le_ok (arg_expr a) (arg_expr a').
Proof. intros a a' [_ H]. now apply le_ok_map. Qed.
Lemma le_arg_int : forall a a', le_arg a a' -> arg_int a = arg_int a'.
Proof. intros a a' [H _]. unfold arg_int. now rewrite H. Qed.
Lemma le_arg_str : forall a a', le_arg a a' -> arg_str a = arg_str a'.
Proof. intros a a' [H _]. unfold arg_str. now rewrite H. Qed.
Lemma le_traverse : forall A A' B B' (f : A -> res B) (f' : A' -> res B') l l',
  Forall2 (fun a a' => le_ok (f a) (f' a')) l l' ->
  forall m, rtraverse f l = Ok m -> exists m', rtraverse f' l' = Ok m' /\ length m' = length m.
Proof.
  intros A A' B B' f f' l l' H. induction H as [|a a' l l' Ha Hl IH]; intros m E.
  - exists []. cbn in E. injection E as <-. auto.
  - rewrite rtraverse_cons in *. apply rbind_inv in E. destruct E as (b & E1 & E). apply rbind_inv in E.
    destruct E as (m1 & E2 & E). injection E as <-. destruct (Ha b E1) as [b' ->]. cbn [rbind].
    destruct (IH m1 E2) as (m' & -> & HL). cbn [rbind]. eexists. split; [ reflexivity | ]. cbn. now rewrite HL.
Qed.

Lemma le_map_args : forall args args', Forall2 le_arg args args' ->
  forall m, map_args args = Ok m -> exists m', map_args args' = Ok m' /\ length m' = length m.
Proof.
  intros args args' H. apply le_traverse. clear -H. induction H; constructor; auto. now apply le_arg_expr.
Qed.
Lemma when_chain_len : forall neg l l' acc acc', length l = length l' -> (acc = None <-> acc' = None) ->
  match when_chain neg acc l with
  | Some o => exists o', when_chain neg acc' l' = Some o' /\ (o = None <-> o' = None)
  | None => when_chain neg acc' l' = None
  end.
Proof.
  intro neg. fix IH 1. intros [|a [|b l]] [|a' [|b' l']] acc acc' H HA; cbn in H; try discriminate; cbn [when_chain].
  - eauto.
  - reflexivity.
  - apply IH; [ lia | ]. split; discriminate.
Qed.
Lemma le_case_body : forall neg l l', length l = length l' -> le_ok (case_body neg l) (case_body neg l').
Proof.
  intros neg l l' H. unfold case_body. pose proof (when_chain_len neg l l' None None H ltac:(tauto)) as W.
  destruct (when_chain neg None l) as [[c|]|]; [ | apply le_ok_err | apply le_ok_err ].
  destruct W as ([c'|] & -> & X); [ apply le_ok_ok | ]. destruct X as [_ X]. specialize (X eq_refl). discriminate.
Qed.
Lemma le_fold_args : forall f g l l', length l = length l' ->
  match fold_args f l with Some _ => exists v, fold_args g l' = Some v | None => True end.
Proof. intros f g [|a l] [|a' l'] H; try discriminate; cbn; eauto. Qed.

Lemma le_ft0 : forall n args args' b, Forall2 le_arg args args' -> le_ok (ft0 n args b) (ft0 n args' b).
Proof. intros n args args' b H. destruct H; cbn; [ now intros a Ha; eauto | apply le_ok_err ]. Qed.
Lemma le_ft1 : forall n args args' b, Forall2 le_arg args args' -> (forall x y, le_ok (b x) (b y)) -> le_ok (ft1 n args b) (ft1 n args' b).
Proof.
  intros n args args' b H Hb. unfold ft1. destruct H as [|a a' ? ? Ha [|? ? ? ? ? ?]]; try apply le_ok_err.
  apply le_ok_bind; [ now apply le_arg_expr | ]. intros. now apply le_ok_map.
Qed.
Lemma le_ft2 : forall n args args' b, Forall2 le_arg args args' -> (forall x y x' y', le_ok (b x y) (b x' y')) -> le_ok (ft2 n args b) (ft2 n args' b).
Proof.
  intros n args args' b H Hb. unfold ft2. destruct H as [|a a' ? ? Ha [|c c' ? ? Hc [|? ? ? ? ? ?]]]; try apply le_ok_err.
  apply le_ok_bind; [ now apply le_arg_expr | ]. intros. apply le_ok_bind; [ now apply le_arg_expr | ]. intros. now apply le_ok_map.
Qed.
Lemma le_ft_ei : forall n args args' b, Forall2 le_arg args args' -> (forall x x' z, le_ok (b x z) (b x' z)) -> le_ok (ft_ei n args b) (ft_ei n args' b).
Proof.
  intros n args args' b H Hb. unfold ft_ei. destruct H as [|a a' ? ? Ha [|c c' ? ? Hc [|? ? ? ? ? ?]]]; try apply le_ok_err.
  apply le_ok_bind; [ now apply le_arg_expr | ]. intros. rewrite (le_arg_int _ _ Hc). apply le_ok_same. intros. now apply le_ok_map.
Qed.
Lemma le_ft_es : forall n args args' b, Forall2 le_arg args args' -> (forall x x' z, le_ok (b x z) (b x' z)) -> le_ok (ft_es n args b) (ft_es n args' b).
Proof.
  intros n args args' b H Hb. unfold ft_es. destruct H as [|a a' ? ? Ha [|c c' ? ? Hc [|? ? ? ? ? ?]]]; try apply le_ok_err.
  apply le_ok_bind; [ now apply le_arg_expr | ]. intros. rewrite (le_arg_str _ _ Hc). apply le_ok_same. intros. now apply le_ok_map.
Qed.
Lemma le_ft_map : forall n args args' b, Forall2 le_arg args args' -> (forall l l', length l = length l' -> le_ok (b l) (b l')) -> le_ok (ft_map n args b) (ft_map n args' b).
Proof.
  intros n args args' b H Hb c E. unfold ft_map in *. apply rbind_inv in E. destruct E as (m & E & X).
  destruct (le_map_args _ _ H m E) as (m' & -> & HL). cbn [rbind].
  exact (le_ok_map _ _ _ _ _ _ _ _ (Hb m m' (eq_sym HL)) c X).
Qed.
Lemma le_bind_args : forall B B' args args' (f : list PExpr -> res B) (f' : list PExpr -> res B'), Forall2 le_arg args args' ->
  (forall l l', length l = length l' -> le_ok (f l) (f' l')) ->
  le_ok (let? l := map_args args in f l) (let? l := map_args args' in f' l).
Proof.
  intros B B' args args' f f' H Hb c E. apply rbind_inv in E. destruct E as (m & E & X).
  destruct (le_map_args _ _ H m E) as (m' & -> & HL). exact (Hb m m' (eq_sym HL) c X).
Qed.
Lemma le_round : forall t t' sc, le_ok (round_time t sc) (round_time t' sc).
Proof. intros t t' sc. unfold round_time. destruct (assoc _ _); [ apply le_ok_ok | apply le_ok_err ]. Qed.
Ltac lea := first
  [ apply le_ok_ok | apply le_ok_err
  | apply le_ft0; assumption
  | apply le_ft1; [ assumption | intros; lea ]
  | apply le_ft2; [ assumption | intros; lea ]
  | apply le_ft_ei; [ assumption | intros; lea ]
  | apply le_ft_es; [ assumption | intros; lea ]
  | apply le_ft_map; [ assumption | intros; lea ]
  | apply le_case_body; assumption
  | apply le_bind_args; [ assumption | intros; lea ]
  | apply le_ok_same; intros; lea
  | apply le_ok_bind; [ first [ now apply le_arg_expr | apply le_round ] | intros; lea ]
  | match goal with
    | H : le_arg ?a ?a' |- le_ok (let? _ := arg_int ?a in _) _ => rewrite (le_arg_int _ _ H); lea
    | H : le_arg ?a ?a' |- le_ok (let? _ := arg_str ?a in _) _ => rewrite (le_arg_str _ _ H); lea
    | H : @Datatypes.length _ ?l = @Datatypes.length _ ?l' |- le_ok (match ?l with _ => _ end) _ =>
        destruct l, l'; try discriminate H; [ lea | simpl in H; apply eq_add_S in H; lea ]
    | H : @Datatypes.length _ ?l = @Datatypes.length _ ?l' |- le_ok (match fold_args ?f ?l with _ => _ end) _ =>
        let X := fresh in pose proof (le_fold_args f f l l' H) as X; destruct (fold_args f l); [ destruct X as [? ->]; lea | lea ]
    end ].
Ltac led := first [ solve [ lea ] |
  match goal with
  | H : Forall2 le_arg ?l _ |- le_ok (match ?l with _ => _ end) _ =>
      inversion H; subst; clear H; led
  end ].
Lemma le_bare : forall name args args', Forall2 le_arg args args' ->
  le_ok (eval_fn_bare name args) (eval_fn_bare name args').
Proof.
  intros name args args' H. unfold eval_fn_bare.
  destruct (existsb _ _); [ apply le_ok_err | ].
  destruct (assoc name eval_unary); [ lea | ].
  destruct (assoc name eval_binary); [ lea | ].
  repeat (match goal with |- le_ok (if String.eqb name ?k then _ else _) _ =>
            destruct (String.eqb name k); [ first [ led | shelve ] | ] end).
  all: try led.
  Unshelve.
  - destruct H as [|a a' l l' Ha Hl]; [ lea | ]. destruct Hl as [|b b' l l' Hb Hl]; [ lea | ].
    destruct b as [eb rb], b' as [eb' rb']. assert (E : eb = eb') by apply Hb. subst eb'.
    destruct eb as [[[]| | |]| | | | | | | | |]; lea.
  - destruct H as [|a a' l l' Ha Hl]; [ lea | ]. destruct Hl as [|b b' l l' Hb Hl]; [ lea | ].
    destruct Hl; lea.
  - destruct H as [|a a' l l' Ha Hl]; [ lea | ]. destruct Hl as [|b b' l l' Hb Hl]; [ lea | ].
    destruct Hl as [|c c' l l' Hc Hl]; [ lea | ].
    apply le_ok_bind; [ now apply le_arg_expr | intros ]. apply le_ok_bind; [ now apply le_arg_expr | intros ].
    apply le_bind_args; [ now constructor | intros ]. lea.
Qed.

(** ** Conversion of expressions never panics and always yields a column *)
Definition np {A} (r : res A) : Prop := r <> Panic.
Lemma np_ok : forall A (a : A), np (Ok a). Proof. discriminate. Qed.
Lemma np_err : forall A, np (@Err A). Proof. discriminate. Qed.
Lemma np_bind : forall A B (r : res A) (f : A -> res B), np r -> (forall a, np (f a)) -> np (let? x := r in f x).
Proof. intros A B [a| | ] f H1 H2; cbn; [ auto | discriminate | now elim H1 ]. Qed.
Lemma np_map : forall A B (f : A -> B) r, np r -> np (rmap f r).
Proof. intros A B f [a| | ] H; cbn; [ discriminate | discriminate | now elim H ]. Qed.
Lemma np_trav : forall A B (f : A -> res B) l, Forall (fun a => np (f a)) l -> np (rtraverse f l).
Proof.
  intros A B f l H. induction H as [|a l Ha Hl IH]; [ discriminate | ]. rewrite rtraverse_cons.
  apply np_bind; auto. intro b. apply np_bind; auto. discriminate.
Qed.
Definition np_arg (a : Arg) : Prop := np (snd a).
Lemma np_arg_expr : forall a, np_arg a -> np (arg_expr a).
Proof. intros a H. now apply np_map. Qed.
Lemma np_arg_int : forall a, np (arg_int a).
Proof. intros [[[[]| | |]| | | | | | | | |] r]; discriminate. Qed.
Lemma np_to_string : forall e, np (expr_to_string e).
Proof. intros [[[]| | |]| | | | | | | | |]; discriminate. Qed.
Lemma np_arg_str : forall a, np (arg_str a).
Proof. intros [e r]. apply np_to_string. Qed.
Lemma np_map_args : forall l, Forall np_arg l -> np (map_args l).
Proof. intros l H. apply np_trav. eapply Forall_impl; [ | exact H ]. apply np_arg_expr. Qed.
Lemma np_conv : forall l f, np (convert_time_go l f).
Proof. induction l as [|[o [r|]] l IH]; intro f; cbn; [ discriminate | | ]; destruct (contains o f); auto; discriminate. Qed.
Lemma np_ctf : forall f, np (convert_time_format f).
Proof. intro f. unfold convert_time_format. generalize CONVERSIONS. intro l. apply np_conv. Qed.
Lemma np_case : forall neg l, np (case_body neg l).
Proof. intros neg l. unfold case_body. destruct (when_chain _ _ _) as [[]|]; discriminate. Qed.
Lemma np_ft0 : forall n l b, np b -> np (ft0 n l b).
Proof. intros n [|] b H; cbn; [ now apply np_map | discriminate ]. Qed.
Lemma np_ft1 : forall n l b, Forall np_arg l -> (forall x, np (b x)) -> np (ft1 n l b).
Proof.
  intros n l b H Hb. destruct H as [|a l Ha H]; [ discriminate | ]. destruct H; [ | discriminate ]. cbn [ft1].
  apply np_bind; [ now apply np_arg_expr | ]. intros. now apply np_map.
Qed.
Lemma np_ft2 : forall n l b, Forall np_arg l -> (forall x y, np (b x y)) -> np (ft2 n l b).
Proof.
  intros n l b H Hb. destruct H as [|a l Ha H]; [ discriminate | ]. destruct H as [|a' l Ha' H]; [ discriminate | ].
  destruct H; [ | discriminate ]. cbn [ft2].
  apply np_bind; [ now apply np_arg_expr | ]. intros. apply np_bind; [ now apply np_arg_expr | ]. intros. now apply np_map.
Qed.
Lemma np_ft_ei : forall n l b, Forall np_arg l -> (forall x y, np (b x y)) -> np (ft_ei n l b).
Proof.
  intros n l b H Hb. destruct H as [|a l Ha H]; [ discriminate | ]. destruct H as [|a' l Ha' H]; [ discriminate | ].
  destruct H; [ | discriminate ]. cbn [ft_ei].
  apply np_bind; [ now apply np_arg_expr | ]. intros. apply np_bind; [ apply np_arg_int | ]. intros. now apply np_map.
Qed.
Lemma np_ft_es : forall n l b, Forall np_arg l -> (forall x y, np (b x y)) -> np (ft_es n l b).
Proof.
  intros n l b H Hb. destruct H as [|a l Ha H]; [ discriminate | ]. destruct H as [|a' l Ha' H]; [ discriminate | ].
  destruct H; [ | discriminate ]. cbn [ft_es].
  apply np_bind; [ now apply np_arg_expr | ]. intros. apply np_bind; [ apply np_arg_str | ]. intros. now apply np_map.
Qed.
Lemma np_ft_map : forall n l b, Forall np_arg l -> (forall x, np (b x)) -> np (ft_map n l b).
Proof.
  intros n l b H Hb. unfold ft_map. apply np_bind; [ now apply np_map_args | ]. intros. now apply np_map.
Qed.
Lemma np_round : forall t s, np (round_time t s).
Proof. intros. unfold round_time. destruct (assoc _ _); discriminate. Qed.
#[local] Opaque convert_time_format.
Ltac npa := first
  [ apply np_ok | apply np_err | apply np_case | apply np_ctf | apply np_round
  | apply np_arg_int | apply np_arg_str | apply np_to_string
  | apply np_ft0; npa
  | apply np_ft1; [ assumption | intros; npa ]
  | apply np_ft2; [ assumption | intros; npa ]
  | apply np_ft_ei; [ assumption | intros; npa ]
  | apply np_ft_es; [ assumption | intros; npa ]
  | apply np_ft_map; [ assumption | intros; npa ]
  | apply np_arg_expr; assumption | apply np_map_args; assumption
  | apply np_map; npa
  | apply np_bind; [ npa | intros; npa ]
  | match goal with
    | H : Forall np_arg ?l |- np (match ?l with _ => _ end) => inversion H; subst; npa
    | |- np (match ?x with _ => _ end) => destruct x; npa
    end ].
Lemma np_bare : forall name args, Forall np_arg args -> np (eval_fn_bare name args).
Proof.
  intros name args H. unfold eval_fn_bare.
  destruct (existsb _ _); [ discriminate | ].
  destruct (assoc name eval_unary); [ npa | ].
  destruct (assoc name eval_binary); [ npa | ].
  repeat (match goal with |- np (if String.eqb name ?k then _ else _) =>
            destruct (String.eqb name k); [ npa | ] end).
  all: try npa.
Qed.
Lemma np_eval_fn : forall rt name args, Forall np_arg args -> np (eval_fn rt name args).
Proof.
  intros rt name args H.
  assert (R : np (eval_fn_runtime name args)).
  { unfold eval_fn_runtime. destruct (String.eqb name "cidrmatch"); [ | npa ].
    destruct H as [|a l Ha H]; [ discriminate | ]. destruct H as [|b l Hb H]; [ discriminate | ].
    destruct H; [ npa | discriminate ]. }
  destruct rt; cbn [eval_fn]; auto.
  - now apply np_bare.
  - destruct (eval_fn_runtime name args) eqn:E; cbn [ror_else]; [ discriminate | now apply np_bare | now elim R ].
Qed.
Lemma np_expr : forall rt e, np (to_spark_expr rt e).
Proof.
  intros rt e. induction e as [l o r IHl IHr|o r IH|n args F|e n IH|e He] using expr_induct.
  - cbn [to_spark_expr]. destruct (cidr_case _ _ _); [ discriminate | ].
    assert (D : np (let? lhs := to_spark_expr rt l in let? rhs := to_spark_expr rt r in Ok (pbin lhs (simple_op o) rhs))).
    { apply np_bind; auto. intro. apply np_bind; auto. discriminate. }
    destruct r as [[[]| | |]| | | | | | | | |]; try exact D.
    apply np_bind; auto. intro. unfold wildcard_cmp. destruct (_ || _)%bool; [ discriminate | ].
    destruct (String.eqb _ _); discriminate.
  - cbn [to_spark_expr]. destruct (String.eqb _ _); [ | discriminate ]. apply np_bind; auto. discriminate.
  - cbn [to_spark_expr]. apply np_map. apply np_eval_fn. clear n. induction F; constructor; auto.
  - discriminate.
  - destruct e; try contradiction; try discriminate.
    + destruct l as [[]| | |]; discriminate.
    + cbn [to_spark_expr]. unfold field_in_to_spark. apply np_bind; [ | discriminate ]. apply np_trav.
      apply Forall_forall. intros x _. destruct x as [[[]| | |]| | | | | | | | |]; discriminate.
Qed.
Lemma spark_col : forall rt e x, to_spark_expr rt e = Ok x -> exists c, x = PCol c.
Proof.
  intros rt e x H. destruct e; try discriminate.
  - destruct l as [[]| | |]; try discriminate; injection H as <-; eexists; reflexivity.
  - cbn [to_spark_expr] in H. destruct (cidr_case _ _ _) eqn:C.
    + injection H as <-. unfold cidr_case in C.
      destruct e1 as [[[]| | |]| | | | | | | | |]; try discriminate.
      destruct e2 as [[[]| | |]| | | | | | | | |]; try discriminate.
      destruct (String.eqb _ _); try discriminate. injection C as <-. eexists; reflexivity.
    + assert (D : (let? lhs := to_spark_expr rt e1 in let? rhs := to_spark_expr rt e2 in Ok (pbin lhs (simple_op symbol) rhs)) = Ok x ->
        exists c, x = PCol c).
      { intro Q. apply rbind_inv in Q. destruct Q as (a & _ & Q). apply rbind_inv in Q. destruct Q as (b & _ & Q).
        injection Q as <-. eexists; reflexivity. }
      destruct e2 as [[[]| | |]| | | | | | | | |]; try exact (D H).
      apply rbind_inv in H. destruct H as (a & _ & H). unfold wildcard_cmp in H.
      destruct (_ || _)%bool; [ injection H as <-; eexists; reflexivity | ].
      destruct (String.eqb _ _); [ injection H as <-; eexists; reflexivity | discriminate ].
  - cbn [to_spark_expr] in H. destruct (String.eqb _ _); try discriminate. apply rbind_inv in H. destruct H as (a & _ & H).
    injection H as <-. eexists; reflexivity.
  - cbn [to_spark_expr] in H. destruct (eval_fn _ _ _); try discriminate. injection H as <-. eauto.
  - cbn [to_spark_expr] in H. unfold field_in_to_spark in H. apply rbind_inv in H. destruct H as (a & _ & H).
    injection H as <-. eauto.
Qed.

(** ** Expressions *)
Lemma le_or : forall A (d r b : res A), le_ok d b -> np r -> le_ok d (ror_else r b).
Proof. intros A d [a| | ] b H N; cbn; [ apply le_ok_ok | exact H | now elim N ]. Qed.
Lemma np_runtime : forall name args, Forall np_arg args -> np (eval_fn_runtime name args).
Proof. intros. now apply (np_eval_fn Require). Qed.
Lemma le_wild : forall l l' o p, le_ok (wildcard_cmp l o p) (wildcard_cmp l' o p).
Proof.
  intros. unfold wildcard_cmp. destruct (_ || _)%bool; [ apply le_ok_ok | ]. destruct (String.eqb _ _); [ apply le_ok_ok | apply le_ok_err ].
Qed.
Lemma np_args : forall rt args, Forall np_arg (map (fun a => (a, to_spark_expr rt a)) args).
Proof. intros. apply Forall_forall. intros a H. apply in_map_iff in H. destruct H as (e & <- & _). exact (np_expr rt e). Qed.
Lemma le_expr : forall e, le_ok (to_spark_expr Disallow e) (to_spark_expr Allow e).
Proof.
  intro e. induction e as [l o r IHl IHr|o r IH|n args F|e n IH|e He] using expr_induct.
  - cbn [to_spark_expr]. destruct (cidr_case _ _ _); [ apply le_ok_ok | ].
    assert (D : le_ok (let? lhs := to_spark_expr Disallow l in let? rhs := to_spark_expr Disallow r in Ok (pbin lhs (simple_op o) rhs))
                      (let? lhs := to_spark_expr Allow l in let? rhs := to_spark_expr Allow r in Ok (pbin lhs (simple_op o) rhs))).
    { apply le_ok_bind; auto. intros. apply le_ok_bind; auto. intros. apply le_ok_ok. }
    destruct r as [[[]| | |]| | | | | | | | |]; try exact D.
    apply le_ok_bind; auto. intros. apply le_wild.
  - cbn [to_spark_expr]. destruct (String.eqb _ _); [ | apply le_ok_err ]. apply le_ok_bind; auto. intros. apply le_ok_ok.
  - cbn [to_spark_expr]. apply le_ok_map. cbn [eval_fn]. apply le_or; [ | apply np_runtime, np_args ].
    apply le_bare. clear n. induction F; constructor; auto. split; auto.
  - apply le_ok_err.
  - destruct e; try contradiction; try apply le_ok_err; intros c Hc; exists c; exact Hc.
Qed.

(** ** Aggregations *)
Lemma le_args : forall args, Forall2 le_arg (map (fun a => (a, to_spark_expr Disallow a)) args) (map (fun a => (a, to_spark_expr Allow a)) args).
Proof. induction args; cbn; constructor; auto. split; [ reflexivity | apply le_expr ]. Qed.
Lemma le_perc : forall a f p n args args', Forall2 le_arg args args' -> le_ok (stats_perc a f p n args) (stats_perc a f p n args').
Proof. intros. unfold stats_perc. apply le_ft1; auto. intros. apply le_ok_same. intros. apply le_ok_ok. Qed.
Lemma le_stats_bare : forall name args args' d d', Forall2 le_arg args args' ->
  le_ok (stats_fn_bare name args d) (stats_fn_bare name args' d').
Proof.
  intros name args args' d d' H. unfold stats_fn_bare.
  destruct (existsb _ _); [ apply le_ok_err | ].
  destruct (assoc name stats_unary); [ apply le_ok_map; lea | ].
  repeat match goal with
  | |- le_ok (if ?b then _ else _) _ => destruct b; [ first [ apply le_ok_map; first [ apply le_perc; assumption | lea | apply le_ft_map; [ assumption | intros [|x [|y l]] [|x' [|y' l']] HL; try discriminate HL; solve [ apply le_ok_ok | apply le_ok_err ] ] ] ] | ]
  end.
  lea.
Qed.
Lemma le_stats_fn : forall e d d', le_ok (stats_fn Disallow e d) (stats_fn Allow e d').
Proof.
  intros e d d'. unfold stats_fn. destruct (expr_unaliased_with_name e) as [e' alias].
  destruct e'; try apply le_ok_err. apply le_ok_bind; [ | intros [] []; apply le_ok_ok ].
  apply le_or.
  - apply le_stats_bare. apply le_args.
  - unfold stats_fn_runtime. apply np_bind; [ apply np_map_args, np_args | discriminate ].
Qed.
Lemma le_stats_expr : forall e d d', le_ok (transform_stats_expr Disallow d e) (transform_stats_expr Allow d' e).
Proof.
  intros e d d'. unfold transform_stats_expr. destruct (expr_unaliased_with_name e) as [e' alias].
  destruct e'; try apply le_ok_err. apply le_ok_bind; [ apply le_stats_fn | intros [] []; apply le_ok_ok ].
Qed.
Lemma le_stats_exprs : forall l d d', le_ok (transform_stats_exprs Disallow d l) (transform_stats_exprs Allow d' l).
Proof.
  induction l as [|e l IH]; intros d d'; cbn [transform_stats_exprs]; [ apply le_ok_ok | ].
  apply le_ok_bind; [ apply le_stats_expr | ]. intros [] []. apply le_ok_bind; [ apply IH | ]. intros [] []. apply le_ok_ok.
Qed.

(** ** Commands *)
Definition sim (s s' : tstate) : Prop := s = None <-> s' = None.
Lemma sim_some : forall d d', sim (Some d) (Some d'). Proof. split; discriminate. Qed.
Definition leM {A B} (R : A -> B -> Prop) (m : M A) (m' : M B) : Prop :=
  forall st st' s1 a, m st = (s1, Ok a) -> exists s1' a', m' st' = (s1', Ok a') /\ R a a'.
Definition any {A B} (a : A) (b : B) : Prop := True.
Lemma leM_bind : forall A A' B B' (R : A -> A' -> Prop) (S : B -> B' -> Prop) m m' f f',
  leM R m m' -> (forall a a', R a a' -> leM S (f a) (f' a')) -> leM S (bind m f) (bind m' f').
Proof.
  intros A A' B B' R S m m' f f' H1 H2 st st' s1 b H. apply bind_inv in H. destruct H as (s2 & a & E1 & E2).
  destruct (H1 _ st' _ _ E1) as (s2' & a' & E1' & Ra). destruct (H2 a a' Ra s2 s2' s1 b E2) as (s3 & b' & E2' & Sb).
  exists s3, b'. split; auto. erewrite bind_ok; eauto.
Qed.
Lemma leM_lift : forall A B (r : res A) (r' : res B), le_ok r r' -> leM any (lift r) (lift r').
Proof.
  intros A B r r' H st st' s1 a E. injection E as <- E. destruct (H a E) as [b Hb]. exists st', b.
  unfold lift. rewrite Hb. split; [ reflexivity | exact I ].
Qed.
Lemma leM_lift_eq : forall A (r : res A), leM eq (lift r) (lift r).
Proof. intros A r st st' s1 a E. injection E as <- E. exists st', a. unfold lift. now rewrite E. Qed.
Lemma leM_ret : forall A B (R : A -> B -> Prop) a b, R a b -> leM R (ret a) (ret b).
Proof. intros A B R a b H st st' s1 c E. injection E as <- <-. exists st', b. split; auto. Qed.
Definition npM {A} (m : M A) : Prop := forall st, np (snd (m st)).
Lemma npM_bind : forall A B (m : M A) (f : A -> M B), npM m -> (forall a, npM (f a)) -> npM (bind m f).
Proof.
  intros A B m f H1 H2 st. unfold bind. specialize (H1 st). destruct (m st) as [s1 [a| | ]]; cbn in *; [ apply H2 | discriminate | now elim H1 ].
Qed.
Lemma npM_lift : forall A (r : res A), np r -> npM (lift r).
Proof. intros A r H st. exact H. Qed.
Lemma npM_runtime : forall s f a k, npM (d_runtime s f a k).
Proof. intros s f a k st. discriminate. Qed.
Lemma leM_or : forall A B (R : A -> B -> Prop) m r m', (forall a b, R a b) -> npM r -> leM R m m' -> leM R m (or_else r m').
Proof.
  intros A B R m r m' HR N H st st' s1 a E. unfold or_else. specialize (N st').
  destruct (r st') as [s2 [b| | ]]; cbn in N.
  - eauto.
  - eapply H; eauto.
  - now elim N.
Qed.
Lemma leM_both : forall r r' m m', npM r' -> leM any m m' ->
  leM sim (do d <- select_rt Disallow r m; ret (Some d)) (do d <- select_rt Allow r' m'; ret (Some d)).
Proof.
  intros r r' m m' N H. eapply leM_bind with (R := any).
  - apply leM_or; auto. intros. exact I.
  - intros. apply leM_ret, sim_some.
Qed.
Lemma npM_unimpl : npM unimplemented.
Proof. intro. discriminate. Qed.

Lemma np_eval_column : forall rt e, np (eval_column rt e).
Proof. intros. unfold eval_column. apply np_bind; [ apply np_expr | ]. intros [c|c]; discriminate. Qed.
Lemma np_search_arg : forall rt e, np (search_runtime_arg rt e).
Proof.
  intros rt e. unfold search_runtime_arg.
  assert (D : np (let? x := to_spark_expr rt e in Ok (@inl RuntimeExpr (string * RuntimeExpr) (RExpr x)))).
  { apply np_bind; [ apply np_expr | discriminate ]. }
  destruct e as [| |l o r| | | | | | |]; try exact D. destruct l as [[[]| | |]| | | | | | | | |]; try exact D.
  destruct (assoc s search_special).
  - unfold ensure. destruct (is_eq_op o); cbn [rbind]; [ | discriminate ].
    destruct r as [[[]| | |]| | | | | | | | |]; discriminate.
  - destruct (is_eq_op o); [ | exact D ]. apply np_bind; [ apply np_expr | discriminate ].
Qed.
Lemma np_stats_rt : forall rt e, np (transform_stats_runtime_expr rt e).
Proof.
  intros rt e. unfold transform_stats_runtime_expr. destruct (expr_unaliased_with_name e) as [e' n].
  destruct e'; try discriminate. apply np_bind; [ | discriminate ]. apply np_trav. apply Forall_forall. intros. apply np_expr.
Qed.
Lemma le_eval_go : forall l d d', le_ok (t_eval_go Disallow l d) (t_eval_go Allow l d').
Proof.
  induction l as [|[n e] l IH]; intros; cbn [t_eval_go]; [ apply le_ok_ok | ]. apply le_ok_bind; [ | auto ].
  unfold eval_column. intros c H. apply rbind_inv in H. destruct H as (x & E & H).
  destruct (le_expr e x E) as [y E']. rewrite E'. destruct (spark_col _ _ _ E') as [c' ->]. cbn. eauto.
Qed.
Lemma le_ensure : forall b, le_ok (ensure b) (ensure b).
Proof. intros [] ? ?; cbn in *; eauto. Qed.
Lemma leM_search : forall ho ho' gr e s s', (forall k l, Permutation (ho' k l) l) ->
  leM any (t_search_standalone (mkEnv Disallow ho gr) e s) (t_search_standalone (mkEnv Allow ho' gr) e s').
Proof.
  intros ho ho' gr e s s' HP. unfold t_search_standalone. eapply leM_bind; [ apply leM_lift_eq | ].
  intros [ind cond] ? <-. eapply leM_bind with (R := any).
  - destruct ind as [|i ind]; [ apply leM_ret; exact I | ].
    intros st st' s1 a E. unfold bind, hash_iter. cbn [env_hash_order].
    pose proof (HP (st_hash st') (i :: ind)) as P.
    destruct (ho' (st_hash st') (i :: ind)) as [|j l]; [ apply Permutation_nil in P; discriminate | ].
    cbn. eexists _, _. split; [ reflexivity | exact I ].
  - intros d d' _. destruct cond as [c|]; [ | apply leM_ret; exact I ].
    eapply leM_bind; [ apply leM_lift, le_expr | ]. intros. apply leM_ret. exact I.
Qed.
Lemma npM_datamodel_rt : forall c s, npM (t_datamodel_runtime c s).
Proof. intros. apply npM_runtime. Qed.
Lemma leM_tstats : forall o es dm nn w b bp s s',
  leM any (t_tstats_standalone Disallow o es dm nn w b bp s) (t_tstats_standalone Allow o es dm nn w b bp s').
Proof.
  intros. unfold t_tstats_standalone. eapply leM_bind; [ apply leM_lift, le_ensure | ]. intros _ _ _.
  eapply leM_bind with (R := any).
  { intros st st' s1 a _. unfold t_datamodel. cbn. eexists _, _. split; [ reflexivity | exact I ]. }
  intros d d' _. eapply leM_bind with (R := any).
  { apply leM_lift. destruct w; [ | apply le_ok_ok ]. apply le_ok_bind; [ apply le_expr | ]. intros. apply le_ok_ok. }
  intros d1 d1' _. eapply leM_bind with (R := any); [ apply leM_lift, le_stats_exprs | ].
  intros [] [] _. eapply leM_bind with (R := any); [ apply leM_lift | intros; apply leM_ret; exact I ].
  destruct b, bp; solve [ apply le_ok_err | apply le_ok_ok ].
Qed.
Lemma le_convert : forall tf l d d', le_ok (t_convert_go tf l d) (t_convert_go tf l d').
Proof. induction l; intros; cbn; [ apply le_ok_ok | ]. apply le_ok_same. intro. apply IHl. Qed.
Lemma le_rename : forall l d d', le_ok (t_rename_go l d) (t_rename_go l d').
Proof.
  induction l as [|[e n] l IH]; intros; cbn; [ apply le_ok_ok | ]. destruct e as [[[]| | |]| | | | | | | | |]; solve [ apply le_ok_err | apply IH ].
Qed.

Section Allow.
  Variables (ho ho' : nat -> list string -> list string) (gr : string -> res (list (Z * option string))).
  Hypothesis HP : forall k l, Permutation (ho' k l) l.
  Let ed := mkEnv Disallow ho gr.
  Let ea := mkEnv Allow ho' gr.
  Definition cmd_le (c : Command) : Prop :=
    forall s s', sim s s' -> leM sim (transform_command ed c s) (transform_command ea c s').
  Lemma run_le : forall p, Forall cmd_le p -> forall s s', sim s s' ->
    leM sim (run_commands (transform_command ed) p s) (run_commands (transform_command ea) p s').
  Proof.
    intros p F. induction F as [|c p Hc F IH]; intros s s' S; cbn [run_commands]; [ now apply leM_ret | ].
    eapply leM_bind; [ apply Hc, S | auto ].
  Qed.
  Lemma unions_le : forall ps, Forall (Forall cmd_le) ps -> forall s s', sim s s' ->
    leM sim (run_unions (transform_command ed) ps s) (run_unions (transform_command ea) ps s').
  Proof.
    intros ps F. induction F as [|p ps Hp F IH]; intros s s' S; cbn [run_unions]; [ now apply leM_ret | ].
    eapply leM_bind; [ apply run_le; auto; split; auto | ].
    intros [d|] [d'|] Sd; try (exfalso; destruct Sd as [S1 S2]; solve [ specialize (S1 eq_refl); discriminate | specialize (S2 eq_refl); discriminate ]).
    - apply IH. apply sim_some.
    - intros st st' s1 a E. discriminate.
  Qed.
  Lemma all_le : forall c, cmd_le c.
  Proof.
    intro c. induction c as [o p F|ps F|c H] using cmd_induct; intros s s' S.
    - cbn [transform_command]. apply leM_both; [ apply npM_unimpl | ].
      eapply leM_bind; [ apply leM_lift, le_ensure | ]. intros _ _ _.
      eapply leM_bind; [ apply run_le; auto; split; auto | ].
      intros [d|] [d'|] Sd; try (exfalso; destruct Sd as [S1 S2]; solve [ specialize (S1 eq_refl); discriminate | specialize (S2 eq_refl); discriminate ]); apply leM_lift; cbn [t_join]; [ | apply le_ok_err ].
      apply le_ok_same. intro. apply le_ok_same. intro. apply le_ok_ok.
    - cbn [transform_command]. destruct ps as [|p ps]; [ now apply leM_ret | ].
      apply leM_both; [ apply npM_unimpl | ].
      eapply leM_bind; [ apply unions_le; auto; split; auto | ].
      intros [d|] [d'|] Sd; try (exfalso; destruct Sd as [S1 S2]; solve [ specialize (S1 eq_refl); discriminate | specialize (S2 eq_refl); discriminate ]).
      + apply leM_ret. exact I.
      + intros st st' s1 a E. discriminate.
    - destruct c; cbn in H; try (elim H; exact I); cbn [transform_command env_rt ed ea];
        try (intros st st' s1 a E; discriminate);
        try (apply leM_both; [ apply npM_unimpl | apply leM_lift ]);
        try solve [ apply le_ok_ok ].
      + apply le_convert.
      + apply leM_both; [ apply npM_runtime | apply leM_lift ]. unfold t_datamodel_standalone.
        apply le_ok_same. intros _. destruct S as [S1 S2].
        destruct s, s'; try solve [ specialize (S1 eq_refl); discriminate | specialize (S2 eq_refl); discriminate ].
        * destruct (dm_data_model_name c), (dm_dataset_name c); solve [ apply le_ok_err | apply le_ok_ok ].
        * destruct (dm_data_model_name c), (dm_dataset_name c); solve [ apply le_ok_err | apply le_ok_ok ].
      + apply leM_both; [ | apply leM_lift, le_eval_go ].
        apply npM_bind; [ | intro; apply npM_runtime ]. apply npM_lift. apply np_trav. apply Forall_forall. intros x _.
        apply np_bind; [ apply np_eval_column | discriminate ].
      + apply leM_both; [ apply npM_runtime | apply leM_lift, le_ok_ok ].
      + unfold t_head. apply le_ok_same. intro. apply le_ok_ok.
      + unfold t_lookup. apply le_ok_bind; [ | intros; apply le_ok_ok ]. unfold lookup_result. apply le_ok_same. intro.
        apply le_ok_same. intro. apply le_ok_ok.
      + unfold t_toprare. apply le_ok_same. intro. apply le_ok_ok.
      + unfold t_regex. apply le_ok_same. intros []. apply le_ok_ok.
      + apply le_rename.
      + unfold t_rex. apply le_ok_same. intro. apply le_ok_same. intro. apply le_ok_same. intro. apply le_ok_ok.
      + apply leM_both; [ | now apply leM_search ].
        apply npM_bind; [ | intro; apply npM_runtime ]. apply npM_lift. apply np_trav. apply Forall_forall. intros. apply np_search_arg.
      + unfold t_sort. apply le_ok_same. intro. apply le_ok_ok.
      + apply leM_both; [ | apply leM_lift ].
        * apply npM_bind; [ | intro; apply npM_runtime ]. apply npM_lift. apply np_trav. apply Forall_forall. intros. apply np_stats_rt.
        * unfold t_stats_standalone. apply le_ok_bind; [ apply le_stats_exprs | intros [] []; apply le_ok_ok ].
      + unfold t_toprare. apply le_ok_same. intro. apply le_ok_ok.
      + apply leM_both; [ | apply leM_tstats ]. unfold t_tstats_runtime.
        apply npM_bind; [ apply npM_lift; unfold ensure; destruct (tstats_ok o); discriminate | intro ].
        apply npM_bind; [ apply npM_lift | intro ].
        { destruct where_condition; [ | discriminate ]. apply np_bind; [ apply np_expr | discriminate ]. }
        apply npM_bind; [ | intro; apply npM_runtime ]. apply npM_lift. apply np_trav. apply Forall_forall. intros. apply np_stats_rt.
      + unfold t_where. apply le_ok_bind; [ apply le_expr | intros; apply le_ok_ok ].
  Qed.
End Allow.
Lemma allow_accepts : forall ho ho' gr p out, (forall k l, Permutation (ho' k l) l) ->
  render_pyspark (mkEnv Disallow ho gr) p = Ok out ->
  exists out', render_pyspark (mkEnv Allow ho' gr) p = Ok out'.
Proof.
  intros ho ho' gr p out HP H. unfold render_pyspark in *. apply rbind_inv in H. destruct H as (d & H & _).
  unfold transform_pipeline in *. destruct (run_commands (transform_command (mkEnv Disallow ho gr)) p None _) as [st r] eqn:E.
  cbn in H. subst r.
  destruct (run_le ho ho' gr p (proj2 (Forall_forall _ _) (fun c _ => all_le ho ho' gr HP c)) None None (conj (fun x => x) (fun x => x)) _ transform_state0 _ _ E)
    as (s1 & d' & E' & _).
  rewrite E'. cbn. eauto.
Qed.
