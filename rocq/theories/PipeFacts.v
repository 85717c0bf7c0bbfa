(** Proofs about whole pipelines *)
From Coq Require Import Lia Permutation.
From Verif Require Import Str SplAst PyAst Functions Transpile Render Commands SpecPipe.
Open Scope string_scope.

(** ** The command monad *)
Lemma bind_inv : forall A B (m : M A) (f : A -> M B) s s' b, bind m f s = (s', Ok b) ->
  exists s1 a, m s = (s1, Ok a) /\ f a s1 = (s', Ok b).
Proof.
  intros A B m f s s' b H. unfold bind in H. destruct (m s) as [s1 [a| | ]]; try discriminate. eauto.
Qed.
Lemma bind_ok : forall A B (m : M A) (f : A -> M B) s s1 a, m s = (s1, Ok a) -> bind m f s = f a s1.
Proof. intros A B m f s s1 a H. unfold bind. now rewrite H. Qed.
Lemma rbind_inv : forall A B (r : res A) (f : A -> res B) b, (let? x := r in f x) = Ok b ->
  exists a, r = Ok a /\ f a = Ok b.
Proof. intros A B [a| | ] f b H; try discriminate. eauto. Qed.

Lemma rtraverse_cons : forall A B (f : A -> res B) a l,
  rtraverse f (a :: l) = (let? b := f a in let? r := rtraverse f l in Ok (b :: r)).
Proof. reflexivity. Qed.

(** ** Induction over expressions and commands *)
Section ExprInd.
  Variable P : Expr -> Prop.
  Hypothesis Hbin : forall l o r, P l -> P r -> P (EBinary l o r).
  Hypothesis Hun : forall o r, P r -> P (EUnary o r).
  Hypothesis Hcall : forall n args, Forall P args -> P (ECall n args).
  Hypothesis Halias : forall e n, P e -> P (EAlias e n).
  Hypothesis Hother : forall e, match e with
    | EBinary _ _ _ | EUnary _ _ | ECall _ _ | EAlias _ _ => False | _ => True end -> P e.
  Fixpoint expr_induct (e : Expr) : P e :=
    match e with
    | EBinary l o r => Hbin l o r (expr_induct l) (expr_induct r)
    | EUnary o r => Hun o r (expr_induct r)
    | EAlias e n => Halias e n (expr_induct e)
    | ECall n args =>
        Hcall n args ((fix go l : Forall P l :=
          match l with nil => Forall_nil _ | x :: l' => Forall_cons _ (expr_induct x) (go l') end) args)
    | ELeaf l => Hother (ELeaf l) I
    | EAliasedField f a => Hother (EAliasedField f a) I
    | EFieldIn f l => Hother (EFieldIn f l) I
    | ETimeModifier f m => Hother (ETimeModifier f m) I
    | ESearchModifier m => Hother (ESearchModifier m) I
    | ESubSearch p => Hother (ESubSearch p) I
    end.
End ExprInd.
Definition has_subsearch (c : Command) : Prop :=
  match c with CJoin _ _ | CMultiSearch _ => True | _ => False end.
Section CmdInd.
  Variable P : Command -> Prop.
  Hypothesis Hjoin : forall o p, Forall P p -> P (CJoin o p).
  Hypothesis Hmulti : forall ps, Forall (Forall P) ps -> P (CMultiSearch ps).
  Hypothesis Hother : forall c, ~ has_subsearch c -> P c.
  Fixpoint cmd_induct (c : Command) : P c :=
    match c with
    | CJoin o p =>
        Hjoin o p ((fix go l : Forall P l :=
          match l with nil => Forall_nil _ | x :: l' => Forall_cons _ (cmd_induct x) (go l') end) p)
    | CMultiSearch ps =>
        Hmulti ps ((fix goo ls : Forall (Forall P) ls :=
          match ls with
          | nil => Forall_nil _
          | l :: ls' => Forall_cons _ ((fix go l : Forall P l :=
               match l with nil => Forall_nil _ | x :: l' => Forall_cons _ (cmd_induct x) (go l') end) l) (goo ls')
          end) ps)
    | c => Hother c (fun f => f)
    end.
End CmdInd.

(** ** C21 *)
(** A command that is never translated *)
Definition refuses (env : Env) (c : Command) : Prop := forall s st st' d, transform_command env c s st <> (st', Ok d).
Lemma run_err : forall env p, Forall (fun c => (exists c', occurs c' [c] /\ refuses env c') ->
    forall s st st' d, transform_command env c s st <> (st', Ok d)) p ->
  (exists c', occurs c' p /\ refuses env c') ->
  forall s st st' d, run_commands (transform_command env) p s st <> (st', Ok d).
Proof.
  intros env. induction p as [|c p IH]; intros F (c' & Ho & Hu) s st st' d H.
  - inversion Ho; subst; contradiction.
  - inversion F as [|? ? F1 F2]; subst. cbn [run_commands] in H. apply bind_inv in H. destruct H as (s1 & a & E1 & E2).
    assert (D : occurs c' [c] \/ occurs c' p).
    { inversion Ho as [? Hi|? o q Hi Hq|? qs q Hi Hq Hc]; subst; destruct Hi as [Hi|Hi]; subst.
      - left. apply OC_here. now left.
      - right. now apply OC_here.
      - left. eapply OC_join; [ now left | exact Hq ].
      - right. eapply OC_join; eauto.
      - left. eapply OC_multisearch; [ now left | exact Hq | exact Hc ].
      - right. eapply OC_multisearch; eauto. }
    destruct D as [D|D].
    + eapply F1; eauto.
    + eapply IH; eauto.
Qed.
Lemma only_none : forall rt m st st' d,
  (do x <- select_rt rt unimplemented m; ret (Some x)) st = (st', Ok d) ->
  (rt <> Require) /\ exists x, m st = (st', Ok x) /\ d = Some x.
Proof.
  intros rt m st st' d H. apply bind_inv in H. destruct H as (s1 & x & E1 & E2).
  injection E2 as -> <-. destruct rt; cbn in E1; try discriminate; split; try discriminate; eauto.
Qed.
Lemma refuses_err : forall env c, (exists c', occurs c' [c] /\ refuses env c') ->
    forall s st st' d, transform_command env c s st <> (st', Ok d).
Proof.
  assert (One : forall c c', occurs c' [c] -> c' = c \/ (exists o q, c = CJoin o q /\ occurs c' q) \/ exists qs q, c = CMultiSearch qs /\ In q qs /\ occurs c' q).
  { intros c c' Ho. inversion Ho as [? Hi|? o' q Hi Hq|? qs q Hi Hq Hc]; subst; destruct Hi as [E'|[]]; [ auto | | ].
    - right. left. eauto.
    - right. right. eauto. }
  intros env. induction c using cmd_induct; intros (c' & Ho & Hu) s st st' d HT;
    (destruct (One _ _ Ho) as [->|[(o' & q & Ej & Hq)|(qs & q & Em & Hi & Hq)]]; [ now apply (Hu s st st' d) | | ]); try discriminate.
  - cbn [transform_command] in HT. apply only_none in HT. destruct HT as (_ & x & E & _).
    apply bind_inv in E. destruct E as (s1 & [] & _ & E). apply bind_inv in E. destruct E as (s2 & r & E & _).
    injection Ej as <- <-. eapply (run_err env p); eauto.
  - injection Em as <-. cbn [transform_command] in HT. destruct ps as [|p ps]; [ contradiction | ].
    set (l := p :: ps) in *.
    apply only_none in HT. destruct HT as (_ & x & E & _).
    apply bind_inv in E. destruct E as (s1 & r & E & _).
    assert (D : exists q, In q l /\ occurs c' q) by eauto.
    clear Ho Hi Hq. revert E. generalize (@None DataFrame) as cur. revert st. clearbody l.
    induction l as [|q' l IH]; intros st cur E; [ destruct D as (q' & [] & _) | ].
    cbn [run_unions] in E. apply bind_inv in E. destruct E as (s2 & r2 & E2 & E3).
    inversion H; subst. destruct D as (q'' & [<-|Hi] & Ho).
    + eapply (run_err env q'); eauto.
    + destruct r2; [ | discriminate ]. eapply IH; eauto.
  - subst c. cbn in H. elim H; exact I.
  - subst c. cbn in H. elim H; exact I.
Qed.
Lemma refused_anywhere : forall env p c, occurs c p -> refuses env c -> forall out, render_pyspark env p <> Ok out.
Proof.
  intros env p c Ho Hu out H. unfold render_pyspark in H. apply rbind_inv in H. destruct H as (d & H & _).
  unfold transform_pipeline in H. destruct (run_commands _ p None _) as [st r] eqn:E. cbn in H. subst r.
  eapply run_err; [ | | exact E ].
  - apply Forall_forall. intros x _. apply refuses_err.
  - eauto.
Qed.
Lemma untranslatable_refused : forall env p c, occurs c p -> untranslatable c ->
  forall out, render_pyspark env p <> Ok out.
Proof. intros env p c Ho Hu. apply (refused_anywhere env p c Ho). intros s st st' d. destruct c; try contradiction; discriminate. Qed.
