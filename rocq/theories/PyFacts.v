(** Facts about SpecPy: more depth never changes an answer; lexing is compositional. *)
From Verif Require Import Str SpecPy.
Open Scope list_scope.

Definition mono_at (n m : nat) : Prop :=
  (forall lvl ts x, rd n lvl ts = Some x -> rd m lvl ts = Some x) /\
  (forall lvl l ts x, rd_ops n lvl l ts = Some x -> rd_ops m lvl l ts = Some x) /\
  (forall ts x, rd_atom n ts = Some x -> rd_atom m ts = Some x) /\
  (forall a ts x, rd_trailers n a ts = Some x -> rd_trailers m a ts = Some x) /\
  (forall ts x, rd_args n ts = Some x -> rd_args m ts = Some x) /\
  (forall ts x, rd_items n ts = Some x -> rd_items m ts = Some x) /\
  (forall ts x, rd_pairs n ts = Some x -> rd_pairs m ts = Some x).

Lemma mono_S : forall n, mono_at n (S n).
Proof.
  induction n as [|n IH].
  - unfold mono_at. repeat split; intros; discriminate.
  - destruct IH as (I1 & I2 & I3 & I4 & I5 & I6 & I7).
    Ltac crunch I1 I2 I3 I4 I5 I6 I7 :=
      repeat match goal with
      | H : None = Some _ |- _ => discriminate H
      | H : Some _ = Some _ |- _ => injection H as H; subst
      | H : context [match ?e with _ => _ end] |- _ =>
          match e with
          | rd _ _ _ => let E := fresh "E" in destruct e as [[? ?]|] eqn:E; [ apply I1 in E; rewrite E | discriminate H ]
          | rd_ops _ _ _ _ => let E := fresh "E" in destruct e as [[? ?]|] eqn:E; [ apply I2 in E; rewrite E | discriminate H ]
          | rd_atom _ _ => let E := fresh "E" in destruct e as [[? ?]|] eqn:E; [ apply I3 in E; rewrite E | discriminate H ]
          | rd_trailers _ _ _ => let E := fresh "E" in destruct e as [[? ?]|] eqn:E; [ apply I4 in E; rewrite E | discriminate H ]
          | rd_args _ _ => let E := fresh "E" in destruct e as [[? ?]|] eqn:E; [ apply I5 in E; rewrite E | discriminate H ]
          | rd_items _ _ => let E := fresh "E" in destruct e as [[? ?]|] eqn:E; [ apply I6 in E; rewrite E | discriminate H ]
          | rd_pairs _ _ => let E := fresh "E" in destruct e as [[? ?]|] eqn:E; [ apply I7 in E; rewrite E | discriminate H ]
          | _ => destruct e eqn:?
          end
      end.
    unfold mono_at. repeat split; intros.
    + change (rd (S (S n)) lvl ts) with
        (match lvl with
         | 5 => match ts with
                | TkOp o :: ts' => if str_in o unary_ops then
                    match rd (S n) 5 ts' with Some (e, r) => Some (PUn o e, r) | None => None end
                    else rd (S n) 6 ts
                | _ => rd (S n) 6 ts end
         | 6 => match rd_atom (S n) ts with Some (a, r) => rd_trailers (S n) a r | None => None end
         | _ => match rd (S n) (S lvl) ts with Some (l, r) => rd_ops (S n) lvl l r | None => None end
         end).
      cbn [rd] in H. crunch I1 I2 I3 I4 I5 I6 I7; try reflexivity; auto.
    + remember (S n) as m. cbn [rd_ops]. subst m. cbn [rd_ops] in H.
      crunch I1 I2 I3 I4 I5 I6 I7; try reflexivity; auto.
    + remember (S n) as m. cbn [rd_atom]. subst m. cbn [rd_atom] in H.
      crunch I1 I2 I3 I4 I5 I6 I7; try reflexivity; auto.
    + remember (S n) as m. cbn [rd_trailers]. subst m. cbn [rd_trailers] in H.
      crunch I1 I2 I3 I4 I5 I6 I7; try reflexivity; auto.
    + remember (S n) as m. cbn [rd_args]. subst m. cbn [rd_args] in H. cbv zeta in *.
      crunch I1 I2 I3 I4 I5 I6 I7; try reflexivity; auto.
    + remember (S n) as m. cbn [rd_items]. subst m. cbn [rd_items] in H. cbv zeta in *.
      crunch I1 I2 I3 I4 I5 I6 I7; try reflexivity; auto.
    + remember (S n) as m. cbn [rd_pairs]. subst m. cbn [rd_pairs] in H. cbv zeta in *.
      crunch I1 I2 I3 I4 I5 I6 I7; try reflexivity; auto.
Qed.
Lemma mono_le : forall n m, n <= m -> mono_at n m.
Proof.
  intros n m H. induction H as [|m H IH]; [ unfold mono_at; repeat split; auto | ].
  destruct IH as (I1 & I2 & I3 & I4 & I5 & I6 & I7).
  destruct (mono_S m) as (J1 & J2 & J3 & J4 & J5 & J6 & J7).
  unfold mono_at. repeat split; auto.
Qed.

Lemma rd_mono : forall n m lvl ts x, n <= m -> rd n lvl ts = Some x -> rd m lvl ts = Some x.
Proof. intros n m lvl ts x L. apply (mono_le n m L). Qed.

(** A text has at most one reading. *)
Lemma python_reads_unique : forall text t u,
  python_reads text t -> python_reads text u -> t = u.
Proof.
  intros text t u (ts & L & n & H) (ts' & L' & m & H').
  rewrite L in L'. injection L' as <-.
  apply (rd_mono n (n + m)) in H; [ | lia ]. apply (rd_mono m (n + m)) in H'; [ | lia ]. congruence.
Qed.

Lemma rd_program_mono : forall n m, n <= m -> forall ls x,
  rd_program n ls = Some x -> rd_program m ls = Some x.
Proof.
  intros n m L. induction ls as [|l ls IH]; intros x H; [ discriminate | ].
  cbn [rd_program] in *. destruct ls as [|l2 ls].
  - destruct (rd n 0 l) as [[e r]|] eqn:E; [ | discriminate H ].
    apply (rd_mono n m) in E; [ | exact L ]. rewrite E. exact H.
  - destruct l as [|[] [|[] l]]; try discriminate H.
    destruct (String.eqb s0 "=" && py_identifier s); [ | discriminate H ].
    destruct (rd n 0 l) as [[e r]|] eqn:E; [ | discriminate H ].
    apply (rd_mono n m) in E; [ | exact L ]. rewrite E. destruct r; [ | discriminate H ].
    destruct (rd_program n (l2 :: ls)) as [[p q]|] eqn:F; [ | discriminate H ].
    rewrite (IH _ eq_refl). exact H.
Qed.
Lemma python_program_unique : forall text a t b u,
  python_program text a t -> python_program text b u -> a = b /\ t = u.
Proof.
  intros text a t b u (ts & L & n & H) (ts' & L' & m & H').
  rewrite L in L'. injection L' as <-.
  apply (rd_program_mono n (n + m)) in H; [ | lia ].
  apply (rd_program_mono m (n + m)) in H'; [ | lia ]. rewrite H in H'. now injection H'.
Qed.

(** ** Lexing *)
Lemma pre_nil : forall A (r : option (A * list Tok)), pre [] r = r.
Proof. intros A [[a us]|]; reflexivity. Qed.
Lemma pre_app : forall A ts us (r : option (A * list Tok)), pre ts (pre us r) = pre (ts ++ us) r.
Proof. intros A ts us [[a vs]|]; cbn [pre]; [ | reflexivity ]. now rewrite app_assoc. Qed.
Lemma lex_run_app : forall a b st,
  lex_run st (a ++ b)%string
  = match lex_run st a with Some (st', ts) => pre ts (lex_run st' b) | None => None end.
Proof.
  induction a as [|c a IH]; intros b st; [ cbn [append lex_run]; now rewrite pre_nil | ].
  cbn [append lex_run]. destruct (lex_step st c) as [[st' ts]|]; [ | reflexivity ].
  rewrite IH. destruct (lex_run st' a) as [[st'' us]|]; [ | reflexivity ].
  cbn [pre]. now rewrite pre_app.
Qed.

(** A text that leaves no token open *)
Definition lx_closed (s : string) (ts : list Tok) : Prop := lex_run LxStart s = Some (LxStart, ts).
(** A text whose last token is lx_ended by a closing bracket, a comma, a space, a colon, a
    newline, or the end of the text *)
Definition ender (c : ascii) : Prop := In c [")"; "]"; "}"; ","; " "; ":"; "010"]%char.
Definition lx_ended (s : string) (ts : list Tok) : Prop :=
  exists st us vs, lex_run LxStart s = Some (st, us) /\ lex_end st = Some vs /\ ts = us ++ vs /\
    forall c, ender c -> lex_step st c = pre vs (lex_start c).

Lemma lx_closed_ended : forall s ts, lx_closed s ts -> lx_ended s ts.
Proof.
  intros s ts H. exists LxStart, ts, []. repeat split; [ exact H | now rewrite app_nil_r | ].
  intros c _. cbn [lex_step]. now rewrite pre_nil.
Qed.
Lemma lx_closed_app : forall a ts b us, lx_closed a ts -> lx_closed b us -> lx_closed (a ++ b)%string (ts ++ us).
Proof.
  unfold lx_closed. intros a ts b us Ha Hb. rewrite lex_run_app, Ha, Hb. reflexivity.
Qed.
Lemma lx_closed_ended_app : forall a ts b us, lx_closed a ts -> lx_ended b us -> lx_ended (a ++ b)%string (ts ++ us).
Proof.
  unfold lx_closed. intros a ts b us Ha (st & vs & ws & R & E & -> & N).
  exists st, (ts ++ vs), ws. rewrite lex_run_app, Ha, R. cbn [pre]. repeat split; auto.
  now rewrite app_assoc.
Qed.
(** An lx_ended text followed by a text that starts with an ending character *)
Lemma lx_ended_app : forall a ts c b us, lx_ended a ts -> ender c ->
  lx_closed (String c b) us -> lx_closed (a ++ String c b)%string (ts ++ us).
Proof.
  unfold lx_closed. intros a ts c b us (st & vs & ws & R & E & -> & N) Hc Hb.
  rewrite lex_run_app, R. cbn [lex_run] in Hb |- *. rewrite (N c Hc). cbn [lex_step] in Hb.
  destruct (lex_start c) as [[st' xs]|]; [ | discriminate Hb ]. cbn [pre].
  destruct (lex_run st' b) as [[st'' ys]|]; [ | discriminate Hb ]. cbn [pre] in Hb |- *.
  injection Hb as -> <-. now rewrite !app_assoc.
Qed.
Lemma lx_ended_app_ended : forall a ts c b us, lx_ended a ts -> ender c ->
  lx_ended (String c b) us -> lx_ended (a ++ String c b)%string (ts ++ us).
Proof.
  intros a ts c b us (st & vs & ws & R & E & -> & N) Hc (st2 & vs2 & ws2 & R2 & E2 & -> & N2).
  cbn [lex_run lex_step] in R2.
  destruct (lex_start c) as [[st' xs]|] eqn:Ec; [ | discriminate R2 ].
  destruct (lex_run st' b) as [[st'' ys]|] eqn:Eb; [ | discriminate R2 ].
  cbn [pre] in R2. injection R2 as -> <-.
  exists st2, (vs ++ ws ++ xs ++ ys), ws2. repeat split.
  - rewrite lex_run_app, R. cbn [lex_run]. rewrite (N c Hc), Ec. cbn [pre]. rewrite Eb. cbn [pre].
    now rewrite <- !app_assoc.
  - exact E2.
  - now rewrite <- !app_assoc.
  - exact N2.
Qed.
Lemma lx_ended_lex : forall s ts, lx_ended s ts -> lex s = Some ts.
Proof. intros s ts (st & us & vs & R & E & -> & _). unfold lex. now rewrite R, E. Qed.
Lemma lx_closed_lex : forall s ts, lx_closed s ts -> lex s = Some ts.
Proof. intros s ts H. now apply lx_ended_lex, lx_closed_ended. Qed.

(** ** What is read contains no newline and no keyword *)
Definition stray (t : Tok) : bool :=
  match t with TkNewline => true | TkName k => str_in k python_keywords | _ => false end.
Definition uses (ts r : list Tok) : Prop := exists used, ts = used ++ r /\ existsb stray used = false.
Lemma uses_refl : forall ts, uses ts ts.
Proof. intro ts. exists []. split; reflexivity. Qed.
Lemma uses_trans : forall a b c, uses a b -> uses b c -> uses a c.
Proof.
  intros a b c (u & -> & N) (v & -> & M). exists (u ++ v). split; [ now rewrite app_assoc | ].
  rewrite existsb_app, N. exact M.
Qed.
Lemma uses_cons : forall t a b, stray t = false -> uses a b -> uses (t :: a) b.
Proof.
  intros t a b N (u & -> & M). exists (t :: u). split; [ reflexivity | ]. cbn [existsb]. now rewrite N.
Qed.
Lemma identifier_kept : forall f, py_identifier f = true -> stray (TkName f) = false.
Proof. intros f H. unfold py_identifier in H. apply andb_prop in H as [H _]. now apply negb_true_iff in H. Qed.
Lemma adjacent_uses : forall ts s v r, adjacent_strings s ts = (v, r) -> uses ts r.
Proof.
  induction ts as [|t ts IH]; intros s v r H; cbn [adjacent_strings] in H; [ injection H as <- <-; apply uses_refl | ].
  destruct t; try (injection H as <- <-; apply uses_refl).
  apply uses_cons; [ reflexivity | eauto ].
Qed.
Definition uses_at (n : nat) : Prop :=
  (forall lvl ts x r, rd n lvl ts = Some (x, r) -> uses ts r) /\
  (forall lvl l ts x r, rd_ops n lvl l ts = Some (x, r) -> uses ts r) /\
  (forall ts x r, rd_atom n ts = Some (x, r) -> uses ts r) /\
  (forall a ts x r, rd_trailers n a ts = Some (x, r) -> uses ts r) /\
  (forall ts x r, rd_args n ts = Some (x, r) -> uses ts r) /\
  (forall ts x r, rd_items n ts = Some (x, r) -> uses ts r) /\
  (forall ts x r, rd_pairs n ts = Some (x, r) -> uses ts r).
Lemma rd_uses_at : forall n, uses_at n.
Proof.
  induction n as [|n (I1 & I2 & I3 & I4 & I5 & I6 & I7)].
  - unfold uses_at. repeat split; intros; discriminate.
  - Ltac crunch2 I1 I2 I3 I4 I5 I6 I7 :=
      repeat match goal with
      | H : None = Some _ |- _ => discriminate H
      | H : Some _ = Some _ |- _ => injection H as H; subst
      | H : (_, _) = (_, _) |- _ => injection H as H; subst
      | H : adjacent_strings _ _ = (_, _) |- _ => apply adjacent_uses in H
      | H : rd _ _ _ = Some _ |- _ => apply I1 in H
      | H : rd_ops _ _ _ _ = Some _ |- _ => apply I2 in H
      | H : rd_atom _ _ = Some _ |- _ => apply I3 in H
      | H : rd_trailers _ _ _ = Some _ |- _ => apply I4 in H
      | H : rd_args _ _ = Some _ |- _ => apply I5 in H
      | H : rd_items _ _ = Some _ |- _ => apply I6 in H
      | H : rd_pairs _ _ = Some _ |- _ => apply I7 in H
      | H : context [match ?e with _ => _ end] |- _ => destruct e eqn:?
      end.
    Ltac fin := solve [ repeat match goal with
      | |- uses ?a ?a => apply uses_refl
      | H : uses ?a ?b |- uses ?a ?b => exact H
      | H : uses ?a _ |- uses ?a _ => apply (uses_trans _ _ _ H); clear H
      | |- uses (_ :: _) _ => apply uses_cons; [ first [ reflexivity | assumption | now apply identifier_kept ] | ]
      end ].
    unfold uses_at. repeat split; intros.
    + destruct lvl as [|[|[|[|[|[|[|lvl]]]]]]]; cbn [rd] in H; crunch2 I1 I2 I3 I4 I5 I6 I7; fin.
    + cbn [rd_ops] in H. crunch2 I1 I2 I3 I4 I5 I6 I7; fin.
    + cbn [rd_atom] in H. crunch2 I1 I2 I3 I4 I5 I6 I7; fin.
    + cbn [rd_trailers] in H. crunch2 I1 I2 I3 I4 I5 I6 I7; fin.
    + cbn [rd_args] in H. cbv zeta in H. crunch2 I1 I2 I3 I4 I5 I6 I7; fin.
    + cbn [rd_items] in H. cbv zeta in H. crunch2 I1 I2 I3 I4 I5 I6 I7; fin.
    + cbn [rd_pairs] in H. cbv zeta in H. crunch2 I1 I2 I3 I4 I5 I6 I7; fin.
Qed.
Lemma rd_no_stray : forall n lvl ts t, rd n lvl ts = Some (t, []) -> existsb stray ts = false.
Proof.
  intros n lvl ts t H. destruct (rd_uses_at n) as (U & _). destruct (U _ _ _ _ H) as (u & -> & N).
  now rewrite app_nil_r.
Qed.
Lemma rd_no_newline : forall n lvl ts t, rd n lvl ts = Some (t, []) -> ~ In TkNewline ts.
Proof.
  intros n lvl ts t H I. apply rd_no_stray in H.
  assert (E : existsb stray ts = true) by (apply existsb_exists; exists TkNewline; split; [ exact I | reflexivity ]).
  congruence.
Qed.
(** A one-line text with a stray token has no reading *)
Lemma no_reading : forall text ts, lex text = Some ts -> existsb stray ts = true ->
  forall t, ~ python_reads text t.
Proof.
  intros text ts E S t (us & E' & n & H). rewrite E in E'. injection E' as <-.
  apply rd_no_stray in H. congruence.
Qed.
Definition keyword (t : Tok) : bool := match t with TkName k => str_in k python_keywords | _ => false end.
Lemma lines_in : forall ts t, In t ts -> t <> TkNewline -> exists l, In l (split_lines ts) /\ In t l.
Proof.
  induction ts as [|u ts IH]; intros t I N; [ destruct I | ].
  destruct I as [->|I].
  - destruct t; cbn [split_lines]; try congruence; destruct (split_lines ts) as [|l ls]; eexists; (split; [ left; reflexivity | left; reflexivity ]).
  - destruct (IH t I N) as (l & Il & It).
    destruct u; cbn [split_lines]; try (exists l; split; [ right; exact Il | exact It ]);
      (destruct (split_lines ts) as [|l0 ls]; [ destruct Il | ]; destruct Il as [->|Il];
       [ eexists; split; [ left; reflexivity | right; exact It ] | exists l; split; [ right; exact Il | exact It ] ]).
Qed.
Lemma rd_program_lines : forall n ls x, rd_program n ls = Some x -> forall l t, In l ls -> In t l -> keyword t = false.
Proof.
  assert (K : forall ts t, existsb stray ts = false -> In t ts -> keyword t = false).
  { intros ts t E I. destruct (keyword t) eqn:Kt; [ | reflexivity ].
    rewrite (proj2 (existsb_exists stray ts)) in E; [ discriminate E | ]. exists t. split; [ exact I | ].
    destruct t; try discriminate Kt. exact Kt. }
  induction ls as [|l ls IH]; intros x H l0 t Il It; [ destruct Il | ].
  cbn [rd_program] in H. destruct ls as [|l2 ls].
  - destruct Il as [<-|[]]. destruct (rd n 0 l) as [[e [|]]|] eqn:E; try discriminate H.
    apply rd_no_stray in E. now apply (K l).
  - destruct l as [|[y| | | |] l]; try discriminate H. destruct l as [|[ | | |o|] l]; try discriminate H.
    destruct (String.eqb o "=" && py_identifier y) eqn:C; [ | discriminate H ].
    destruct (rd n 0 l) as [[e [|]]|] eqn:E; try discriminate H.
    destruct (rd_program n (l2 :: ls)) as [[p r]|] eqn:R; [ | discriminate H ].
    destruct Il as [<-|Il]; [ | now apply (IH (p, r) eq_refl l0) ].
    apply rd_no_stray in E. apply andb_prop in C as [_ C].
    destruct It as [<-|[<-|It]]; [ now apply identifier_kept | reflexivity | now apply (K l) ].
Qed.
(** No program contains a keyword *)
Lemma no_program : forall text ts, lex text = Some ts -> existsb keyword ts = true ->
  forall a t, ~ python_program text a t.
Proof.
  intros text ts E S a t (us & E' & n & H). rewrite E in E'. injection E' as <-.
  apply existsb_exists in S as (k & I & K). destruct (lines_in ts k I) as (l & Il & Ik); [ intros ->; discriminate K | ].
  rewrite (rd_program_lines _ _ _ H l k Il Ik) in K. discriminate K.
Qed.

(** Reading by computation *)
Definition program_of (depth : nat) (text : string) : option (list (string * Py) * Py) :=
  match lex text with Some ts => rd_program depth (split_lines ts) | None => None end.
Lemma program_by : forall depth text a t, program_of depth text = Some (a, t) -> python_program text a t.
Proof.
  intros depth text a t H. unfold program_of in H. destruct (lex text) as [ts|] eqn:E; [ | discriminate H ].
  exists ts. split; [ exact E | ]. exists depth. exact H.
Qed.
Definition has_keyword (text : string) : bool :=
  match lex text with Some ts => existsb keyword ts | None => false end.
Lemma no_program_by : forall text, has_keyword text = true -> forall a t, ~ python_program text a t.
Proof.
  intros text H. unfold has_keyword in H. destruct (lex text) as [ts|] eqn:E; [ | discriminate H ].
  now apply (no_program text ts).
Qed.
