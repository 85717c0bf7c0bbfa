(** C20 and C30: composing pipelines; iteration order of hash sets *)
From Coq Require Import Lia Permutation.
From Verif Require Import Str SplAst PyAst Functions Transpile Render Commands SpecPipe PipeFacts AllowFacts TreeFacts NamesFacts ShapeFacts ScopeFacts StatementFacts.
Open Scope string_scope.

(** ** Index terms *)
Lemma set_insert_len : forall v l, length (set_insert v l) <= S (length l).
Proof. intros v l. unfold set_insert. destruct (existsb _ l); [ lia | ]. rewrite app_length. cbn. lia. Qed.
Lemma index_len : forall e aa ind ind' c, split_conditions e aa ind = Ok (ind', c) ->
  length ind' <= length ind + length (index_terms e) /\ (index_terms e = [] -> ind' = ind).
Proof.
  induction e using expr_induct; intros aa ind ind' c E; try (injection E as <- <-; split; [ lia | auto ]).
  - cbn [split_conditions index_terms] in *. change index_field with is_index.
    destruct (is_index e1) eqn:I1, (is_index e2) eqn:I2; cbn [xorb orb andb] in E.
    + discriminate.
    + destruct (String.eqb o "="); [ | discriminate ]. apply rbind_inv in E. destruct E as (_ & _ & E).
      apply rbind_inv in E. destruct E as (v & _ & E). injection E as <- <-. split; [ pose proof (set_insert_len v ind); cbn; lia | discriminate ].
    + destruct (String.eqb o "="); [ | discriminate ]. apply rbind_inv in E. destruct E as (_ & _ & E).
      apply rbind_inv in E. destruct E as (v & _ & E). injection E as <- <-. split; [ pose proof (set_insert_len v ind); cbn; lia | discriminate ].
    + apply rbind_inv in E. destruct E as ([i1 c1] & E1 & E). apply rbind_inv in E. destruct E as ([i2 c2] & E2 & E).
      apply rbind_inv in E. destruct E as (c3 & _ & E). injection E as <- <-. apply IHe1 in E1. apply IHe2 in E2.
      destruct E1 as [L1 N1], E2 as [L2 N2]. rewrite app_length. split; [ lia | ]. intro N. apply app_eq_nil in N. destruct N as [Na Nb].
      rewrite N2, N1 by assumption. reflexivity.
  - destruct e; cbn in H; try contradiction; injection E as <- <-; (split; [ lia | auto ]).
Qed.
Lemma insert_some : forall v l, set_insert v l <> [].
Proof. intros v l. unfold set_insert. destruct (existsb _ l) eqn:E; destruct l; discriminate. Qed.
Lemma index_kept : forall e aa ind ind' c, split_conditions e aa ind = Ok (ind', c) -> index_terms e <> [] \/ ind <> [] -> ind' <> [].
Proof.
  induction e using expr_induct; intros aa ind ind' c E N;
    try (injection E as <- <-; destruct N as [N|N]; [ now elim N | exact N ]).
  - cbn [split_conditions index_terms] in *. change index_field with is_index in *.
    destruct (is_index e1) eqn:L, (is_index e2) eqn:R; cbn [xorb andb orb] in E.
    + discriminate.
    + destruct (String.eqb o "="); [ | discriminate ]. destruct aa; [ | discriminate ]. cbn [ensure rbind] in E.
    apply rbind_inv in E. destruct E as (v & _ & E). injection E as <- _. apply insert_some.
    + destruct (String.eqb o "="); [ | discriminate ]. destruct aa; [ | discriminate ]. cbn [ensure rbind] in E.
    apply rbind_inv in E. destruct E as (v & _ & E). injection E as <- _. apply insert_some.
    + apply rbind_inv in E. destruct E as ([i1 c1] & E1 & E). apply rbind_inv in E. destruct E as ([i2 c2] & E2 & E).
    apply rbind_inv in E. destruct E as (c3 & _ & E). injection E as <- _. apply (IHe2 _ _ _ _ E2).
    destruct N as [N|N]; [ | right; apply (IHe1 _ _ _ _ E1); now right ].
    destruct (index_terms e1) eqn:I1; [ left; exact N | right ]. apply (IHe1 _ _ _ _ E1). left. discriminate.
  - destruct e; cbn in H; try contradiction; injection E as <- <-; (destruct N as [N|N]; [ now elim N | exact N ]).
Qed.
Lemma no_index : forall e, index_terms e = [] -> ~ picks_index e.
Proof. intros e H (i & l & c & E). apply index_len in E. destruct E as [_ E]. specialize (E H). discriminate. Qed.

(** ** C30 *)
Lemma perm_short : forall A (l l' : list A), Permutation l' l -> length l <= 1 -> l' = l.
Proof.
  intros A [|x [|y l]] l' P L; cbn in L; try lia.
  - now apply Permutation_sym, Permutation_nil in P.
  - now apply Permutation_sym, Permutation_length_1_inv in P.
Qed.
Definition few (p : list Command) : Prop := forall e, occurs (CSearch e) p -> length (index_terms e) <= 1.
Lemma few_cons : forall c p, few (c :: p) -> few [c] /\ few p.
Proof.
  intros c p H. split; intros x Hx; apply H.
  - inversion Hx as [? Hi|? o q Hi Hq|? qs q Hi Hq Hc]; subst; destruct Hi as [Hi|[]]; subst.
    + apply OC_here. now left.
    + eapply OC_join; [ now left | exact Hq ].
    + eapply OC_multisearch; [ now left | exact Hq | exact Hc ].
  - inversion Hx as [? Hi|? o q Hi Hq|? qs q Hi Hq Hc]; subst.
    + apply OC_here. now right.
    + eapply OC_join; [ right; eauto | exact Hq ].
    + eapply OC_multisearch; [ right; eauto | exact Hq | exact Hc ].
Qed.
Section Order.
  Variables (rt : Rt) (gr : string -> res (list (Z * option string))) (ho ho' : nat -> list string -> list string).
  Hypothesis P : forall k l, Permutation (ho k l) l.
  Hypothesis P' : forall k l, Permutation (ho' k l) l.
  Let e1 := mkEnv rt ho gr.
  Let e2 := mkEnv rt ho' gr.
  Definition SO (c : Command) := few [c] -> forall s st, transform_command e1 c s st = transform_command e2 c s st.
  Lemma bind_ext : forall A B (m m' : M A) (f f' : A -> M B) st, m st = m' st -> (forall a st, f a st = f' a st) -> bind m f st = bind m' f' st.
  Proof. intros A B m m' f f' st H K. unfold bind. rewrite H. destruct (m' st) as [s [a| | ]]; auto. Qed.
  Lemma select_ext : forall r m m' st, (forall st, m st = m' st) -> select_rt rt r m st = select_rt rt r m' st.
  Proof. intros r m m' st H. destruct rt; cbn; auto. unfold or_else. destruct (r st) as [s [a| | ]]; auto. Qed.
  Lemma run_same : forall p, Forall SO p -> few p -> forall s st,
    run_commands (transform_command e1) p s st = run_commands (transform_command e2) p s st.
  Proof.
    intros p F. induction F as [|c p Hc Hp IH]; intros HF s st; [ reflexivity | ]. cbn [run_commands].
    apply few_cons in HF. destruct HF. apply bind_ext; [ now apply Hc | ]. intros. now apply IH.
  Qed.
  Lemma unions_same : forall ps, Forall (Forall SO) ps -> Forall few ps -> forall s st,
    run_unions (transform_command e1) ps s st = run_unions (transform_command e2) ps s st.
  Proof.
    intros p F. induction F as [|c p Hc Hp IH]; intros HF s st; [ reflexivity | ]. cbn [run_unions].
    inversion HF; subst. apply bind_ext; [ now apply run_same | ]. intros [a|] st'; [ now apply IH | reflexivity ].
  Qed.
  Lemma cmd_same : forall c, SO c.
  Proof.
    induction c using cmd_induct; intros HF s st.
    - cbn [transform_command]. apply bind_ext; [ | auto ]. apply select_ext. intro st'. apply bind_ext; [ auto | ]. intros _ st2.
      apply bind_ext; [ | auto ]. apply run_same; auto. intros e He. apply HF. eapply OC_join; [ now left | exact He ].
    - cbn [transform_command]. destruct ps as [|p ps]; [ reflexivity | ]. apply bind_ext; [ | auto ]. apply select_ext. intro st'.
      apply bind_ext; [ | auto ]. apply unions_same; auto. apply Forall_forall. intros q Hq e He. apply HF.
      eapply OC_multisearch; [ now left | exact Hq | exact He ].
    - destruct c; cbn in H; try (elim H; exact I); try reflexivity. cbn [transform_command]. apply bind_ext; [ | auto ]. apply select_ext.
      intro st'. unfold t_search_standalone. unfold bind, lift. destruct (split_conditions e true []) as [[ind cond]| | ] eqn:E; auto.
      apply index_len in E. destruct E as [L _]. cbn [length] in L.
      assert (K : length (index_terms e) <= 1) by (apply HF; apply OC_here; now left).
      destruct ind as [|i ind]; [ reflexivity | ]. unfold hash_iter. cbn [env_hash_order e1 e2].
      rewrite (perm_short _ _ _ (P _ _)), (perm_short _ _ _ (P' _ _)) by lia. reflexivity.
  Qed.
  Lemma render_same : forall p, few p -> render_pyspark e1 p = render_pyspark e2 p.
  Proof.
    intros p F. unfold render_pyspark, transform_pipeline. rewrite run_same; auto. apply Forall_forall. intros. apply cmd_same.
  Qed.
End Order.

(** ** C20: the frame of p is kept *)
Lemma step_frames : forall d s x, is_step d s -> In x (frames s) -> In x (frames d).
Proof. intros d s x H K. destruct d; try contradiction; cbn in H; subst; cbn [frames]; now right. Qed.
Lemma self_frames : forall d, In d (frames d).
Proof. intros []; cbn [frames]; now left. Qed.
Lemma built_frames : forall (g : Prop) d0 d x, ~ g -> built g d0 d -> In x (frames d0) -> In x (frames d).
Proof. intros g d0 d x N B H. induction B; auto; try contradiction. eapply step_frames; eauto. Qed.
Lemma cmd_keeps : forall env c d st st' s' x, ~ starts_over c -> In x (frames d) -> transform_command env c (Some d) st = (st', Ok s') ->
  exists d', s' = Some d' /\ In x (frames d').
Proof.
  intros env c d st st' s' x NS Hx H. destruct c; try (cbn in NS; elim NS; exact I);
    try (let A := fresh in match type of H with transform_command _ ?c0 _ _ = _ => assert (A : ~ has_subsearch c0) by (intro A; exact A) end;
      destruct (cmd_shape env _ (Some d) st st' s' A H) as (d' & -> & [[B E]|(_ & _ & f & args & kw & B & P & E)]);
      exists d'; (split; [ reflexivity | ]);
      [ eapply built_frames; [ | exact B | exact Hx ];
        intros [R|R]; [ first [ contradiction | cbn [restarts starts_over] in *; apply NS; intro Z; exact (no_index _ Z R) ] | discriminate ]
      | eapply (built_frames False); [ auto | exact B | ]; cbn [frames]; right; apply in_or_app; left; exact Hx ]).
  - cbn [transform_command] in H. apply only_none in H. destruct H as (_ & y & E & ->).
    apply bind_inv in E. destruct E as (s1 & u & E0 & E). apply lift_inv in E0. destruct E0 as [-> _].
    apply bind_inv in E. destruct E as (s2 & r & E & EJ). apply lift_inv in EJ. destruct EJ as [-> EJ].
    unfold t_join in EJ. destruct r as [r|]; [ | discriminate ]. apply rbind_inv in EJ. destruct EJ as (ty & _ & EJ).
    apply rbind_inv in EJ. destruct EJ as (cd & _ & EJ). injection EJ as <-. eexists. split; [ reflexivity | ].
    unfold d_join. cbn [frames]. right. apply in_or_app. left. now right.
  - cbn [transform_command] in H. cbn in NS. match type of NS with ?l <> [] -> False => destruct l | ~ (?l <> []) => destruct l end; [ | elim NS; discriminate ].
    destruct (env_rt env); try discriminate; injection H as _ <-; eauto.
Qed.
Lemma run_keeps : forall env q d st st' s' x, (forall c, In c q -> ~ starts_over c) -> In x (frames d) ->
  run_commands (transform_command env) q (Some d) st = (st', Ok s') -> exists d', s' = Some d' /\ In x (frames d').
Proof.
  intros env. induction q as [|c q IH]; intros d st st' s' x N Hx H; cbn [run_commands] in H.
  - injection H as _ <-. eauto.
  - apply bind_inv in H. destruct H as (s1 & a & E1 & E2). apply (cmd_keeps _ _ _ _ _ _ x) in E1; auto; [ | apply N; now left ].
    destruct E1 as (d1 & -> & H1). eapply IH; eauto. intros c0 Hc. apply N. now right.
Qed.
Lemma compose_keeps : forall env p q d s', transform_pipeline env p = Ok (Some d) -> (forall c, In c q -> ~ starts_over c) ->
  transform_pipeline env (p ++ q)%list = Ok s' -> exists d', s' = Some d' /\ In d (frames d').
Proof.
  intros env p q d s' H N K. unfold transform_pipeline in *. destruct (run_commands _ (p ++ q)%list _ _) as [st r] eqn:E. cbn in K. subst r.
  apply run_app in E. destruct E as (s1 & t1 & E1 & E2). rewrite E1 in H. cbn in H. injection H as ->.
  eapply run_keeps; [ exact N | | exact E2 ]. apply self_frames.
Qed.

(** ** C20: the text each command adds when no runtime is allowed *)
Definition adds (r : res (list Frag)) (m : DataFrame -> res DataFrame) : Prop :=
  forall d, match m d with
            | Ok d' => exists w, r = Ok w /\ frags d' = (frags d ++ w)%list
            | Err => r = Err
            | Panic => r = Panic
            end.
Definition adder (m : DataFrame -> res DataFrame) : Prop := exists r, adds r m.
Lemma adder_id : adder (fun d => Ok d).
Proof. exists (Ok []). intro d. exists []. now rewrite app_nil_r. Qed.
Lemma adder_step : forall m K, (exists w, forall d, frags (K d) = (frags d ++ w)%list) -> adder m -> adder (fun d => let? x := m d in Ok (K x)).
Proof.
  intros m K [w H] [r R]. exists (let? v := r in Ok (v ++ w)%list). intro d. specialize (R d). destruct (m d); cbn [rbind].
  - destruct R as (v & -> & E). exists (v ++ w)%list. split; [ reflexivity | ]. now rewrite H, E, app_assoc.
  - now rewrite R.
  - now rewrite R.
Qed.
Lemma adder_one : forall K, (exists w, forall d, frags (K d) = (frags d ++ w)%list) -> adder (fun d => Ok (K d)).
Proof. intros K H. exact (adder_step (fun d => Ok d) K H adder_id). Qed.
Lemma adder_comp : forall m k, adder m -> adder k -> adder (fun d => let? x := m d in k x).
Proof.
  intros m k [r R] [r2 R2]. exists (let? v := r in let? w := r2 in Ok (v ++ w)%list). intro d. specialize (R d). destruct (m d) as [x| | ]; cbn [rbind].
  - destruct R as (v & -> & E). specialize (R2 x). destruct (k x); cbn [rbind].
    + destruct R2 as (w & -> & E2). exists (v ++ w)%list. split; [ reflexivity | ]. now rewrite E2, E, app_assoc.
    + now rewrite R2.
    + now rewrite R2.
  - now rewrite R.
  - now rewrite R.
Qed.
Lemma adder_bind : forall A (R : res A) m, (forall a, adder (m a)) -> adder (fun d => let? a := R in m a d).
Proof. intros A [a| | ] m H; cbn [rbind]; [ apply H | now exists Err | now exists Panic ]. Qed.
Lemma adder_err : adder (fun _ => Err).
Proof. now exists Err. Qed.
Lemma adder_ext : forall m m', (forall d, m d = m' d) -> adder m -> adder m'.
Proof. intros m m' H [r R]. exists r. intro d. rewrite <- H. apply R. Qed.
Lemma frags_step : forall K t, (forall d, frag_df (K d) = mkFCode [] (frags d ++ t)) -> exists w, forall d, frags (K d) = (frags d ++ w)%list.
Proof. intros K t H. exists t. intro d. apply frags_flat. apply H. Qed.
Ltac fs := eapply frags_step; intro; cbn [frag_df]; unfold frags; reflexivity.
Ltac one := apply adder_one; fs.

(** Commands that also compute columns *)
Definition adder2 (m : DataFrame -> res (DataFrame * ColumnLike)) : Prop :=
  exists r : res (list Frag * ColumnLike), forall d, match m d with
    | Ok (d', c) => exists w, r = Ok (w, c) /\ frags d' = (frags d ++ w)%list
    | Err => r = Err
    | Panic => r = Panic
    end.
Lemma adder2_keep : forall R, adder2 (fun d => rmap (fun c => (d, c)) R).
Proof.
  intros [c| | ]; [ | now exists Err | now exists Panic ]. exists (Ok ([], c)). intro d. cbn. exists []. now rewrite app_nil_r.
Qed.
Lemma adder2_sort : forall R, adder2 (fun d => rmap (fun c => (order_by_time d, c)) R).
Proof.
  intros [c| | ]; [ | now exists Err | now exists Panic ]. cbn.
  assert (X : exists w, forall d, frags (order_by_time d) = (frags d ++ w)%list) by (unfold order_by_time; fs).
  destruct X as [w X]. exists (Ok (w, c)). intro d. exists w. auto.
Qed.
Lemma adder2_bare : forall name args, adder2 (stats_fn_bare name args).
Proof.
  intros name args. unfold stats_fn_bare. destruct (existsb _ _); [ now exists Err | ].
  repeat match goal with
  | |- adder2 (fun d => match ?o with Some _ => _ | None => _ end) => destruct o; [ apply adder2_keep | ]
  | |- adder2 (fun d => if ?b then _ else _) => destruct b; [ first [ apply adder2_keep | apply adder2_sort ] | ]
  end.
  destruct (map_args args) as [l| | ]; cbn [rbind]; [ | now exists Err | now exists Panic ].
  exists (Ok ([], CAliased (PCol (CFunctionCall name l)) name)). intro d. exists []. now rewrite app_nil_r.
Qed.

Lemma adder2_map : forall m f, adder2 m -> adder2 (fun d => let? (d', c) := m d in Ok (d', f c)).
Proof.
  intros m f [r R]. exists (let? x := r in Ok (fst x, f (snd x))). intro d. specialize (R d). destruct (m d) as [[d' c]| | ]; cbn [rbind].
  - destruct R as (w & -> & E). exists w. auto.
  - now rewrite R.
  - now rewrite R.
Qed.
Lemma adder2_fn : forall e, adder2 (stats_fn Disallow e).
Proof.
  intro e. unfold stats_fn. destruct (expr_unaliased_with_name e) as [e' a]. destruct e'; try (now exists Err).
  apply adder2_map. apply adder2_bare.
Qed.
Lemma adder2_expr : forall e, adder2 (fun d => transform_stats_expr Disallow d e).
Proof.
  intro e. unfold transform_stats_expr. destruct (expr_unaliased_with_name e) as [e' a]. destruct e'; try (now exists Err).
  apply adder2_map. apply adder2_fn.
Qed.
Lemma adder_aggs : forall l K, (forall cs, exists w, forall d, frags (K d cs) = (frags d ++ w)%list) ->
  adder (fun d => let? (d', cs) := transform_stats_exprs Disallow d l in Ok (K d' cs)).
Proof.
  induction l as [|e l IH]; intros K H; [ now apply adder_one | ].
  apply (adder_ext (fun d => let? (d', c) := transform_stats_expr Disallow d e in
     let? (d'', cs) := transform_stats_exprs Disallow d' l in Ok (K d'' (c :: cs)))).
  { intro d. cbn [transform_stats_exprs]. destruct (transform_stats_expr Disallow d e) as [[d' c]| | ]; try reflexivity. cbn [rbind].
    destruct (transform_stats_exprs Disallow d' l) as [[d'' cs]| | ]; reflexivity. }
  destruct (adder2_expr e) as [r R].
  destruct r as [[w c]| | ].
  - specialize (IH (fun d cs => K d (c :: cs)) (fun cs => H (c :: cs))). destruct IH as [r2 R2].
    exists (let? v := r2 in Ok (w ++ v)%list). intro d. specialize (R d). destruct (transform_stats_expr Disallow d e) as [[d' c']| | ]; try discriminate.
    destruct R as (w' & Ew & E). injection Ew as <- <-. cbn [rbind].
    assert (R3 : match (let? (d'', cs) := transform_stats_exprs Disallow d' l in Ok (K d'' (c :: cs))) with
       | Ok x => exists w, r2 = Ok w /\ frags x = (frags d' ++ w)%list | Err => r2 = Err | Panic => r2 = Panic end) by exact (R2 d').
    clear R2. rename R3 into R2. revert R2. destruct (transform_stats_exprs Disallow d' l) as [[d'' cs]| | ]; cbn [rbind]; intro R2.
    + destruct R2 as (v & -> & E2). exists (w ++ v)%list. split; [ reflexivity | ]. now rewrite E2, E, app_assoc.
    + now rewrite R2.
    + now rewrite R2.
  - exists Err. intro d. specialize (R d). destruct (transform_stats_expr Disallow d e) as [[d' c']| | ]; cbn [rbind]; try discriminate R; auto.
    destruct R as (? & R & _). discriminate.
  - exists Panic. intro d. specialize (R d). destruct (transform_stats_expr Disallow d e) as [[d' c']| | ]; cbn [rbind]; try discriminate R; auto.
    destruct R as (? & R & _). discriminate.
Qed.
Lemma adder_eval : forall l, adder (t_eval_go Disallow l).
Proof.
  induction l as [|[n e] l IH]; cbn [t_eval_go]; [ apply adder_id | ]. apply adder_bind. intro c.
  apply (adder_comp (fun d => Ok (d_with_column d n c)) (t_eval_go Disallow l)); auto. one.
Qed.
Lemma adder_convert : forall tf l, adder (t_convert_go tf l).
Proof.
  intro tf. induction l as [|c l IH]; cbn [t_convert_go]; [ apply adder_id | ]. apply adder_bind. intro r.
  apply (adder_comp (fun d => Ok (d_with_column d _ r)) (t_convert_go tf l)); auto. one.
Qed.
Lemma adder_rename : forall l, adder (t_rename_go l).
Proof.
  induction l as [|[e n] l IH]; cbn [t_rename_go]; [ apply adder_id | ]. destruct e as [[[]| | |]| | | | | | | | |]; try apply adder_err.
  apply (adder_comp (fun d => Ok (DWithColumnRenamed d _ n)) (t_rename_go l)); auto. one.
Qed.
Lemma adder_fold : forall A (l : list A) (K : DataFrame -> A -> DataFrame), (forall a, exists w, forall d, frags (K d a) = (frags d ++ w)%list) ->
  adder (fun d => Ok (fold_left K l d)).
Proof.
  intros A l K H. induction l as [|a l IH]; cbn [fold_left]; [ apply adder_id | ].
  apply (adder_comp (fun d => Ok (K d a)) (fun d => Ok (fold_left K l d))); auto. now apply adder_one.
Qed.

Lemma adder_lookup : forall ds fs out, adder (fun d => t_lookup ds fs out (Some d)).
Proof.
  intros ds fs out. unfold t_lookup, lookup_result.
  apply (adder_ext (fun d => let? cols := rtraverse lookup_join_column fs in
    let? sel := match out with
              | None => Ok [CNamed "main.*"; CNamed "lookup.*"]
              | Some (kv, fs) =>
                  if String.eqb (upper kv) "OUTPUT" then
                    let? cs := rtraverse lookup_output_column fs in Ok (CNamed "main.*" :: cs)
                  else Err
              end in Ok (DAlias d "main"))).
  - intro d. destruct (rtraverse lookup_join_column fs); cbn [rbind]; auto. destruct (match out with Some _ => _ | None => _ end); reflexivity.
  - apply adder_bind. intro. apply adder_bind. intro. one.
Qed.

Lemma agg_frags : forall cols cs, exists w, forall d, frags (DAggregation (DGroupBy d cols) cs) = (frags d ++ w)%list.
Proof.
  intros cols cs.
  assert (A : exists w, forall d, frags (DGroupBy d cols) = (frags d ++ w)%list) by fs.
  assert (B : exists w, forall d, frags (DAggregation d cs) = (frags d ++ w)%list) by fs.
  destruct A as [a A], B as [b B]. exists (a ++ b)%list. intro d. now rewrite B, A, app_assoc.
Qed.
Lemma adder_toprare : forall dir c, adder (fun d => t_toprare dir c (Some d)).
Proof.
  intros dir c. unfold t_toprare. apply adder_bind. intro. cbn [d_or_default].
  set (by_ := match tr_by c with Some l => l | None => tr_fields c end).
  set (A := fun d => DAggregation (DGroupBy d (map CNName by_)) [c_aliased (pfun "count" []) (tr_count_field c)]).
  assert (HA : adder (fun d => Ok (A d))) by (apply adder_one; apply agg_frags).
  set (P := fun d => if tr_show_percent c then d_with_column d (tr_percent_field c) (c_binary (pcol "count") "/" (pfun "sum" [pcol "count"])) else d).
  assert (HP : adder (fun d => Ok (P d))) by (unfold P; destruct (tr_show_percent c); [ one | apply adder_id ]).
  set (L := fun d => if (tr_n c =? 0)%Z then d else DLimit d (tr_n c)).
  assert (HL : adder (fun d => Ok (L d))) by (unfold L; destruct (tr_n c =? 0)%Z; [ apply adder_id | one ]).
  apply (adder_comp (fun d => Ok (DOrderBy (P (A d)) [c_method (pcol "count") dir []])) (fun d => Ok (L d))); auto.
  apply (adder_step (fun d => Ok (P (A d))) (fun d => DOrderBy d _)); [ fs | ].
  apply (adder_comp (fun d => Ok (A d)) (fun d => Ok (P d))); auto.
Qed.

Section Disallowed.
  Variables (o : list string -> list string) (gr : string -> res (list (Z * option string))).
  Let env := mkEnv Disallow (fun _ => o) gr.
  (** What is computed does not depend on the counters *)
  Definition IN (c : Command) := forall s st st2, snd (transform_command env c s st) = snd (transform_command env c s st2).
  Lemma bind_snd : forall A B (m : M A) (f : A -> M B) st st2, snd (m st) = snd (m st2) ->
    (forall a s1 s2, snd (f a s1) = snd (f a s2)) -> snd (bind m f st) = snd (bind m f st2).
  Proof.
    intros A B m f st st2 H K. unfold bind. destruct (m st) as [s1 r1], (m st2) as [s2 r2]. cbn in H. subst. destruct r2; auto.
  Qed.
  Lemma run_in : forall p, Forall IN p -> forall s st st2, snd (run_commands (transform_command env) p s st) = snd (run_commands (transform_command env) p s st2).
  Proof.
    intros p F. induction F as [|c p Hc Hp IH]; intros s st st2; [ reflexivity | ]. cbn [run_commands]. apply bind_snd; auto.
  Qed.
  Lemma unions_in : forall ps, Forall (Forall IN) ps -> forall s st st2, snd (run_unions (transform_command env) ps s st) = snd (run_unions (transform_command env) ps s st2).
  Proof.
    intros p F. induction F as [|c p Hc Hp IH]; intros s st st2; [ reflexivity | ]. cbn [run_unions]. apply bind_snd; [ now apply run_in | ].
    intros [a|] s1 s2; [ apply IH | reflexivity ].
  Qed.
  Lemma cmd_in : forall c, IN c.
  Proof.
    induction c using cmd_induct; intros s st st2.
    - cbn [transform_command]. apply bind_snd; [ | reflexivity ]. cbn [select_rt env_rt env]. apply bind_snd; [ reflexivity | ]. intros _ s1 s2.
      apply bind_snd; [ now apply run_in | reflexivity ].
    - cbn [transform_command]. destruct ps as [|p ps]; [ reflexivity | ]. apply bind_snd; [ | reflexivity ]. cbn [select_rt env_rt env].
      apply bind_snd; [ now apply unions_in | ]. intros [a|] s1 s2; reflexivity.
    - destruct c; cbn in H; try (elim H; exact I); try reflexivity; cbn [transform_command]; (apply bind_snd; [ | reflexivity ]); cbn [select_rt env_rt env];
        try reflexivity.
      + apply bind_snd; [ reflexivity | ]. intros [ind cond] s1 s2. apply bind_snd.
        * destruct ind; [ reflexivity | ]. apply bind_snd; [ reflexivity | ]. intros a s3 s4. destruct (index_union a); reflexivity.
        * intros a s3 s4. destruct cond; [ | reflexivity ]. apply bind_snd; [ reflexivity | ]. reflexivity.
      + apply bind_snd; [ reflexivity | ]. intros _ s1 s2. apply bind_snd; [ reflexivity | ]. intros d s3 s4.
        apply bind_snd; [ reflexivity | ]. intros d2 s5 s6. apply bind_snd; [ reflexivity | ]. intros [d3 x] s7 s8.
        apply bind_snd; [ reflexivity | ]. reflexivity.
  Qed.
  Lemma cmd_adds : forall c, ~ starts_over c ->
    exists m, adder m /\ forall d st, snd (transform_command env c (Some d) st) = rmap (@Some DataFrame) (m d).
  Proof.
    intros c NS.
    assert (ONLY : forall m, adder (fun d => m (Some d)) ->
       (forall d st, transform_command env c (Some d) st = (do x <- select_rt (env_rt env) unimplemented (lift (m (Some d))); ret (Some x)) st) ->
       exists m, adder m /\ forall d st, snd (transform_command env c (Some d) st) = rmap (@Some DataFrame) (m d)).
    { intros m A E. exists (fun d => m (Some d)). split; auto. intros d st. rewrite E. cbn. unfold bind, lift. destruct (m (Some d)); reflexivity. }
    assert (BOTH : forall r m, adder (fun d => m (Some d)) ->
       (forall d st, transform_command env c (Some d) st = (do x <- select_rt (env_rt env) (r (Some d)) (lift (m (Some d))); ret (Some x)) st) ->
       exists m, adder m /\ forall d st, snd (transform_command env c (Some d) st) = rmap (@Some DataFrame) (m d)).
    { intros r m A E. exists (fun d => m (Some d)). split; auto. intros d st. rewrite E. cbn. unfold bind, lift. destruct (m (Some d)); reflexivity. }
    assert (BAD : (forall s st, transform_command env c s st = lift Err st) ->
       exists m, adder m /\ forall d st, snd (transform_command env c (Some d) st) = rmap (@Some DataFrame) (m d)).
    { intro E. exists (fun _ => Err). split; [ apply adder_err | ]. intros d st. now rewrite E. }
    destruct c; try (cbn in NS; elim NS; exact I); try (apply BAD; reflexivity); clear BAD.
    - apply (ONLY (t_addtotals c)); [ one | reflexivity ].
    - apply (ONLY (t_bin field o0)); [ | reflexivity ]. unfold t_bin. cbn [d_or_default]. destruct (bin_span o0).
      + apply (adder_step (fun d => Ok (d_with_column d _ _)) (fun d => d_with_column d _ _)); [ fs | one ].
      + one.
    - apply (ONLY (fun s => t_convert_go timeformat convs (d_or_default s))); [ apply adder_convert | reflexivity ].
    - apply (BOTH (t_datamodel_runtime c) (t_datamodel_standalone c)); [ | reflexivity ]. unfold t_datamodel_standalone.
      apply adder_bind. intro. destruct (dm_data_model_name c), (dm_dataset_name c); first [ apply adder_err | apply adder_id ].
    - apply (BOTH (t_eval_runtime Disallow fields) (fun s => t_eval_go Disallow fields (d_or_default s))); [ apply adder_eval | reflexivity ].
    - apply (ONLY (t_select fields)); [ one | reflexivity ].
    - apply (BOTH (t_fillnull_runtime value fields) (t_fillnull_standalone value)); [ one | reflexivity ].
    - apply (ONLY (t_head eval_expr keep_last)); [ | reflexivity ]. unfold t_head. apply adder_bind. intro. one.
    - (* join *)
      assert (X : exists r, forall st, snd (run_commands (transform_command env) sub_search None st) = r).
      { eexists. intro st. apply (run_in sub_search) with (st2 := transform_state0). apply Forall_forall. intros. apply cmd_in. }
      destruct X as [r X].
      exists (fun d => let? _ := ensure (jo_max o0 =? 1)%Z in let? s := r in t_join o0 (Some d) s). split.
      + apply adder_bind. intro. apply adder_bind. intro s. unfold t_join. destruct s as [s|]; [ | apply adder_err ].
        apply adder_bind. intro ty. apply adder_bind. intro cd. cbn [d_or_default]. unfold d_join.
        apply (adder_step (fun d => Ok (DAlias d "LEFT")) (fun d => DJoin d (DAlias s "RIGHT") _ ty)); [ fs | one ].
      + intros d st. cbn [transform_command select_rt env_rt env]. unfold bind at 1 2. unfold lift at 1. destruct (ensure _); cbn [rbind]; try reflexivity.
        unfold bind. specialize (X st). destruct (run_commands _ sub_search None st) as [s1 r1]. cbn in X. subst r1. destruct r; cbn [rbind]; try reflexivity.
        unfold lift. destruct (t_join o0 (Some d) a0); reflexivity.
    - apply (ONLY (t_lookup dataset fields output)); [ apply adder_lookup | reflexivity ].
    - exists (fun d => Ok d). split; [ apply adder_id | ]. intros d st. cbn in NS.
      match type of NS with ?l <> [] -> False => destruct l | ~ (?l <> []) => destruct l end; [ reflexivity | elim NS; discriminate ].
    - apply (ONLY (t_toprare "asc" c)); [ apply adder_toprare | reflexivity ].
    - apply (ONLY (t_regex item regex)); [ | reflexivity ]. unfold t_regex. apply adder_bind. intros [f i]. one.
    - apply (ONLY (fun s => t_rename_go aliases (d_or_default s))); [ apply adder_rename | reflexivity ].
    - apply (ONLY (t_rex env c)); [ | reflexivity ]. unfold t_rex. apply adder_bind. intro. apply adder_bind. intro. apply adder_bind. intro g.
      apply (adder_fold _ g). intro a1. fs.
    - (* search *)
      exists (fun d => let? (ind, cond) := split_conditions e true [] in
        match ind with nil => match cond with None => Ok d | Some c => let? x := to_spark_expr Disallow c in Ok (d_where d (into_search_expr x)) end
        | _ => Err end). split.
      + apply adder_bind. intros [ind cond]. destruct ind; [ | apply adder_err ]. destruct cond; [ | apply adder_id ]. apply adder_bind. intro x. one.
      + intros d st. cbn [transform_command select_rt env_rt env]. unfold t_search_standalone, bind, lift.
        destruct (split_conditions e true []) as [[ind cond]| | ] eqn:E; cbn [rbind]; try reflexivity.
        destruct ind as [|i ind].
        * destruct cond; [ | reflexivity ]. cbn. destruct (to_spark_expr Disallow e0); reflexivity.
        * elim NS. cbn. intro Z. apply (no_index e Z). exists i, ind, cond. exact E.
    - apply (ONLY (t_spath c)); [ one | reflexivity ].
    - apply (ONLY (t_sort fields_to_sort count descending)); [ | reflexivity ]. unfold t_sort. apply adder_bind. intro k. cbn [d_or_default].
      destruct (count =? 0)%Z; [ one | ]. apply (adder_step (fun d => Ok (DOrderBy d _)) (fun d => DLimit d _)); [ fs | one ].
    - apply (BOTH (t_stats_runtime Disallow funcs by_) (t_stats_standalone Disallow funcs by_)); [ | reflexivity ].
      unfold t_stats_standalone. cbn [d_or_default].
      apply (adder_aggs funcs (fun d aggs => DAggregation (DGroupBy d _) aggs)). intro cs. apply agg_frags.
    - apply (ONLY (t_select fields)); [ one | reflexivity ].
    - apply (ONLY (fun s => Ok (DTail (d_or_default s) n))); [ one | reflexivity ].
    - apply (ONLY (t_toprare "desc" c)); [ apply adder_toprare | reflexivity ].
    - (* tstats *)
      set (dm := mkDataModel datamodel nodename (Some "search") false (tst_allow_old_summaries o0) (tst_summaries_only o0)).
      exists (fun d => let? _ := ensure (tstats_ok o0) in let? d := t_datamodel_standalone dm (Some d) in
        let? d := match where_condition with Some e => let? x := to_spark_expr Disallow e in Ok (d_where d x) | None => Ok d end in
        let? cols := Ok match by_fields with Some l => map transform_by_field l | None => [] end in
        let? (d, aggs) := transform_stats_exprs Disallow d exprs in
        match by_prefix with None => Ok (DAggregation (DGroupBy d cols) aggs) | Some _ => Err end). split.
      + apply adder_bind. intro. apply adder_comp.
        * unfold t_datamodel_standalone. apply adder_bind. intro. destruct (dm_data_model_name dm), (dm_dataset_name dm); first [ apply adder_err | apply adder_id ].
        * apply adder_comp.
          -- destruct where_condition; [ | apply adder_id ]. apply adder_bind. intro. one.
          -- cbn [rbind]. destruct by_prefix.
             ++ apply (adder_ext (fun d => let? x := (let? (d', cs) := transform_stats_exprs Disallow d exprs in Ok d') in Err)).
                { intro d. destruct (transform_stats_exprs Disallow d exprs) as [[d' cs]| | ]; reflexivity. }
                apply adder_comp; [ | apply adder_err ]. apply (adder_aggs exprs (fun d _ => d)). intro. exists []. intro d. now rewrite app_nil_r.
             ++ apply (adder_aggs exprs (fun d aggs => DAggregation (DGroupBy d _) aggs)). intro cs. apply agg_frags.
      + intros d st. cbn [transform_command select_rt env_rt env]. unfold t_tstats_standalone, t_datamodel, select_rt. unfold bind, lift.
        destruct (ensure _); cbn [rbind]; try reflexivity. fold dm. destruct (t_datamodel_standalone dm (Some d)); cbn [rbind]; cbv beta iota; try reflexivity.
        destruct (match where_condition with Some _ => _ | None => _ end); cbn [rbind]; try reflexivity.
        destruct (transform_stats_exprs Disallow a1 exprs) as [[d2 x]| | ]; cbn [rbind]; try reflexivity.
        destruct by_fields, by_prefix; reflexivity.
    - apply (ONLY (t_where Disallow e)); [ | reflexivity ]. unfold t_where. apply adder_bind. intro. one.
  Qed.
  (** The text a command adds *)
  Definition added (c : Command) : res string :=
    let? s := snd (transform_command env c (Some (DRawSource "")) transform_state0) in Ok (render_dfs (dataframes s)).
  Lemma render_one : forall d, render_dfs (dataframes (Some d)) = spell (frags d).
  Proof. intro d. rewrite spell_frags. reflexivity. Qed.
  Lemma run_adds : forall q, (forall c, In c q -> ~ starts_over c) -> forall d st,
    (let? s := snd (run_commands (transform_command env) q (Some d) st) in Ok (render_dfs (dataframes s)))
    = rmap (fun l => (spell (frags d) ++ sconcat l)%string) (rtraverse added q).
  Proof.
    induction q as [|c q IH]; intros N d st.
    - cbn. now rewrite <- spell_frags, app_nil_s.
    - destruct (cmd_adds c (N c (or_introl eq_refl))) as (m & (r & A) & E). rewrite rtraverse_cons. cbn [run_commands].
      assert (W : added c = rmap spell r).
      { unfold added. rewrite E. specialize (A (DRawSource "")). destruct (m (DRawSource "")); cbn [rmap rbind].
        - destruct A as (w & -> & A). rewrite render_one, A, spell_app. reflexivity.
        - now rewrite A.
        - now rewrite A. }
      specialize (E d st). specialize (A d). rewrite W. unfold bind. destruct (transform_command env c (Some d) st) as [st1 r1]. cbn in E. subst r1.
      destruct (m d) as [d'| | ]; cbn [rmap].
      + destruct A as (w & -> & A). cbn [rmap rbind]. rewrite IH by (intros; apply N; now right). rewrite A, spell_app.
        destruct (rtraverse added q); cbn [rmap rbind]; try reflexivity. cbn [sconcat]. now rewrite app_assoc_s.
      + rewrite A. reflexivity.
      + rewrite A. reflexivity.
  Qed.
  Lemma run_app_eq : forall a b s st, run_commands (transform_command env) (a ++ b)%list s st
    = bind (run_commands (transform_command env) a s) (run_commands (transform_command env) b) st.
  Proof.
    induction a as [|c a IH]; intros b s st; [ reflexivity | ]. cbn [app run_commands]. unfold bind at 1. 
    destruct (transform_command env c s st) as [s1 [x| | ]] eqn:E; [ rewrite IH | | ]; unfold bind; rewrite ?E; reflexivity.
  Qed.
  Lemma compose_text : exists w : Command -> res string,
    forall p q, (forall c, In c q -> ~ starts_over c) ->
      match render_pyspark env p with
      | Ok t => t <> "" -> render_pyspark env (p ++ q)%list = rmap (fun l => (t ++ sconcat l)%string) (rtraverse w q)
      | e => render_pyspark env (p ++ q)%list = e
      end.
  Proof.
    exists added. intros p q N. unfold render_pyspark, transform_pipeline. rewrite run_app_eq.
    unfold bind. destruct (run_commands _ p None transform_state0) as [s1 [x| | ]]; cbn [snd rbind]; auto.
    intro T. destruct x as [d|]; [ | elim T; reflexivity ]. rewrite run_adds by assumption. now rewrite render_one.
  Qed.
  (** ** C20: what starts over forgets what was before *)
  Lemma cmd_over : forall c, starts_over c -> forall s s' st, transform_command env c s st = transform_command env c s' st.
  Proof.
    intros c H s s' st. destruct c; cbn [starts_over] in H; try contradiction; [ reflexivity | | ].
    - match type of H with ?l <> [] => destruct l; [ congruence | reflexivity ] end.
    - cbn [transform_command select_rt env_rt env]. unfold t_search_standalone, bind, lift.
      destruct (split_conditions e true []) as [[ind c]| | ] eqn:E; try reflexivity.
      destruct ind as [|i ind]; [ | reflexivity ]. exfalso. now apply (index_kept e true [] [] c) in E; [ | now left ].
  Qed.
  Lemma compose_forgets : forall p c q t, starts_over c -> render_pyspark env p = Ok t ->
    render_pyspark env (p ++ c :: q)%list = render_pyspark env (c :: q).
  Proof.
    intros p c q t H. unfold render_pyspark, transform_pipeline. rewrite run_app_eq. unfold bind.
    destruct (run_commands _ p None transform_state0) as [s1 [x| | ]]; cbn [snd rbind]; try discriminate. intros _.
    assert (E : snd (run_commands (transform_command env) (c :: q) x s1) = snd (run_commands (transform_command env) (c :: q) None transform_state0)).
    { cbn [run_commands]. unfold bind. rewrite (cmd_over c H x None s1). pose proof (cmd_in c None s1 transform_state0) as C.
      destruct (transform_command env c None s1) as [s2 r2], (transform_command env c None transform_state0) as [s3 r3]. cbn in C. subst r3.
      destruct r2; auto. apply run_in. rewrite Forall_forall. intros. apply cmd_in. }
    now rewrite E.
  Qed.
End Disallowed.
