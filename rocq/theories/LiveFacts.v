(** Proofs for C74 *)
From Coq Require Import String List Permutation Lia.
Import ListNotations.
From Verif Require Import Str SplAst PyAst Functions Transpile Commands CmdParser Api Format SpecResult ParserFuel PanicFacts Live SpecLive.
Open Scope string_scope.
Open Scope list_scope.

Lemma typed_types : forall h t, typed (h ++ [Types t]) = t.
Proof. intros. unfold typed. rewrite flat_map_app. cbn. apply last_last. Qed.
Lemma typed_other : forall h e, (forall t, e <> Types t) -> typed (h ++ [e]) = typed h.
Proof. intros h e H. unfold typed. rewrite flat_map_app. destruct e; cbn; try (now rewrite app_nil_r). now destruct (H text). Qed.
Lemma even_S : forall n, Nat.even (S n) = negb (Nat.even n).
Proof. intro n. rewrite Nat.even_succ. now rewrite <- Nat.negb_even. Qed.
Lemma times_app : forall p a b, times p (a ++ b) = times p a + times p b.
Proof. intros. unfold times. now rewrite filter_app, app_length. Qed.
Lemma rt_toggle : forall h, runtime_on (h ++ [TogglesRuntime]) = negb (runtime_on h).
Proof. intro. unfold runtime_on. rewrite times_app, PeanoNat.Nat.add_comm. apply even_S. Qed.
Lemma rt_other : forall h e, e <> TogglesRuntime -> runtime_on (h ++ [e]) = runtime_on h.
Proof. intros h e H. unfold runtime_on. rewrite times_app, PeanoNat.Nat.add_comm. destruct e; try reflexivity. now destruct H. Qed.
Lemma im_toggle : forall h, imports_on (h ++ [TogglesImports]) = negb (imports_on h).
Proof. intro. unfold imports_on. rewrite times_app, PeanoNat.Nat.add_comm. apply even_S. Qed.
Lemma im_other : forall h e, e <> TogglesImports -> imports_on (h ++ [e]) = imports_on h.
Proof. intros h e H. unfold imports_on. rewrite times_app, PeanoNat.Nat.add_comm. destruct e; try reflexivity. now destruct H. Qed.
Lemma heading_eq : forall rt im code, with_imports rt im code = (heading rt im ++ code)%string.
Proof. intros [|] [|] code; reflexivity. Qed.

Section App.
Variable fm : Formatter.
Variable groups : string -> res (list (Z * option string)).
Notation after := (screen_after fm groups).
Lemma after_app : forall h e, after (h ++ [e]) = step fm groups (after h) e.
Proof. intros. unfold screen_after. now rewrite fold_left_app. Qed.

(** The display is about the text held by the SPL widget and the switches *)
Definition fresh (x : Screen) : Prop :=
  let rt := use_runtime x in
  (translation fm groups rt (add_imports x) (spl x) (pane x) /\ parse (spl x) = Some (Ok (or_default [] (tree x))) /\
     report x = None /\ pane_marked x = false /\ tree_marked x = false) \/
  (report x = Some ParseFailed /\ tree_marked x = true /\ parse (spl x) = Some Err) \/
  (report x = Some RenderFailed /\ pane_marked x = true /\ tree_marked x = false /\ exists p, parse (spl x) = Some (Ok p) /\ tree x = Some p /\
     exists order, render_pyspark (mkEnv (if rt then Allow else Disallow) order groups) p = Err).
Definition asks (e : Event) : Prop := match e with Types _ | TogglesRuntime | TogglesImports => True | _ => False end.
Record Inv (h : list Event) (x : Screen) : Prop := mkInv {
  i_editor : editor x = typed h;
  i_spl : to_spl x = 0 -> spl x = typed h;
  i_typed : spl x = "" \/ In (Types (spl x)) h;
  i_rt : use_runtime x = runtime_on h;
  i_im : add_imports x = imports_on h }.
Lemma in_snoc : forall (e f : Event) h, In e h -> In e (h ++ [f]).
Proof. intros. apply in_or_app. now left. Qed.
Lemma refresh_keeps : forall order x, let y := refresh fm groups order x in
  editor y = editor x /\ to_spl y = to_spl x /\ spl y = spl x /\ use_runtime y = use_runtime x /\ add_imports y = add_imports x /\
  to_app y = to_app x /\ clipboard y = clipboard x.
Proof.
  intros order x. unfold refresh. destruct (parse (spl x)) as [[p| |]|]; [ | cbn; tauto .. ].
  destruct (render_pyspark_formatted _ _ _ _); cbn; tauto.
Qed.
Lemma typed_in : forall h, typed h = "" \/ In (Types (typed h)) h.
Proof.
  induction h as [|e h IH] using rev_ind; [ now left | ].
  destruct e; try (rewrite typed_other by discriminate; destruct IH as [IH|IH]; [ now left | right; now apply in_snoc ]).
  rewrite typed_types. right. apply in_or_app. right. now left.
Qed.
Lemma inv_after : forall h, Inv h (after h).
Proof.
  induction h as [|e h IH] using rev_ind.
  - constructor; cbn; auto.
  - rewrite after_app. set (x := after h) in *. destruct IH as [A B C D E].
    destruct e; cbn [step].
    + constructor; cbn; rewrite ?typed_types, ?rt_other, ?im_other by discriminate; auto; try discriminate.
      destruct C; [ now left | right; now apply in_snoc ].
    + constructor; cbn; rewrite ?typed_other, ?rt_toggle, ?im_other by discriminate; auto; try congruence.
      destruct C; [ now left | right; now apply in_snoc ].
    + constructor; cbn; rewrite ?typed_other, ?im_toggle, ?rt_other by discriminate; auto; try congruence.
      destruct C; [ now left | right; now apply in_snoc ].
    + constructor; cbn; rewrite ?typed_other, ?im_other, ?rt_other by discriminate; auto.
      destruct C; [ now left | right; now apply in_snoc ].
    + destruct (to_spl x) eqn:T.
      * constructor; cbn; rewrite ?typed_other, ?im_other, ?rt_other by discriminate; auto.
        destruct C; [ now left | right; now apply in_snoc ].
      * constructor; cbn; rewrite ?typed_other, ?im_other, ?rt_other by discriminate; auto.
        rewrite A. destruct (typed_in h); [ now left | right; now apply in_snoc ].
    + destruct (to_app x) eqn:T.
      * constructor; cbn; rewrite ?typed_other, ?im_other, ?rt_other by discriminate; auto.
        destruct C; [ now left | right; now apply in_snoc ].
      * match goal with |- Inv _ (refresh _ _ ?o ?y) => destruct (refresh_keeps o y) as (R1 & R2 & R3 & R4 & R5 & R6 & R7) end.
        constructor; cbn in *; rewrite ?typed_other, ?im_other, ?rt_other by discriminate; rewrite ?R1, ?R2, ?R3, ?R4, ?R5; auto.
        destruct C; [ now left | right; now apply in_snoc ].
Qed.

Lemma refresh_translates : forall order x p code, (forall i l, Permutation l (order i l)) -> parse (spl x) = Some (Ok p) ->
  render_pyspark_formatted fm true (mkEnv (runtime_of (use_runtime x)) order groups) p = Ok code ->
  translation fm groups (use_runtime x) (add_imports x) (spl x) (with_imports (use_runtime x) (add_imports x) code).
Proof.
  intros order x p code W P R. exists order, code. split; [ exact W | ]. split; [ | apply heading_eq ].
  unfold convert_spl_to_pyspark. rewrite P. cbn. now rewrite <- R.
Qed.
Lemma formatted_err : forall env p, render_pyspark_formatted fm true env p = Err -> render_pyspark env p = Err.
Proof. intros env p. unfold render_pyspark_formatted. destruct (render_pyspark env p); cbn; congruence. Qed.
Lemma formatted_panic : forall env p, render_pyspark_formatted fm true env p = Panic -> render_pyspark env p = Panic.
Proof. intros env p. unfold render_pyspark_formatted. destruct (render_pyspark env p); cbn; congruence. Qed.
Lemma refresh_fresh : forall order x, (forall regex, groups regex <> Panic) -> (forall i l, Permutation l (order i l)) ->
  fresh (refresh fm groups order x) /\ died (refresh fm groups order x) = died x.
Proof.
  intros order x G W. unfold refresh.
  destruct (parse_outcome (spl x)) as [P|[p P]]; rewrite P.
  - split; [ | reflexivity ]. right. left. cbn. auto.
  - destruct (render_pyspark_formatted fm true _ p) as [code| |] eqn:R.
    + split; [ | reflexivity ]. left. cbn. split; [ | now auto ]. eapply refresh_translates; eauto.
    + split; [ | reflexivity ]. right. right. cbn. repeat (split; [ reflexivity | ]). exists p. split; [ exact P | ].
      split; [ reflexivity | ]. exists order. now apply formatted_err in R.
    + exfalso. apply formatted_panic in R. revert R. eapply render_no_panic; [ exact W | exact G | exact P ].
Qed.
Lemma asked_app : forall h e, asked (h ++ [e]) -> asked h \/ asks e.
Proof. intros h e (f & I & A). apply in_app_or in I as [I|[<-|[]]]; [ left; now exists f | now right ]. Qed.
Lemma fresh_after : forall h, (forall regex, groups regex <> Panic) -> Forall fair h ->
  died (after h) = false /\ (to_app (after h) = 0 -> fresh (after h) \/ (asked h -> to_spl (after h) <> 0)).
Proof.
  intros h G F. induction h as [|e h IH] using rev_ind.
  - split; [ reflexivity | ]. intros _. right. intros (f & [] & _).
  - apply Forall_app in F as [F Fe]. inversion_clear Fe as [|? ? Fe' _]. specialize (IH F) as [D IH].
    rewrite after_app. set (x := after h) in *.
    destruct e; cbn [step].
    + split; [ exact D | ]. cbn. intros _. right. intros _. discriminate.
    + split; [ exact D | ]. cbn. discriminate.
    + split; [ exact D | ]. cbn. discriminate.
    + split; [ exact D | ]. cbn. intro T. destruct (IH T) as [Q|Q]; [ left; exact Q | right ].
      intro A. apply asked_app in A as [A|[]]. now apply Q.
    + destruct (to_spl x) eqn:T.
      * split; [ exact D | ]. intro T2. destruct (IH T2) as [Q|Q]; [ left; exact Q | right ].
        intro A. apply asked_app in A as [A|[]]. now destruct (Q A).
      * split; [ exact D | ]. cbn. discriminate.
    + destruct (to_app x) eqn:T.
      * split; [ exact D | ]. intro T2. destruct (IH eq_refl) as [Q|Q]; [ left; exact Q | right ].
        intro A. apply asked_app in A as [A|[]]. now apply Q.
      * match goal with |- context [ refresh _ _ ?o ?y ] => destruct (refresh_fresh o y G Fe') as [R1 R2] end.
        split; [ now rewrite R2 | now left ].
Qed.
End App.

Lemma quiet_screens : forall fm groups history, (forall regex, groups regex <> Panic) -> Forall fair history -> asked history ->
  let x := screen_after fm groups history in quiet x ->
  let now := typed history in let rt := runtime_on history in
  (translation fm groups rt (imports_on history) now (pane x) /\ parse now = Some (Ok (or_default [] (tree x))) /\
     report x = None /\ pane_marked x = false /\ tree_marked x = false) \/
  (report x = Some ParseFailed /\ tree_marked x = true /\ parse now = Some Err) \/
  (report x = Some RenderFailed /\ pane_marked x = true /\ tree_marked x = false /\ exists p, parse now = Some (Ok p) /\ tree x = Some p /\
     exists order, render_pyspark (mkEnv (if rt then Allow else Disallow) order groups) p = Err).
Proof.
  intros fm groups h G F A x [Q1 Q2] now rt.
  destruct (inv_after fm groups h) as [I1 I2 I3 I4 I5]. destruct (fresh_after fm groups h G F) as [_ H].
  fold x in I1, I2, I3, I4, I5, H. destruct (H Q2) as [H'|H']; [ | now destruct (H' A) ].
  unfold fresh in H'. rewrite (I2 Q1), I4, I5 in H'. exact H'.
Qed.
Lemma never_dies : forall fm groups history, (forall regex, groups regex <> Panic) -> Forall fair history ->
  died (screen_after fm groups history) = false.
Proof. intros fm groups h G F. apply (fresh_after fm groups h G F). Qed.

Lemma pane_source : forall fm groups history, Forall fair history ->
  let x := screen_after fm groups history in
  pane x = "" \/ exists before query, (exists later, history = (before ++ later)%list) /\ (query = "" \/ In (Types query) before) /\
    translation fm groups (runtime_on before) (imports_on before) query (pane x).
Proof.
  intros fm groups h F x. subst x. induction h as [|e h IH] using rev_ind; [ now left | ].
  apply Forall_app in F as [F Fe]. inversion_clear Fe as [|? ? Fe' _]. specialize (IH F).
  assert (K : forall y, pane y = pane (screen_after fm groups h) ->
    pane y = "" \/ exists before query, (exists later, (h ++ [e] = before ++ later)%list) /\ (query = "" \/ In (Types query) before) /\
      translation fm groups (runtime_on before) (imports_on before) query (pane y)).
  { intros y ->. destruct IH as [IH|(b & q & (l & ->) & I & T)]; [ now left | right ].
    exists b, q. split; [ exists (l ++ [e]); now rewrite app_assoc | now split ]. }
  rewrite after_app.
  destruct e; cbn [step]; try (now apply K).
  - destruct (to_spl _); now apply K.
  - destruct (to_app _) eqn:T; [ now apply K | ]. unfold refresh. cbn [spl].
    destruct (parse (spl (screen_after fm groups h))) as [[p| |]|] eqn:P; try (now apply K).
    cbn [use_runtime]. destruct (render_pyspark_formatted _ _ _ _) as [code| |] eqn:R; try (now apply K).
    cbn [pane add_imports]. right. destruct (inv_after fm groups h) as [I1 I2 I3 I4 I5].
    exists h, (spl (screen_after fm groups h)). split; [ now exists [AppHandles order] | ]. split; [ exact I3 | ].
    rewrite <- I4, <- I5. eapply refresh_translates; eauto.
Qed.
Lemma clipboard_source : forall fm groups history, let x := screen_after fm groups history in
  (clipboard x = "" /\ ~ In Copies history) \/
  exists before later, history = (before ++ Copies :: later)%list /\ ~ In Copies later /\ clipboard x = pane (screen_after fm groups before).
Proof.
  intros fm groups h x. subst x. induction h as [|e h IH] using rev_ind; [ left; now split | ].
  assert (K : forall y, e <> Copies -> clipboard y = clipboard (screen_after fm groups h) ->
    (clipboard y = "" /\ ~ In Copies (h ++ [e])) \/
    exists before later, (h ++ [e] = before ++ Copies :: later)%list /\ ~ In Copies later /\ clipboard y = pane (screen_after fm groups before)).
  { intros y N ->. destruct IH as [[IH1 IH2]|(b & l & -> & NI & E)].
    - left. split; [ exact IH1 | ]. intro I. apply in_app_or in I as [I|[I|[]]]; auto.
    - right. exists b, (l ++ [e]). split; [ now rewrite <- app_assoc | ]. split; [ | exact E ].
      intro I. apply in_app_or in I as [I|[I|[]]]; auto. }
  rewrite after_app.
  destruct e; cbn [step]; try (apply K; [ discriminate | reflexivity ]).
  - right. exists h, []. split; [ reflexivity | ]. split; [ intros [] | reflexivity ].
  - destruct (to_spl _); apply K; (discriminate || reflexivity).
  - destruct (to_app _) eqn:T; apply K; try (discriminate || reflexivity).
    match goal with |- clipboard (refresh _ _ ?o ?y) = _ => destruct (refresh_keeps fm groups o y) as (_ & _ & _ & _ & _ & _ & R) end. exact R.
Qed.
Lemma comes_to_rest : forall fm groups history, exists n m,
  quiet (screen_after fm groups (history ++ repeat SplHandles n ++ repeat (AppHandles (fun _ l => l)) m)).
Proof.
  intros fm groups h. set (x := screen_after fm groups h). exists (to_spl x), (to_spl x + to_app x).
  assert (A : forall n y, to_spl y = n -> let z := fold_left (step fm groups) (repeat SplHandles n) y in to_spl z = 0 /\ to_app z = n + to_app y).
  { induction n as [|n IH]; intros y E; [ now split | ]. cbn [repeat fold_left step]. rewrite E.
    specialize (IH _ (eq_refl : to_spl (mkScreen (editor y) n (editor y) (use_runtime y) (add_imports y) (S (to_app y)) (pane y) (pane_marked y) (tree y) (tree_marked y) (report y) (clipboard y) (died y)) = n)).
    cbn zeta in IH. destruct IH as [IH1 IH2]. split; [ exact IH1 | ]. rewrite IH2. cbn. lia. }
  assert (B : forall m y, to_spl y = 0 -> to_app y = m -> quiet (fold_left (step fm groups) (repeat (AppHandles (fun _ l => l)) m) y)).
  { induction m as [|m IH]; intros y E1 E2; [ now split | ]. cbn [repeat fold_left step]. rewrite E2.
    match goal with |- context [ refresh _ _ ?o ?y ] => destruct (refresh_keeps fm groups o y) as (_ & R2 & _ & _ & _ & R6 & _) end.
    apply IH; [ now rewrite R2 | now rewrite R6 ]. }
  unfold screen_after. rewrite !fold_left_app. fold (screen_after fm groups h). fold x.
  destruct (A _ x eq_refl) as [A1 A2]. apply B; [ exact A1 | exact A2 ].
Qed.

Lemma stale_code : forall fm groups good bad code, parse bad = Some Err ->
  (forall regex, groups regex <> Panic) ->
  convert_spl_to_pyspark fm true (mkEnv Allow (fun _ l => l) groups) good = Some (Ok code) ->
  let x := screen_after fm groups (types_and_waits good ++ types_and_waits bad ++ [Copies]) in
  quiet x /\ editor x = bad /\ pane x = (heading true true ++ code)%string /\ pane_marked x = false /\ clipboard x = pane x /\
  forall rt imports, ~ translation fm groups rt imports (editor x) (pane x).
Proof.
  intros fm groups good bad code B G C x.
  unfold convert_spl_to_pyspark in C. destruct (parse good) as [r|] eqn:P; [ | discriminate ]. cbn [option_map] in C.
  destruct r as [p| |]; cbn [rbind] in C; try discriminate. injection C as C.
  assert (E : x = mkScreen bad 0 bad true true 0 (heading true true ++ code)%string false (Some p) true (Some ParseFailed) (heading true true ++ code)%string false).
  { subst x. unfold screen_after, types_and_waits. rewrite !fold_left_app.
    assert (E1 : fold_left (step fm groups) [Types good; SplHandles; AppHandles (fun _ l => l)] first_screen =
      mkScreen good 0 good true true 0 (heading true true ++ code)%string false (Some p) false None "" false).
    { cbn [fold_left]. unfold first_screen. cbn [step to_spl to_app editor spl use_runtime add_imports pane pane_marked tree tree_marked report clipboard died].
      unfold refresh. cbn [to_spl to_app editor spl use_runtime add_imports pane pane_marked tree tree_marked report clipboard died runtime_of].
      rewrite P, C. now rewrite heading_eq. }
    rewrite E1. cbn [fold_left]. cbn [step to_spl to_app editor spl use_runtime add_imports pane pane_marked tree tree_marked report clipboard died].
    unfold refresh. cbn [to_spl to_app editor spl use_runtime add_imports pane pane_marked tree tree_marked report clipboard died].
    rewrite B. reflexivity. }
  rewrite E. cbn [pane editor pane_marked clipboard]. split; [ now split | ]. repeat (split; [ reflexivity | ]).
  intros rt imports (o & c & _ & T & _). unfold convert_spl_to_pyspark in T. rewrite B in T. discriminate.
Qed.
