(** Facts: options that are refused and options that are ignored. *)
From Coq Require Import String List ZArith Bool Lia.
Import ListNotations.
From Verif Require Import Str SplAst PyAst Functions Transpile Commands Api PipeFacts SpecPipe EffectFacts SpecOptions.
Open Scope list_scope.

Ltac leaf e := destruct e; try match goal with x : LeafExpr |- _ => destruct x end; try match goal with x : Constant |- _ => destruct x end.
Lemma only_refuses : forall rt (r : res DataFrame), (forall d, r <> Ok d) -> forall st st' d,
  (do x <- select_rt rt unimplemented (lift r); ret (Some x)) st <> (st', Ok d).
Proof.
  intros rt r H st st' d E. apply only_none in E. destruct E as (_ & x & E & _). unfold lift in E. injection E as _ E. exact (H x E).
Qed.
Lemma rename_refuses : forall l d, forallb (fun x : Expr * string => is_field (fst x)) l = false -> forall d', t_rename_go l d <> Ok d'.
Proof.
  induction l as [|[e n] l IH]; intros d H d'; [ discriminate H | ]. cbn [forallb fst] in H.
  leaf e; cbn [is_field andb] in H; try discriminate. cbn [t_rename_go]. now apply IH.
Qed.
Lemma traverse_refuses : forall {A B} (f : A -> res B) (ok : A -> bool) l, (forall a, ok a = false -> forall b, f a <> Ok b) -> forallb ok l = false ->
  forall bs, rtraverse f l <> Ok bs.
Proof.
  intros A B f ok l H. unfold rtraverse. induction l as [|a l IH]; intros K bs E; [ discriminate K | ]. cbn [forallb map rsequence] in *.
  destruct (f a) as [b| |] eqn:Ef; try discriminate E. cbn [rbind] in E. destruct (ok a) eqn:Ka; [ | exact (H a Ka b Ef) ].
  destruct (rsequence (map f l)) as [bs'| |] eqn:Er; try discriminate E. now apply (IH K bs').
Qed.
Lemma asks_too_much_refused : forall env c, asks_too_much c = true -> refuses env c.
Proof.
  intros env c H s st st' d0. destruct c; try discriminate H; cbn [transform_command asks_too_much] in *.
  - (* head *) apply only_refuses. intros d E. unfold t_head in E. destruct (head_limit _ _) eqn:El; try discriminate E.
    leaf eval_expr; try discriminate H; try discriminate El.
  - (* join *) intro E. apply only_none in E. destruct E as (_ & x & E & _). apply bind_inv in E. destruct E as (s1 & [] & E1 & E).
    apply bind_inv in E. destruct E as (s2 & r & E2 & E). unfold lift, ensure in E1. destruct (jo_max o =? 1)%Z; [ | discriminate E1 ]. cbn [negb orb] in H.
    unfold lift, t_join in E. destruct r; [ | discriminate E ]. unfold join_kind in E. apply negb_true_iff in H. rewrite H in E. discriminate E.
  - (* lookup *) apply only_refuses. intros d E. unfold t_lookup in E. destruct (lookup_result dataset fields output s) as [x| |] eqn:El; try discriminate E.
    unfold lookup_result in El.
    assert (J : forall a, plain_or_aliased a = false -> forall b, lookup_join_column a <> Ok b) by (intros [] K b; try discriminate K; discriminate).
    assert (O : forall a, plain_or_aliased a = false -> forall b, lookup_output_column a <> Ok b) by (intros [] K b; try discriminate K; discriminate).
    destruct (rtraverse lookup_join_column fields) as [cols| |] eqn:Ej; try discriminate El.
    destruct (forallb plain_or_aliased fields) eqn:Kf; [ | exact (traverse_refuses _ _ _ J Kf _ Ej) ]. cbn [negb orb] in H.
    destruct output as [[k l]|]; [ | discriminate H ]. cbn [rbind] in El. destruct (String.eqb (upper k) "OUTPUT"); [ | discriminate El ].
    cbn [andb] in H. apply negb_true_iff in H. destruct (rtraverse lookup_output_column l) as [cs| |] eqn:Eo; try discriminate El.
    exact (traverse_refuses _ _ _ O H _ Eo).
  - (* rare *) apply only_refuses. intros d E. unfold t_toprare in E. rewrite H in E. discriminate E.
  - (* regex *) apply only_refuses. intros d E. destruct item as [[f op]|]; [ | discriminate H ]. unfold t_regex in E. apply negb_true_iff, orb_false_iff in H.
    destruct H as [H1 H2]. rewrite H1, H2 in E. discriminate E.
  - (* rename *) apply only_refuses. intros d. apply rename_refuses. now apply negb_true_iff.
  - (* rex *) apply only_refuses. intros d E. unfold t_rex, opt_str_eqb in E. apply orb_true_iff in H. destruct H as [H|H].
    + rewrite H in E. discriminate E.
    + apply negb_true_iff in H. rewrite H in E. destruct (ensure _); discriminate E.
  - (* sort *) apply only_refuses. intros d E. unfold t_sort in E. destruct (rtraverse _ _) as [ks| |] eqn:Ek; try discriminate E.
    apply negb_true_iff in H. eapply (traverse_refuses _ _ _ _ H _ Ek). Unshelve. cbn beta. intros [sg e] K b. unfold sort_key. cbn [snd] in *.
    leaf e; try discriminate K; discriminate.
  - (* top *) apply only_refuses. intros d E. unfold t_toprare in E. rewrite H in E. discriminate E.
  - (* tstats *) intro E. apply bind_inv in E. destruct E as (s1 & x & E & _).
    assert (K : tstats_ok o = false) by (unfold tstats_ok; destruct (tst_prestats o), (tst_local o), (tst_append o), (tst_include_reduced_buckets o); try reflexivity; discriminate H).
    destruct (env_rt env); cbn [select_rt] in E.
    + unfold t_tstats_standalone in E. rewrite K in E. discriminate E.
    + unfold or_else, t_tstats_runtime, t_tstats_standalone in E. rewrite K in E. discriminate E.
    + unfold t_tstats_runtime in E. rewrite K in E. discriminate E.
Qed.
Lemma too_much_refused : forall env p c, occurs c p -> asks_too_much c = true -> forall out, render_pyspark env p <> Ok out.
Proof. intros env p c O H. apply (refused_anywhere env p c O). now apply asks_too_much_refused. Qed.

Lemma option_ignored : forall env c c', differs_in_option c c' -> forall s st, transform_command env c s st = transform_command env c' s st.
Proof. intros env c c' []; reflexivity. Qed.
Lemma run_ext : forall (f g : Command -> tstate -> M tstate) p, (forall c s st, In c p -> f c s st = g c s st) ->
  forall s st, run_commands f p s st = run_commands g p s st.
Proof.
  intros f g p. induction p as [|c p IH]; intros H s st; [ reflexivity | ]. cbn [run_commands]. unfold bind. rewrite (H c s st (or_introl eq_refl)).
  destruct (g c s st) as [st1 [a| |]]; [ | reflexivity | reflexivity ]. apply IH. intros x s' st2 Hx. apply H. now right.
Qed.
Lemma options_vanish : forall env p c c' q, differs_in_option c c' -> render_pyspark env (p ++ c :: q) = render_pyspark env (p ++ c' :: q).
Proof.
  intros env p c c' q H. unfold render_pyspark, transform_pipeline. rewrite !run_commands_app. f_equal. f_equal.
  unfold bind at 1 2. destruct (run_commands _ p None transform_state0) as [st [s| |]]; try reflexivity.
  cbn [run_commands]. unfold bind. now rewrite (option_ignored env c c' H).
Qed.
