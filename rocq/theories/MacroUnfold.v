(** Substitution computes the text with all calls unfolded, and ends on libraries whose calls
    can be ranked. *)
From Coq Require Import Lia.
From Verif Require Import Str SplAst Nom Lexer Parser CmdParser Macros.
From Verif Require Import ParserFacts ParserTotal ParserFuel SpecText LexFacts TokenFacts NameFacts.
From Verif Require Import SpecExpr ExprFacts LogicFacts EvalFacts SpecMacro MacroFacts MacroSubFacts.
Open Scope string_scope.

Section Unfold.
  Variables (re : ReSub) (lib : Macros).
  (** Unfolding with at most [k] calls inside each other *)
  Inductive unfolds_n : nat -> string -> string -> Prop :=
  | UN_text : forall k s, no_tick s -> unfolds_n k s s
  | UN_call : forall k piece c t v v' s s', no_tick piece -> plain_call c -> call_text c t ->
      expands lib c v -> unfolds_n k v v' -> unfolds_n (S k) s s' ->
      unfolds_n (S k) (piece ++ tick ++ t ++ tick ++ s) (piece ++ v' ++ s').
  Lemma unfolds_mono : forall k s u, unfolds_n k s u -> forall m, k <= m -> unfolds_n m s u.
  Proof.
    induction 1 as [k s H | k piece c t v v' s s' H1 H2 H3 H4 H5 IH5 H6 IH6]; intros m L; [ now constructor | ].
    destruct m as [|m]; [ lia | ]. eapply UN_call; eauto. apply IH5. lia.
  Qed.
  Lemma unfolds_some : forall s u, unfolds lib s u -> exists k, unfolds_n k s u.
  Proof.
    induction 1 as [s H | piece c t v v' s s' H1 H2 H3 H4 H5 (k & K) H6 (m & M)]; [ exists 0; now constructor | ].
    exists (S (max k m)). eapply UN_call; eauto; eapply unfolds_mono; eauto; lia.
  Qed.
  Lemma unfolds_prefix : forall k a s u, no_tick a -> unfolds_n k s u -> unfolds_n k (a ++ s) (a ++ u).
  Proof.
    intros k a s u A H. destruct H as [k s H | k piece c t v v' s s' H1 H2 H3 H4 H5 H6].
    - constructor. now apply all_chars_app.
    - rewrite <- !append_assoc_s. replace ((a ++ piece) ++ v') with ((a ++ piece) ++ v') by reflexivity.
      rewrite (append_assoc_s (a ++ piece) v' s').
      replace ((((a ++ piece) ++ tick) ++ t) ++ tick) with ((a ++ piece) ++ tick ++ t ++ tick) by now rewrite !append_assoc_s.
      rewrite (append_assoc_s (a ++ piece) (tick ++ t ++ tick) s), !(append_assoc_s tick), (append_assoc_s t).
      eapply UN_call; eauto. now apply all_chars_app.
  Qed.
  Lemma unfolds_app : forall k a a', unfolds_n k a a' -> forall b b', unfolds_n k b b' -> unfolds_n k (a ++ b) (a' ++ b').
  Proof.
    induction 1 as [k s H | k piece c t v v' s s' H1 H2 H3 H4 H5 IH5 H6 IH6]; intros b b' B; [ now apply unfolds_prefix | ].
    rewrite !append_assoc_s. eapply UN_call; eauto.
  Qed.
  (** One round *)
  Lemma unfolds_round : forall k s u, unfolds_n (S k) s u -> exists l suffix w,
    spells l suffix s /\ Forall (fun pc => no_tick (fst pc)) l /\ no_tick suffix /\ Forall (fun pc => plain_call (snd pc)) l /\
    expanded lib l suffix w /\ unfolds_n k w u.
  Proof.
    intros k s u H. remember (S k) as m eqn:M. induction H as [m s H | m piece c t v v' s s' H1 H2 H3 H4 H5 _ H6 IH6].
    - exists [], s, s. repeat split; try constructor; auto.
    - injection M as ->. destruct (IH6 eq_refl) as (l & suffix & w & S & F & N & P & X & U).
      exists ((piece, c) :: l), suffix, (piece ++ v ++ w). split; [ now constructor | ]. split; [ now constructor | ].
      split; [ exact N | ]. split; [ now constructor | ]. split; [ now constructor | ].
      apply unfolds_prefix; [ exact H1 | ]. now apply unfolds_app.
  Qed.
  (** Trimming *)
  Lemma unfolds_back : forall k x u, unfolds_n k x u -> forall s b, x = s ++ b -> no_tick b -> exists u', u = u' ++ b /\ unfolds_n k s u'.
  Proof.
    induction 1 as [k x H | k piece c t v v' x x' H1 H2 H3 H4 H5 _ H6 IH6]; intros s b E B.
    - subst. apply all_chars_app in H. exists s. split; [ reflexivity | now constructor ].
    - replace (piece ++ tick ++ t ++ tick ++ x) with ((piece ++ tick ++ t) ++ tick ++ x) in E by now rewrite !append_assoc_s.
      apply cut_back in E; auto. destruct E as (y & -> & ->). destruct (IH6 y b eq_refl B) as (u' & -> & U).
      exists (piece ++ v' ++ u'). split; [ now rewrite !append_assoc_s | ]. rewrite !append_assoc_s. eapply UN_call; eauto.
  Qed.
  Lemma unfolds_front : forall k a s u, unfolds_n k (a ++ s) u -> no_tick a -> exists u', u = a ++ u' /\ unfolds_n k s u'.
  Proof.
    intros k. induction a as [|c a IH]; intros s u H N; [ now exists u | ]. destruct N as [Nc N].
    assert (exists u1, u = String c u1 /\ unfolds_n k (a ++ s) u1) as (u1 & -> & H1).
    { cbn in H. remember (String c (a ++ s)) as x eqn:E. destruct H as [k x H | k piece d t v v' x x' H1 H2 H3 H4 H5 H6].
      - subst. exists (a ++ s). split; [ reflexivity | ]. constructor. apply H.
      - destruct piece as [|y piece]; cbn in E; injection E as Ey E; [ now elim Nc | ]. subst y. rewrite <- E.
        exists (piece ++ v' ++ x'). split; [ reflexivity | ]. eapply UN_call; eauto. apply H1. }
    destruct (IH _ _ H1 N) as (u' & -> & U). now exists u'.
  Qed.
  Lemma trimmed_more : forall u a u' b r, u = a ++ u' ++ b -> all_chars py_white a -> all_chars nonpipe_white b -> trimmed u' r -> trimmed u r.
  Proof.
    intros u a u' b r -> A B (a' & b' & -> & A' & B' & N). exists (a ++ a'), (b' ++ b). split; [ now rewrite !append_assoc_s | ].
    split; [ now apply all_chars_app | ]. split; [ now apply all_chars_app | exact N ].
  Qed.
  Lemma unfolds_rounds : forall k s u, unfolds_n k s u -> no_tick u /\
    exists n r, (forall fuel, n <= fuel -> substitute_macros fuel re lib s = Some (Ok r)) /\ trimmed u r.
  Proof.
    intros k s u H. split.
    { induction H as [k s H | k piece c t v v' s s' H1 H2 H3 H4 H5 IH5 H6 IH6]; [ exact H | ].
      apply all_chars_app. split; [ exact H1 | ]. now apply all_chars_app. }
    revert s u H. induction k as [|k IH]; intros s u H.
    - inversion H; subst. now apply plain_text_result.
    - destruct (unfolds_round _ _ _ H) as (l & suffix & w & HS & F & N & P & X & U).
      destruct (chunks_ok re lib l suffix w X) as (body & EB & ->).
      destruct (tidy_split (body ++ suffix)) as (a & b & E & Ha & Hb). set (w := tidy (body ++ suffix)) in *.
      rewrite E in U. apply unfolds_front in U; [ | apply white_no_tick; eapply all_chars_impl; [ | exact Ha ]; now left ].
      destruct U as (u1 & -> & U). destruct (unfolds_back _ _ _ U _ _ eq_refl (white_no_tick _ Hb)) as (u2 & -> & U2).
      destruct (IH _ _ U2) as (n & r & R & T). assert (T' : trimmed (a ++ u2 ++ b) r) by (eapply trimmed_more; eauto).
      destruct (String.eqb w s) eqn:Q.
      + apply String.eqb_eq in Q. rewrite <- Q. now exists n, r.
      + exists (S n), r. split; [ | exact T' ]. intros fuel L. destruct fuel as [|fuel]; [ lia | ]. cbn [substitute_macros].
        unfold substitute_once. rewrite (detect_complete l suffix s) by auto. cbn [rbind fst snd]. rewrite EB. cbn [rbind]. fold w.
        rewrite Q. apply R. lia.
  Qed.
  Lemma unfolds_result : forall s u, unfolds lib s u -> no_tick u /\
    exists n r, (forall fuel, n <= fuel -> substitute_macros fuel re lib s = Some (Ok r)) /\ trimmed u r.
  Proof. intros s u H. destruct (unfolds_some _ _ H) as [k K]. now apply (unfolds_rounds k). Qed.
End Unfold.

(** ** Ranked calls *)
Section RankedCalls.
  Variables (re : ReSub) (lib : Macros) (ok : MacroCall -> Prop) (rank : MacroCall -> nat).
  Hypothesis Hok : forall c, ok c -> decided lib c.
  Hypothesis Hrank : forall c v, ok c -> expands lib c v -> exists cs, has_calls v cs /\ Forall (fun c' => ok c' /\ rank c' < rank c) cs.
  Lemma calls_rounds : forall k s cs, has_calls s cs -> Forall (fun c => ok c /\ rank c < k) cs ->
    exists n r, substitute_macros n re lib s = Some r.
  Proof.
    induction k as [|k IH]; intros s cs (l & suffix & HS & F & N & ->) Hr.
    - destruct l as [|pc l].
      + inversion HS; subst. destruct (plain_rounds re lib (S (String.length s)) s N ltac:(lia)) as (r & E & _). eauto.
      + cbn [map] in Hr. inversion Hr; subst. lia.
    - assert (D : detect_macros s = Some (Ok (l, suffix))).
      { apply detect_complete; auto. rewrite Forall_map in Hr. eapply Forall_impl; [ | exact Hr ].
        cbn. intros pc [Hb _]. apply (Hok _ Hb). }
      assert (G : expand_chunks re lib l = Err \/ exists body cs, expand_chunks re lib l = Ok body /\ has_calls body cs /\ Forall (fun c => ok c /\ rank c < k) cs).
      { clear D HS N suffix IH s. induction l as [|[p c] l IHl].
        - right. exists "", []. split; auto. split; [ | constructor ]. exists [], "". repeat constructor.
        - inversion F as [|? ? F1 F2]; subst. cbn [map snd] in Hr. inversion Hr as [|? ? [Hc Hk] Hr']; subst. cbn [expand_chunks].
          destruct (Hok _ Hc) as [_ [B|(v & V)]]; [ left; now rewrite bad_call_err | ]. rewrite (expand_ok re lib c v V). cbn [rbind].
          destruct (Hrank _ _ Hc V) as (cs & Hv & Fv). destruct (IHl F2 Hr') as [-> | (body & cs' & -> & Hb & Fb)]; [ now left | ]. right.
          exists (p ++ v ++ body), (cs ++ cs')%list. split; auto. split; [ apply calls_prefix; auto; now apply calls_app | ].
          apply Forall_app. split; auto. eapply Forall_impl; [ | exact Fv ]. cbn. intros x [Hx Hy]. split; auto. lia. }
      destruct G as [E|(body & cs & E & Hb & Fb)].
      + exists 1, Err. cbn [substitute_macros]. unfold substitute_once. rewrite D. cbn [rbind fst]. now rewrite E.
      + destruct (IH (tidy (body ++ suffix)) cs) as (n & r & E').
        { apply calls_tidy. rewrite <- (app_nil_r cs). apply calls_app; auto.
          exists [], suffix. split; [ constructor | ]. split; [ constructor | auto ]. }
        { exact Fb. }
        destruct (String.eqb (tidy (body ++ suffix)) s) eqn:X.
        * exists 1, (Ok (tidy (body ++ suffix))). cbn [substitute_macros]. unfold substitute_once. rewrite D. cbn [rbind fst snd].
          rewrite E. cbn [rbind]. now rewrite X.
        * exists (S n), r. cbn [substitute_macros]. unfold substitute_once. rewrite D. cbn [rbind fst snd].
          rewrite E. cbn [rbind]. now rewrite X.
  Qed.
  Lemma calls_terminate : forall s cs, has_calls s cs -> Forall ok cs ->
    exists n r, forall fuel, n <= fuel -> substitute_macros fuel re lib s = Some r.
  Proof.
    intros s cs H F.
    assert (B : exists k, Forall (fun c => rank c < k) cs).
    { clear. induction cs as [|c cs [k IH]]; [ exists 0; constructor | ]. exists (S (max k (rank c))).
      constructor; [ lia | ]. eapply Forall_impl; [ | exact IH ]. cbn. intros; lia. }
    destruct B as [k B]. destruct (calls_rounds k s cs H) as (n & r & E).
    { clear H. induction cs; constructor; inversion F; inversion B; subst; auto. }
    exists n, r. intros fuel Hf. eapply rounds_mono; eauto.
  Qed.
End RankedCalls.

(** ** Examples *)
Lemma expands_once : forall lib c v w, expands lib c v -> expands lib c w -> v = w.
Proof.
  intros lib c v w V W. apply (expand_ok (fun _ _ _ => Err)) in V. apply (expand_ok (fun _ _ _ => Err)) in W. congruence.
Qed.
Definition nested : Macros := registry [("m", mkMacro ["a"; "b"] "x=$a$ OR `g($b$)`"); ("g", mkMacro ["c"] "y=$c$")].
Definition fine_value (v : string) : Prop := plain_arg (None, v) /\ no_tick v /\ no_dollar v /\ no_backslash v.
Definition nested_call (c : MacroCall) : Prop :=
  (exists v w, fine_value v /\ fine_value w /\ c = mkMacroCall "m" [(None, v); (None, w)]) \/
  (exists v, fine_value v /\ c = mkMacroCall "g" [(None, v)]).
Definition nested_rank (c : MacroCall) : nat := if (mc_name c =? "m")%string then 1 else 0.
Lemma param_letter : forall c, letter c -> param_name (String c "").
Proof. intros c L. split; [ discriminate | ]. split; [ now left | exact I ]. Qed.
Lemma nested_g : forall v, fine_value v -> expands nested (mkMacroCall "g" [(None, v)]) ("y=" ++ v).
Proof.
  intros v (P & T & D & B). replace ("y=" ++ v) with (instantiate ["c"] [v] "y=" [("c", "")]) by (cbn; now rewrite append_nil_r).
  apply (EX_positional nested "g" _ [v] "y=" [("c", "")]) with (1 := eq_refl); try reflexivity; try discriminate.
  - repeat constructor. cbn. tauto.
  - constructor; [ | constructor ]. apply param_letter. unfold letter. cbn. lia.
  - constructor; [ now split | constructor ].
  - split; [ cbn; repeat split; discriminate | ]. split; [ | cbn; split; [ congruence | exact I ] ].
    constructor; [ | constructor ]. split; [ | exact I ]. apply param_letter. unfold letter. cbn. lia.
Qed.
Lemma nested_f : forall v w, fine_value v -> fine_value w ->
  expands nested (mkMacroCall "m" [(None, v); (None, w)]) ("x=" ++ v ++ " OR `g(" ++ w ++ ")`").
Proof.
  intros v w (_ & T & D & B) (_ & T' & D' & B').
  apply (EX_positional nested "m" _ [v; w] "x=" [("a", " OR `g("); ("b", ")`")]) with (1 := eq_refl); try reflexivity; try discriminate.
  - repeat constructor; cbn; intuition discriminate.
  - repeat apply Forall_cons; try apply Forall_nil; apply param_letter; unfold letter; cbn; lia.
  - constructor; [ now split | constructor; [ now split | constructor ] ].
  - split; [ cbn; repeat split; discriminate | ]. split.
    + repeat apply Forall_cons; try apply Forall_nil; (split; [ apply param_letter; unfold letter; cbn; lia | cbn; repeat split; discriminate ]).
    + cbn. split; [ | split; [ congruence | exact I ] ]. intros _ [[H|[H|H]] _]; try discriminate; unfold letter, digit in H; cbn in H; lia.
Qed.
Lemma nested_text : forall w, call_text (mkMacroCall "g" [(None, w)]) ("g(" ++ w ++ ")").
Proof. intro w. apply (CT_args "g" [(None, w)] w "" "" "" "" ""); try exact I. constructor. constructor. Qed.
Lemma nested_plain : forall c, nested_call c -> plain_call c.
Proof.
  intros c [(v & w & (V & _) & (W & _) & ->)|(v & (V & _) & ->)]; (split; [ now apply ident_by | cbn [mc_args]; repeat (apply Forall_cons; [ assumption | ]); apply Forall_nil ]).
Qed.
Lemma nested_example :
  (forall c, nested_call c -> decided nested c) /\
  (forall c v, nested_call c -> expands nested c v ->
     exists cs, has_calls v cs /\ Forall (fun c' => nested_call c' /\ nested_rank c' < nested_rank c) cs) /\
  nested_call (mkMacroCall "m" [(None, "1"); (None, "2")]) /\
  unfolds nested "index=i `m(1, 2)` |" "index=i x=1 OR y=2 |" /\
  forall re, substitute_macros 9 re nested "index=i `m(1, 2)` |" = Some (Ok "index=i x=1 OR y=2").
Proof.
  assert (V1 : fine_value "1" /\ fine_value "2").
  { assert (forall d, In d ["1"; "2"] -> fine_value d) as K; [ | split; apply K; cbn; tauto ].
    assert (forall z, int64_nonmin z -> ~ named_like (decimal z) -> plain_arg (None, decimal z)) as P.
    { intros z Z N. split; [ exact N | ]. exists (TInt z). split; [ exact Z | ]. do 7 (apply W_up; [ lia | ]). apply W_int. }
    intros d [<-|[<-|[]]]; (split; [ | cbn; repeat split; discriminate || (cbn; lia) ]); [ apply (P 1%Z) | apply (P 2%Z) ];
      try (vm_compute; split; reflexivity || discriminate); try (split; vm_compute; congruence);
      intros (n & x & E & H); destruct n as [|c n]; vm_compute in E; try discriminate; injection E as _ E; destruct n; discriminate E. }
  destruct V1 as [V1 V2].
  split; [ | split; [ | split; [ | split ] ] ].
  - intros c H. split; [ now apply nested_plain | ]. right. destruct H as [(v & w & V & W & ->)|(v & V & ->)]; eexists; [ now apply nested_f | now apply nested_g ].
  - intros c u H E. destruct H as [(v & w & V & W & ->)|(v & V & ->)].
    + rewrite (expands_once _ _ _ _ E (nested_f v w V W)). exists [mkMacroCall "g" [(None, w)]]. split.
      * exists [("x=" ++ v ++ " OR ", mkMacroCall "g" [(None, w)])], "". split; [ | split; [ | split; [ exact I | reflexivity ] ] ].
        -- replace ("x=" ++ v ++ " OR `g(" ++ w ++ ")`") with (("x=" ++ v ++ " OR ") ++ tick ++ ("g(" ++ w ++ ")") ++ tick ++ "")
             by (rewrite !append_assoc_s; reflexivity).
           constructor; [ apply nested_text | constructor ].
        -- constructor; [ | constructor ]. cbn [fst]. apply all_chars_app. split; [ cbn; repeat split; discriminate | ].
           apply all_chars_app. split; [ apply V | cbn; repeat split; discriminate ].
      * constructor; [ | constructor ]. split; [ right; now exists w | cbn; lia ].
    + rewrite (expands_once _ _ _ _ E (nested_g v V)). exists []. split; [ | constructor ]. exists [], ("y=" ++ v).
      split; [ constructor | ]. split; [ constructor | ]. split; [ | reflexivity ].
      apply all_chars_app. split; [ cbn; repeat split; discriminate | apply V ].
  - left. now exists "1", "2".
  - apply (UF_call nested "index=i " (mkMacroCall "m" [(None, "1"); (None, "2")]) "m(1, 2)" ("x=1 OR `g(2)`") "x=1 OR y=2" " |" " |").
    + cbn; repeat split; discriminate.
    + apply nested_plain. left. now exists "1", "2".
    + apply (CT_args "m" [(None, "1"); (None, "2")] "1, 2" "" "" "" "" ""); try exact I.
      apply (AT_more (None, "1") "1" [(None, "2")] "2" "" " "); [ constructor | exact I | | constructor; constructor ].
      cbn. split; [ | exact I ]. now left.
    + now apply (nested_f "1" "2").
    + apply (UF_call nested "x=1 OR " (mkMacroCall "g" [(None, "2")]) "g(2)" "y=2" "y=2" "" "").
      * cbn; repeat split; discriminate.
      * apply nested_plain. right. now exists "2".
      * apply nested_text.
      * now apply nested_g.
      * constructor. cbn; repeat split; discriminate.
      * constructor. exact I.
    + constructor. cbn; repeat split; discriminate.
  - intro re. vm_compute. reflexivity.
Qed.
