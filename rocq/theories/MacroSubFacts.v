(** Proofs about macro substitution: trimming, parameters, rounds *)
From Coq Require Import Lia.
From Verif Require Import Str SplAst Nom Lexer Parser CmdParser Macros.
From Verif Require Import ParserFacts ParserTotal ParserFuel SpecText LexFacts TokenFacts NameFacts.
From Verif Require Import SpecExpr ExprFacts LogicFacts EvalFacts SpecMacro MacroFacts.
Open Scope string_scope.

(** ** Parameters *)
Lemma name_no_dollar : forall n, all_chars name_char n -> no_dollar n.
Proof.
  intros n H. eapply all_chars_impl; [ | exact H ]. intros c Hc ->. destruct Hc as [Hc|[Hc|Hc]].
  - unfold letter in Hc. cbn in Hc. lia.
  - unfold digit in Hc. cbn in Hc. lia.
  - discriminate.
Qed.
Lemma sw_dollar : forall a b x, no_dollar a -> no_dollar b ->
  starts_with (a ++ "$") (b ++ "$" ++ x) = true -> a = b.
Proof.
  unfold starts_with. induction a as [|c a IH]; intros b x Ha Hb H; destruct b as [|d b]; auto.
  - destruct Hb as [Hd _]. cbn [String.append strip_prefix] in H.
    destruct (Ascii.eqb_spec "$" d) as [E|_]; [ now subst d | discriminate ].
  - destruct Ha as [Hc _]. cbn [String.append strip_prefix] in H.
    destruct (Ascii.eqb_spec c "$") as [E|_]; [ now subst c | discriminate ].
  - destruct Ha as [_ Ha], Hb as [_ Hb]. cbn [String.append strip_prefix] in H.
    destruct (Ascii.eqb_spec c d) as [E|_]; [ | discriminate ]. subst d. f_equal. now apply (IH b x).
Qed.
Lemma sw_no_dollar : forall a b, no_dollar b -> starts_with (a ++ "$") b = false.
Proof.
  unfold starts_with. induction a as [|c a IH]; intros [|d b] Hb; auto; destruct Hb as [Hd Hb];
    cbn [String.append strip_prefix].
  - destruct (Ascii.eqb_spec "$" d) as [E|_]; [ now subst d | reflexivity ].
  - destruct (Ascii.eqb c d); auto.
Qed.
Section Sub.
  Variables (n v : string).
  Hypothesis (Hn : all_chars name_char n).
  Let pat := "$" ++ n ++ "$".
  Lemma go_text : forall t x, no_dollar t -> replace_go pat v 0 (t ++ x) = t ++ replace_go pat v 0 x.
  Proof.
    induction t as [|c t IH]; intros x Ht; [ reflexivity | ]. destruct Ht as [Hc Ht].
    cbn [String.append replace_go].
    assert (starts_with pat (String c (t ++ x)) = false) as ->.
    { unfold starts_with, pat. cbn [String.append strip_prefix].
      destruct (Ascii.eqb_spec "$" c) as [E|_]; [ now subst c | reflexivity ]. }
    now rewrite IH.
  Qed.
  Lemma go_skip : forall a x, replace_go pat v (String.length a) (a ++ x) = replace_go pat v 0 x.
  Proof.
    induction a as [|c a IH]; intro x; [ reflexivity | ]. cbn [String.append String.length replace_go].
    apply IH.
  Qed.
  Lemma sw_refl : forall a x, starts_with a (a ++ x) = true.
  Proof. unfold starts_with. induction a as [|c a IH]; intro x; auto. cbn [String.append strip_prefix]. now rewrite Ascii.eqb_refl. Qed.
  Lemma go_hit : forall x, replace_go pat v 0 ("$" ++ n ++ "$" ++ x) = v ++ replace_go pat v 0 x.
  Proof.
    intro x. cbn [String.append replace_go].
    assert (starts_with pat (String "$" (n ++ String "$" x)) = true) as ->.
    { change (String "$" (n ++ String "$" x)) with ("$" ++ n ++ "$" ++ x).
      replace ("$" ++ n ++ "$" ++ x) with (pat ++ x) by (unfold pat; now rewrite !append_assoc_s).
      apply sw_refl. }
    f_equal. change (String.length pat) with (S (String.length (n ++ "$"))). cbn [pred].
    change (String "$" x) with ("$" ++ x). rewrite <- append_assoc_s. apply go_skip.
  Qed.
  Lemma go_dollar : forall x, starts_with (n ++ "$") x = false ->
    replace_go pat v 0 ("$" ++ x) = "$" ++ replace_go pat v 0 x.
  Proof.
    intros x H. cbn [String.append replace_go].
    assert (starts_with pat (String "$" x) = starts_with (n ++ "$") x) as -> by reflexivity.
    now rewrite H.
  Qed.
  Fixpoint sub_tpl (t0 : string) (l : list (string * string)) : string * list (string * string) :=
    match l with
    | [] => (t0, [])
    | (m, t) :: l' =>
        if (n =? m)%string then let r := sub_tpl t l' in (t0 ++ v ++ fst r, snd r)
        else let r := sub_tpl t l' in (t0, (m, fst r) :: snd r)
    end.
  Lemma go_template : forall l t0, plain_template t0 l ->
    replace_go pat v 0 (template t0 l) = template (fst (sub_tpl t0 l)) (snd (sub_tpl t0 l)).
  Proof.
    induction l as [|[m t] l IH]; intros t0 (H0 & HF & HA).
    - cbn. rewrite <- (append_nil_r t0) at 1. rewrite go_text by auto. cbn. apply append_nil_r.
    - inversion HF as [|? ? [Hm Ht] HF']; subst. cbn [fst snd] in *. destruct HA as [HA HA'].
      cbn [template]. rewrite go_text by auto. cbn [sub_tpl].
      specialize (IH t (conj Ht (conj HF' HA'))).
      destruct (String.eqb_spec n m) as [<-|Hnm].
      + rewrite go_hit, IH. cbn [fst snd].
        destruct (snd (sub_tpl t l)) as [|[m' t'] l'']; cbn [template]; now rewrite ?append_assoc_s.
      + cbn [fst snd template]. destruct Hm as [_ Hm]. apply name_no_dollar in Hm.
        rewrite go_dollar.
        * rewrite go_text by auto. rewrite go_dollar.
          { now rewrite IH. }
          destruct l as [|[m' t'] l'].
          { cbn [template]. now apply sw_no_dollar. }
          cbn [template]. destruct (starts_with _ _) eqn:E; auto. exfalso.
          apply sw_dollar in E; auto using name_no_dollar. subst t. apply HA; [ discriminate | exact Hn ].
        * destruct (starts_with _ _) eqn:E; auto. exfalso.
          apply sw_dollar in E; auto using name_no_dollar.
  Qed.
  Hypothesis (Hv : no_dollar v).
  Lemma sub_plain : forall l t0, plain_template t0 l ->
    plain_template (fst (sub_tpl t0 l)) (snd (sub_tpl t0 l)).
  Proof.
    assert (Grow : forall l t0, exists u, fst (sub_tpl t0 l) = t0 ++ u).
    { intros [|[m t] l] t0; cbn [sub_tpl]; [ exists ""; now rewrite append_nil_r | ].
      destruct (String.eqb n m); cbn [fst]; [ now exists (v ++ fst (sub_tpl t l)) | exists ""; now rewrite append_nil_r ]. }
    induction l as [|[m t] l IH]; intros t0 (H0 & HF & HA); cbn [sub_tpl].
    - split; auto.
    - inversion HF as [|? ? [Hm Ht] HF']; subst. cbn [fst snd] in *. destruct HA as [HA HA'].
      destruct (IH t (conj Ht (conj HF' HA'))) as (I1 & I2 & I3).
      destruct (String.eqb n m); cbn [fst snd].
      + split; [ | split; auto ]. apply all_chars_app. split; auto. apply all_chars_app. split; auto.
      + split; auto. split; [ now constructor | ]. cbn [apart]. split; auto.
        intros Hne. assert (l <> []) by (intros ->; now apply Hne).
        intro X. apply (HA H). destruct (Grow l t) as [u E]. rewrite E in X.
        apply all_chars_app in X. apply X.
  Qed.
  Lemma sub_instantiate : forall ps vs l t0,
    instantiate (n :: ps) (v :: vs) t0 l = instantiate ps vs (fst (sub_tpl t0 l)) (snd (sub_tpl t0 l)).
  Proof.
    intros ps vs. induction l as [|[m t] l IH]; intro t0; [ reflexivity | ].
    cbn [instantiate sub_tpl value_of]. rewrite IH. destruct (String.eqb_spec n m).
    - cbn [fst snd]. destruct (snd (sub_tpl t l)) as [|[m' t'] l']; cbn [instantiate]; now rewrite ?append_assoc_s.
    - reflexivity.
  Qed.
End Sub.
Lemma instantiate_none : forall l t0, instantiate [] [] t0 l = template t0 l.
Proof. induction l as [|[m t] l IH]; intro t0; [ reflexivity | ]. cbn [instantiate template value_of]. now rewrite IH, !append_assoc_s. Qed.
Lemma name_plain : forall n, all_chars name_char n -> plain_name n = true.
Proof.
  intros n H. unfold plain_name. revert H. apply all_chars_bool. intros c [Hc|[Hc|Hc]].
  - unfold is_alnum. rewrite (proj2 (is_alpha_spec c)) by auto. reflexivity.
  - unfold is_alnum. rewrite (proj2 (is_digit_spec c)) by auto. now rewrite Bool.orb_true_r.
  - subst. reflexivity.
Qed.
Lemma dict_set_new : forall A k (v : A) d, ~ In k (map fst d) -> dict_set k v d = (d ++ [(k, v)])%list.
Proof.
  intros A k v. induction d as [|[k' v'] d IH]; intro H; [ reflexivity | ]. cbn [dict_set].
  destruct (String.eqb_spec k' k) as [E|_]; [ exfalso; apply H; now left | ].
  rewrite IH; [ reflexivity | intro X; apply H; now right ].
Qed.
Lemma dict_of_nodup : forall A (l : list (string * A)), NoDup (map fst l) -> dict_of l = l.
Proof.
  intros A l. unfold dict_of.
  assert (G : forall l d : list (string * A), NoDup (map fst (d ++ l)%list) ->
              fold_left (fun d kv => dict_set (fst kv) (snd kv) d) l d = (d ++ l)%list).
  { clear l. induction l as [|[k v] l IH]; intros d H; [ now rewrite app_nil_r | ].
    cbn [fold_left fst snd]. rewrite dict_set_new.
    - rewrite IH; rewrite <- app_assoc; [ reflexivity | exact H ].
    - rewrite map_app in H. cbn [map fst] in H. apply NoDup_remove_2 in H. intro X. apply H.
      apply in_or_app. now left. }
  intro H. now apply G.
Qed.
Lemma map_fst_combine : forall (ps vs : list string), length vs = length ps -> map fst (combine ps vs) = ps.
Proof. induction ps as [|p ps IH]; intros [|v vs] H; auto; try discriminate. cbn. f_equal. apply IH. now injection H. Qed.
Lemma sub_args_instantiate : forall re ps vs t0 l, length vs = length ps -> Forall param_name ps ->
  Forall (fun v => no_dollar v /\ no_backslash v) vs -> plain_template t0 l ->
  sub_args re (combine ps vs) (template t0 l) = Ok (instantiate ps vs t0 l).
Proof.
  induction ps as [|p ps IH]; intros [|v vs] t0 l HL HP HV HT; try discriminate.
  - cbn. now rewrite instantiate_none.
  - inversion HP as [|? ? [_ Hp] HP']; inversion HV as [|? ? [Hd Hb] HV']; subst. injection HL as HL.
    cbn [combine sub_args]. unfold sub_arg. rewrite name_plain by auto.
    assert (plain_value v = true) as ->.
    { unfold plain_value. rewrite no_char; [ reflexivity | ]. eapply all_chars_impl; [ | exact Hb ].
      intros c Hc ->. now apply Hc. }
    cbn [andb]. unfold replace_all. rewrite go_template by auto. cbn [rbind].
    rewrite IH; auto using sub_plain. now rewrite sub_instantiate.
Qed.
Lemma expand_ok : forall re lib c v, expands lib c v -> expand_call re lib c = Ok v.
Proof.
  intros re lib c v [n d E | n d values t0 l E Hne HL ND HP HV HT ET | n d names values t0 l E Hne HL HL' _ ND HP HV HT ET]; unfold expand_call; cbn [mc_name mc_args]; rewrite E.
  - reflexivity.
  - cbn [of_option rbind]. destruct values as [|w values]; [ congruence | ].
    assert (B : bind_args (md_arguments d) (map (pair None) (w :: values)) = Ok (combine (md_arguments d) (w :: values))).
    { set (vs := w :: values) in *. unfold bind_args.
      assert (forallb is_positional (map (pair None) vs) = true) as ->.
      { apply forallb_forall. intros x Hx. apply in_map_iff in Hx. now destruct Hx as (y & <- & _). }
      rewrite map_length, HL, Nat.eqb_refl.
      rewrite map_map. cbn [snd]. rewrite map_id. now rewrite dict_of_nodup by (rewrite map_fst_combine; auto). }
    cbn [map] in *. rewrite B. cbn [rbind]. rewrite ET. now apply sub_args_instantiate.
  - cbn [of_option rbind]. destruct values as [|w values]; [ congruence | ]. destruct names as [|m names]; [ discriminate | ].
    assert (B : bind_args (md_arguments d) (combine (map Some (m :: names)) (w :: values)) = Ok (combine (m :: names) (w :: values))).
    { assert (forallb is_positional (combine (map Some (m :: names)) (w :: values)) = false) as Y by reflexivity.
      set (ns := m :: names) in *. set (vs := w :: values) in *. unfold bind_args. rewrite Y.
      assert (forallb (fun a => negb (is_positional a)) (combine (map Some ns) vs) = true) as ->.
      { apply forallb_forall. intros [o x] Hx. apply in_combine_l in Hx. apply in_map_iff in Hx. now destruct Hx as (y & <- & _). }
      rewrite combine_length, map_length, HL, HL', Nat.min_id, Nat.eqb_refl.
      assert (map (fun a : option string * string => (or_default "" (fst a), snd a)) (combine (map Some ns) vs) = combine ns vs) as ->.
      { clearbody ns vs. clear. revert vs. induction ns as [|n ns IH]; intros [|v vs]; [ reflexivity .. | ]. cbn. now rewrite IH. }
      now rewrite dict_of_nodup by (rewrite map_fst_combine; auto). }
    cbn [map combine] in *. rewrite B. cbn [rbind]. rewrite ET.
    change ((m, w) :: combine names values) with (combine (m :: names) (w :: values)). now apply sub_args_instantiate.
Qed.
Lemma bad_call_err : forall re lib c, bad_call lib c -> expand_call re lib c = Err.
Proof.
  intros re lib c H. unfold bad_call in H. unfold expand_call. destruct (lib (mc_name c)) as [d|]; [ | reflexivity ].
  cbn [of_option rbind]. destruct H as [Hne H]. destruct (mc_args c) as [|a args]; [ congruence | ].
  set (l := a :: args) in *. cbn iota. 
  assert (bind_args (md_arguments d) l = Err) as E; [ | fold l; rewrite E; reflexivity ].
  unfold bind_args. destruct H as [H|[(x & Hx & Ex) (y & Hy & Ey)]].
  - destruct (Nat.eqb_spec (length (md_arguments d)) (length l)); [ congruence | ].
    now destruct (forallb is_positional l), (forallb (fun a => negb (is_positional a)) l).
  - destruct (forallb is_positional l) eqn:E1.
    { rewrite forallb_forall in E1. specialize (E1 y Hy). unfold is_positional in E1. now destruct (fst y). }
    destruct (forallb (fun a => negb (is_positional a)) l) eqn:E2; [ | reflexivity ].
    rewrite forallb_forall in E2. specialize (E2 x Hx). unfold is_positional in E2. now rewrite Ex in E2.
Qed.

(** ** Trimming *)
Definition nonpipe_white := fun c => py_white c \/ c = "|"%char.
Lemma py_space_spec : forall c, py_space c = true <-> py_white c.
Proof.
  intro c. unfold py_space, py_white. rewrite !Bool.orb_true_iff, !between_spec.
  change (N.to_nat 9) with 9. change (N.to_nat 13) with 13. change (N.to_nat 28) with 28. change (N.to_nat 32) with 32.
  change (N.to_nat 133) with 133. change (N.to_nat 160) with 160. lia.
Qed.
Lemma lstrip_spec : forall f s, exists a, s = a ++ lstrip_by f s /\ sforall f a = true /\
  match lstrip_by f s with EmptyString => True | String c _ => f c = false end.
Proof.
  intros f. induction s as [|c s IH]; [ now exists "" | ]. cbn [lstrip_by].
  destruct (f c) eqn:E; [ | exists ""; now rewrite E ].
  destruct IH as (a & E1 & E2 & E3). exists (String c a). cbn. now rewrite <- E1, E, E2.
Qed.
Lemma rstrip_spec : forall f s, exists b, s = rstrip_by f s ++ b /\ sforall f b = true /\
  forall r c, rstrip_by f s = r ++ String c "" -> f c = false.
Proof.
  intros f. induction s as [|c s IH]; [ exists ""; repeat split; intros [|d r] c H; discriminate | ].
  destruct IH as (b & E1 & E2 & E3). cbn [rstrip_by].
  destruct (rstrip_by f s) as [|d t] eqn:E.
  - cbn in E1. destruct (f c) eqn:Ec.
    + exists (String c b). subst b. cbn. rewrite Ec, E2. repeat split. intros [|? ?] ? H; discriminate.
    + exists b. rewrite E1 at 1. repeat split; auto. intros [|x r] y H; cbn in H.
      * injection H as <-. exact Ec.
      * injection H as _ H. now destruct r.
  - exists b. rewrite E1 at 1. repeat split; auto. intros [|x r] y H; [ discriminate | ].
    cbn in H. injection H as _ H. now apply (E3 r).
Qed.
Lemma tidy_split : forall s, exists a b, s = a ++ tidy s ++ b /\ all_chars py_white a /\ all_chars nonpipe_white b.
Proof.
  intro s. unfold tidy.
  destruct (rstrip_spec py_space s) as (b1 & E1 & H1 & _). set (s1 := rstrip_by py_space s) in *.
  destruct (rstrip_spec is_pipe s1) as (b2 & E2 & H2 & _). set (s2 := rstrip_by is_pipe s1) in *.
  destruct (lstrip_spec py_space s2) as (a & E3 & H3 & _). set (s3 := lstrip_by py_space s2) in *.
  destruct (rstrip_spec py_space s3) as (b3 & E4 & H4 & _). set (s4 := rstrip_by py_space s3) in *.
  exists a, (b3 ++ b2 ++ b1). rewrite E1, E2, E3, E4 at 1. rewrite !append_assoc_s. split; [ reflexivity | ].
  assert (W : forall b, sforall py_space b = true -> all_chars py_white b).
  { intro b. apply (all_chars_sforall py_white py_space b py_space_spec). }
  assert (W' : forall b, all_chars py_white b -> all_chars nonpipe_white b) by (intro; apply all_chars_impl; left; auto).
  split; auto. repeat (apply all_chars_app; split); auto.
  eapply all_chars_impl; [ intros c X; right; exact X | ].
  revert H2. apply (all_chars_sforall (fun c => c = "|"%char) is_pipe b2). intro c. unfold is_pipe. apply Ascii.eqb_eq.
Qed.
Lemma app_len_nil : forall a b : string, String.length (a ++ b) = String.length b -> a = "".
Proof. intros [|c a] b H; auto. cbn in H. rewrite length_append in H. lia. Qed.
Lemma tidy_length : forall s, tidy s <> s -> String.length (tidy s) < String.length s.
Proof.
  intros s H. destruct (tidy_split s) as (a & b & E & _ & _).
  assert (L : String.length s = String.length a + (String.length (tidy s) + String.length b)).
  { rewrite E at 1. now rewrite !length_append. }
  destruct a as [|x a]; cbn in L; [ | lia ]. destruct b as [|y b]; cbn in L; [ | lia ].
  exfalso. apply H. rewrite E at 2. cbn. now rewrite append_nil_r.
Qed.
Lemma app_tail_inj : forall r r' c d, r ++ String c "" = r' ++ String d "" -> r = r' /\ c = d.
Proof.
  induction r as [|x r IH]; intros [|y r'] c d H; cbn in H.
  - injection H as ->. auto.
  - injection H as _ H. now destruct r'.
  - injection H as _ H. now destruct r.
  - injection H as -> H. apply IH in H. destruct H as [-> ->]. auto.
Qed.
Lemma rstrip_fix : forall f r c, f c = true -> rstrip_by f (r ++ String c "") <> r ++ String c "".
Proof.
  intros f r c Hc E. destruct (rstrip_spec f (r ++ String c "")) as (b & _ & _ & H).
  specialize (H r c E). congruence.
Qed.
Lemma tidy_fix : forall s, tidy s = s -> ~ begins py_white s /\ ~ ends_in nonpipe_white s.
Proof.
  intros s H. unfold tidy in H.
  destruct (rstrip_spec py_space s) as (b1 & E1 & H1 & _). set (s1 := rstrip_by py_space s) in *.
  destruct (rstrip_spec is_pipe s1) as (b2 & E2 & H2 & N2). set (s2 := rstrip_by is_pipe s1) in *.
  destruct (lstrip_spec py_space s2) as (a & E3 & H3 & N3). set (s3 := lstrip_by py_space s2) in *.
  destruct (rstrip_spec py_space s3) as (b3 & E4 & H4 & N4). set (s4 := rstrip_by py_space s3) in *.
  assert (L : String.length s = String.length a + (String.length s4 + String.length b3) + String.length b2 + String.length b1).
  { rewrite E1, E2, E3, E4 at 1. rewrite !length_append. lia. }
  rewrite <- H in L. assert (X : String.length s4 = String.length s) by now rewrite H.
  assert (a = "") as -> by (destruct a; auto; cbn in L; lia).
  assert (b1 = "") as -> by (destruct b1; auto; cbn in L; lia).
  assert (b2 = "") as -> by (destruct b2; auto; cbn in L; lia).
  assert (b3 = "") as -> by (destruct b3; auto; cbn in L; lia).
  rewrite append_nil_r in *. cbn in E3.
  assert (s1 = s) by auto. assert (s2 = s) by congruence. assert (s3 = s) by congruence.
  split.
  - intros (c & r & E & Hc). rewrite H6, E in N3. apply py_space_spec in Hc. congruence.
  - intros (r & c & E & [Hc|Hc]).
    + apply py_space_spec in Hc. specialize (N4 r c ltac:(congruence)). congruence.
    + subst c. specialize (N2 r "|"%char ltac:(congruence)). discriminate.
Qed.

(** ** Rounds *)
Lemma detect_plain : forall s, no_tick s -> detect_macros s = Some (Ok ([], s)).
Proof. intros s H. apply detect_complete; constructor || auto. Qed.
Lemma once_plain : forall re lib s, no_tick s -> substitute_once re lib s = Some (Ok (tidy s)).
Proof. intros re lib s H. unfold substitute_once. now rewrite detect_plain. Qed.
Lemma part_no_tick : forall P s a r b, s = a ++ r ++ b -> all_chars P s -> all_chars P r.
Proof. intros P s a r b -> H. apply all_chars_app in H. destruct H as [_ H]. apply all_chars_app in H. apply H. Qed.
Lemma plain_rounds : forall re lib fuel s, no_tick s -> String.length s < fuel ->
  exists r, substitute_macros fuel re lib s = Some (Ok r) /\ trimmed s r.
Proof.
  intros re lib. induction fuel as [|fuel IH]; intros s H Hf; [ lia | ]. cbn [substitute_macros].
  rewrite once_plain by auto. destruct (tidy_split s) as (a & b & E & Ha & Hb).
  destruct (String.eqb_spec (tidy s) s) as [X|X].
  - exists (tidy s). split; auto. destruct (tidy_fix s X) as [N1 N2].
    exists a, b. rewrite X in *. repeat split; auto.
  - destruct (IH (tidy s)) as (r & E1 & a' & b' & E2 & Ha' & Hb' & N).
    { eapply part_no_tick; eauto. }
    { apply tidy_length in X. lia. }
    exists r. split; auto. exists (a ++ a'), (b' ++ b). split; [ | split; [ | split ]]; auto.
    + rewrite E, E2 at 1. now rewrite !append_assoc_s.
    + now apply all_chars_app.
    + now apply all_chars_app.
Qed.
Lemma rounds_mono : forall re lib fuel s r, substitute_macros fuel re lib s = Some r ->
  forall k, fuel <= k -> substitute_macros k re lib s = Some r.
Proof.
  intros re lib. induction fuel as [|fuel IH]; intros s r H k Hk; [ discriminate | ].
  destruct k as [|k]; [ lia | ]. cbn [substitute_macros] in *.
  destruct (substitute_once re lib s) as [[q| | ]|]; auto.
  destruct (String.eqb q s); auto. apply (IH q); auto. lia.
Qed.
Lemma result_fixed : forall re lib fuel s q, substitute_macros fuel re lib s = Some (Ok q) ->
  forall k, substitute_macros (S k) re lib q = Some (Ok q).
Proof.
  intros re lib. induction fuel as [|fuel IH]; intros s q H k; [ discriminate | ]. cbn [substitute_macros] in H.
  destruct (substitute_once re lib s) as [[q'| | ]|] eqn:E; try discriminate.
  destruct (String.eqb_spec q' s) as [->|_].
  - injection H as <-. cbn [substitute_macros]. rewrite E. now rewrite String.eqb_refl.
  - now apply (IH q').
Qed.

(** ** Calls with arguments *)
Lemma chunks_err : forall re lib l, (exists pc, In pc l /\ bad_call lib (snd pc)) ->
  Forall (fun pc => plain_call (snd pc)) l -> expand_chunks re lib l = Err \/ expand_chunks re lib l = Panic.
Proof.
  intros re lib. induction l as [|[p c] l IH]; intros (pc & Hin & Hb) F; cbn [expand_chunks]; [ destruct Hin | destruct Hin as [<-|Hin] ].
  - left. now rewrite bad_call_err.
  - inversion F; subst. destruct (expand_call re lib c); [ | now left | now right ]. cbn [rbind].
    destruct IH as [-> | ->]; eauto.
Qed.
Lemma bad_rounds : forall re lib l suffix s fuel, spells l suffix s ->
  Forall (fun pc => no_tick (fst pc)) l -> no_tick suffix -> Forall (fun pc => plain_call (snd pc)) l ->
  (exists pc, In pc l /\ bad_call lib (snd pc)) ->
  forall q, substitute_macros fuel re lib s <> Some (Ok q).
Proof.
  intros re lib l suffix s fuel HS F1 F2 F3 HB q. destruct fuel as [|fuel]; [ discriminate | ].
  cbn [substitute_macros]. unfold substitute_once. rewrite (detect_complete l suffix s) by auto.
  cbn [rbind fst]. destruct (chunks_err re lib l HB F3) as [-> | ->]; discriminate.
Qed.
Lemma chunks_ok : forall re lib l suffix u, expanded lib l suffix u ->
  exists body, expand_chunks re lib l = Ok body /\ u = body ++ suffix.
Proof.
  intros re lib l suffix u H. induction H as [suffix | piece c v l suffix s He H IH].
  - exists "". auto.
  - destruct IH as (body & E1 & ->). exists (piece ++ v ++ body). cbn [expand_chunks].
    rewrite (expand_ok re lib c v He). cbn [rbind]. rewrite E1. split; [ reflexivity | now rewrite !append_assoc_s ].
Qed.
Lemma expanded_rounds : forall re lib l suffix s u, spells l suffix s ->
  Forall (fun pc => no_tick (fst pc)) l -> no_tick suffix -> Forall (fun pc => plain_call (snd pc)) l ->
  expanded lib l suffix u -> no_tick u ->
  exists n r, (forall fuel, n <= fuel -> substitute_macros fuel re lib s = Some (Ok r)) /\ trimmed u r.
Proof.
  intros re lib l suffix s u HS F1 F2 F3 HX HT.
  destruct (chunks_ok re lib l suffix u HX) as (body & EB & ->).
  destruct (tidy_split (body ++ suffix)) as (a & b & E & Ha & Hb).
  destruct (String.eqb_spec (tidy (body ++ suffix)) s) as [X|X].
  - destruct (tidy_split s) as (a' & b' & E' & _).
    assert (no_tick s) by (rewrite <- X; eapply part_no_tick; eauto).
    destruct (plain_rounds re lib (S (String.length (body ++ suffix))) (body ++ suffix) HT ltac:(lia)) as (r & E1 & T).
    exists 1, r. split; auto. intros fuel Hf. destruct fuel as [|fuel]; [ lia | ].
    cbn [substitute_macros] in *. rewrite once_plain in E1 by auto. rewrite X in E1.
    unfold substitute_once. rewrite (detect_complete l suffix s) by auto. cbn [rbind fst snd]. rewrite EB. cbn [rbind].
    rewrite X, String.eqb_refl.
    destruct (String.eqb_spec s (body ++ suffix)) as [Y|Y]; [ exact E1 | ].
    assert (substitute_once re lib s = Some (Ok s)) as Z.
    { unfold substitute_once. rewrite (detect_complete l suffix s) by auto. cbn [rbind fst snd]. rewrite EB. cbn [rbind]. now rewrite X. }
    destruct (String.length (body ++ suffix)) as [|k]; [ discriminate | ]. cbn [substitute_macros] in E1.
    rewrite Z, String.eqb_refl in E1. exact E1.
  - destruct (plain_rounds re lib (S (String.length (tidy (body ++ suffix)))) (tidy (body ++ suffix))) as (r & E1 & a' & b' & E2 & Ha' & Hb' & N).
    { eapply part_no_tick; eauto. }
    { lia. }
    exists (S (S (String.length (tidy (body ++ suffix))))), r. split.
    + intros fuel Hf. destruct fuel as [|fuel]; [ lia | ]. cbn [substitute_macros].
      unfold substitute_once. rewrite (detect_complete l suffix s) by auto. cbn [rbind fst snd]. rewrite EB. cbn [rbind].
      destruct (String.eqb_spec (tidy (body ++ suffix)) s); [ contradiction | ].
      eapply rounds_mono; [ exact E1 | lia ].
    + exists (a ++ a'), (b' ++ b). split; [ | split; [ | split ]]; auto.
      * rewrite E, E2 at 1. now rewrite !append_assoc_s.
      * now apply all_chars_app.
      * now apply all_chars_app.
Qed.

(** ** A library on which substitution never ends *)
Definition growing : Macros := fun n => if String.eqb n "x" then Some (mkMacro [] "`x` a") else None.
Fixpoint tail_a (k : nat) : string := match k with O => "" | S k' => " a" ++ tail_a k' end.
Lemma tail_no_tick : forall k, no_tick (tail_a k).
Proof. induction k; [ exact I | ]. split; [ discriminate | ]. split; [ discriminate | exact IHk ]. Qed.
Lemma tail_end : forall k, rstrip_by py_space (tail_a k) = tail_a k /\ rstrip_by is_pipe (tail_a k) = tail_a k.
Proof.
  induction k as [|k [I1 I2]]; [ now split | ].
  change (tail_a (S k)) with (String " " (String "a" (tail_a k))). cbn [rstrip_by].
  rewrite I1, I2. destruct (tail_a k); split; reflexivity.
Qed.
Lemma tidy_tail : forall k, tidy ("`x`" ++ tail_a k) = "`x`" ++ tail_a k.
Proof.
  intro k. destruct (tail_end k) as [I1 I2]. unfold tidy.
  assert (A : rstrip_by py_space ("`x`" ++ tail_a k) = "`x`" ++ tail_a k).
  { cbn [String.append rstrip_by]. rewrite I1. destruct (tail_a k); reflexivity. }
  assert (B : rstrip_by is_pipe ("`x`" ++ tail_a k) = "`x`" ++ tail_a k).
  { cbn [String.append rstrip_by]. rewrite I2. destruct (tail_a k); reflexivity. }
  rewrite A, B. change (lstrip_by py_space ("`x`" ++ tail_a k)) with ("`x`" ++ tail_a k). exact A.
Qed.
Lemma growing_once : forall re k, substitute_once re growing ("`x`" ++ tail_a k) = Some (Ok ("`x`" ++ tail_a (S k))).
Proof.
  intros re k. unfold substitute_once.
  rewrite (detect_complete [("", mkMacroCall "x" [])] (tail_a k)).
  - cbn [rbind fst snd expand_chunks].
    change (expand_call re growing (mkMacroCall "x" [])) with (@Ok string "`x` a"). cbn [rbind].
    rewrite append_nil_r. change ((("" ++ "`x` a") ++ tail_a k)) with ("`x`" ++ tail_a (S k)).
    now rewrite tidy_tail.
  - apply (SP_call "" _ ("" ++ "x" ++ "") [] _ (tail_a k)); [ | constructor ].
    apply CT_bare; exact I.
  - constructor; [ exact I | constructor ].
  - apply tail_no_tick.
  - constructor; [ | constructor ]. split; [ | constructor ]. now apply ident_by.
Qed.
Lemma growing_never : forall re fuel k, substitute_macros fuel re growing ("`x`" ++ tail_a k) = None.
Proof.
  intros re. induction fuel as [|fuel IH]; intro k; [ reflexivity | ]. cbn [substitute_macros].
  rewrite growing_once. destruct (String.eqb_spec ("`x`" ++ tail_a (S k)) ("`x`" ++ tail_a k)) as [E|_]; [ | apply IH ].
  exfalso. apply (f_equal String.length) in E. rewrite !length_append in E. cbn in E. lia.
Qed.

(** ** Termination for libraries without recursion *)
Lemma str_app_split : forall a b c d : string, a ++ b = c ++ d ->
  (exists e, c = a ++ e /\ b = e ++ d) \/ (exists e, a = c ++ e /\ d = e ++ b).
Proof.
  induction a as [|x a IH]; intros b c d H.
  - left. exists c. auto.
  - destruct c as [|y c]; [ right; exists (String x a); auto | ].
    cbn in H. injection H as -> H. destruct (IH _ _ _ H) as [(e & -> & ->)|(e & -> & ->)]; [ left | right ]; exists e; auto.
Qed.
Lemma has_tick : forall a b, ~ no_tick (a ++ tick ++ b).
Proof. intros a b H. apply all_chars_app in H. destruct H as [_ [H _]]. now apply H. Qed.
Lemma cut_back : forall x y s b, x ++ tick ++ y = s ++ b -> no_tick b ->
  exists y', y = y' ++ b /\ s = x ++ tick ++ y'.
Proof.
  intros x y s b H N. destruct (str_app_split _ _ _ _ H) as [(e & -> & E)|(e & -> & ->)].
  - destruct e as [|c e]; cbn in E.
    + subst b. exfalso. now apply (has_tick "" y).
    + injection E as <- ->. exists e. split; [ reflexivity | now rewrite ?append_assoc_s ].
  - exfalso. now apply (has_tick e y).
Qed.
Lemma calls_back : forall s b cs, has_calls (s ++ b) cs -> no_tick b -> has_calls s cs.
Proof.
  intros s b cs (l & suffix & HS & F & N & ->) Hb.
  assert (G : exists suffix', spells l suffix' s /\ no_tick suffix').
  { remember (s ++ b) as u eqn:E. revert s E. induction HS as [suffix | piece c t l suffix u Hc HS IH]; intros s E.
    - subst. apply all_chars_app in N. exists s. split; [ constructor | apply N ].
    - inversion F; subst. replace (piece ++ tick ++ t ++ tick ++ u) with ((piece ++ tick ++ t) ++ tick ++ u) in E by now rewrite !append_assoc_s.
      apply cut_back in E; auto. destruct E as (y & -> & ->). destruct (IH H2 N y eq_refl) as (suf & HS' & N').
      exists suf. split; auto. rewrite !append_assoc_s. now constructor. }
  destruct G as (suf & HS' & N'). exists l, suf. auto.
Qed.
Lemma calls_front : forall a s cs, has_calls (a ++ s) cs -> no_tick a -> has_calls s cs.
Proof.
  induction a as [|c a IH]; intros s cs H N; [ exact H | ]. destruct N as [Nc N]. apply IH; auto.
  destruct H as (l & suffix & HS & F & Nf & ->). cbn in HS. remember (String c (a ++ s)) as u eqn:E.
  destruct HS as [suffix | piece d t l suffix u Hc HS].
  - subst. exists [], (a ++ s). split; [ constructor | ]. split; [ constructor | ]. split; [ apply Nf | reflexivity ].
  - inversion F; subst. destruct piece as [|x piece]; cbn in E; injection E as Ex E.
    + now elim Nc.
    + subst x. exists ((piece, d) :: l), suffix. rewrite <- E. split; [ now constructor | ].
      split; [ constructor; auto; apply H1 | auto ].
Qed.
Lemma calls_prefix : forall a s cs, no_tick a -> has_calls s cs -> has_calls (a ++ s) cs.
Proof.
  intros a s cs Ha (l & suffix & HS & F & N & ->). destruct HS as [suffix | piece c t l suffix u Hc HS].
  - exists [], (a ++ suffix). split; [ constructor | ]. split; [ constructor | ]. split; [ now apply all_chars_app | reflexivity ].
  - inversion F; subst. exists ((a ++ piece, c) :: l), suffix. split; [ | split; [ | split ]]; auto.
    + rewrite <- append_assoc_s. now constructor.
    + constructor; auto. now apply all_chars_app.
Qed.
Lemma calls_app : forall s1 cs1 s2 cs2, has_calls s1 cs1 -> has_calls s2 cs2 -> has_calls (s1 ++ s2) (cs1 ++ cs2)%list.
Proof.
  intros s1 cs1 s2 cs2 (l & suffix & HS & F & N & ->) H2. induction HS as [suffix | piece c t l suffix u Hc HS IH].
  - now apply calls_prefix.
  - inversion F; subst. destruct (IH H3 N) as (l' & suf & HS' & F' & N' & E).
    exists ((piece, c) :: l'), suf. split; [ | split; [ | split ]]; auto.
    + rewrite !append_assoc_s. now constructor.
    + cbn [map snd List.app]. now rewrite E.
Qed.
Lemma white_no_tick : forall b, all_chars nonpipe_white b -> no_tick b.
Proof. intros b. apply all_chars_impl. intros c [H|H] ->; [ | discriminate ]. unfold py_white in H. cbn in H. lia. Qed.
Lemma calls_tidy : forall s cs, has_calls s cs -> has_calls (tidy s) cs.
Proof.
  intros s cs H. destruct (tidy_split s) as (a & b & E & Ha & Hb). rewrite E in H.
  apply calls_front in H; [ | apply white_no_tick; eapply all_chars_impl; [ | exact Ha ]; now left ].
  apply calls_back in H; auto. now apply white_no_tick.
Qed.
Section Ranked.
  Variables (re : ReSub) (lib : Macros) (rank : string -> nat).
  Hypothesis Hlib : forall n d, lib n = Some d -> exists cs, has_calls (md_definition d) cs /\
    Forall (fun c => bare_call c /\ rank (mc_name c) < rank n) cs.
  Lemma ranked_chunks : forall l k, Forall (fun pc => no_tick (fst pc)) l ->
    Forall (fun c => bare_call c /\ rank (mc_name c) < S k) (map snd l) ->
    expand_chunks re lib l = Err \/
    exists body cs, expand_chunks re lib l = Ok body /\ has_calls body cs /\
      Forall (fun c => bare_call c /\ rank (mc_name c) < k) cs.
  Proof.
    induction l as [|[p c] l IH]; intros k F1 F2; cbn [expand_chunks].
    - right. exists "", []. split; auto. split; [ | constructor ]. exists [], "". repeat constructor.
    - inversion F1; subst. cbn [map snd] in F2. inversion F2 as [|? ? [[Hi Ha] Hr] F3]; subst.
      unfold expand_call. destruct (lib (mc_name c)) as [d|] eqn:E; [ | now left ]. cbn [of_option rbind].
      rewrite Ha. destruct (Hlib _ _ E) as (cs & Hc & Fc).
      destruct (IH k H2 F3) as [-> | (body & cs' & -> & Hb & Fb)]; [ now left | ]. cbn [rbind]. right.
      exists (p ++ md_definition d ++ body), (cs ++ cs')%list. split; auto. split.
      + apply calls_prefix; auto. now apply calls_app.
      + apply Forall_app. split; auto. eapply Forall_impl; [ | exact Fc ]. cbn. intros x [Hx Hy]. split; auto. lia.
  Qed.
  Lemma bare_plain : forall c, bare_call c -> plain_call c.
  Proof. intros c [H1 H2]. split; auto. rewrite H2. constructor. Qed.
  Lemma ranked_rounds : forall k s cs, has_calls s cs -> Forall (fun c => bare_call c /\ rank (mc_name c) < k) cs ->
    exists n r, substitute_macros n re lib s = Some r.
  Proof.
    induction k as [|k IH]; intros s cs (l & suffix & HS & F & N & ->) Hr.
    - destruct l as [|pc l].
      + inversion HS; subst. destruct (plain_rounds re lib (S (String.length s)) s N ltac:(lia)) as (r & E & _). eauto.
      + cbn [map] in Hr. inversion Hr; subst. lia.
    - assert (D : detect_macros s = Some (Ok (l, suffix))).
      { apply detect_complete; auto. rewrite Forall_map in Hr. eapply Forall_impl; [ | exact Hr ].
        cbn. intros pc [Hb _]. now apply bare_plain. }
      destruct (ranked_chunks l k F Hr) as [E|(body & cs & E & Hb & Fb)].
      + exists 1, Err. cbn [substitute_macros]. unfold substitute_once. rewrite D. cbn [rbind fst]. now rewrite E.
      + destruct (IH (tidy (body ++ suffix)) cs) as (n & r & E').
        { apply calls_tidy. rewrite <- (app_nil_r cs). apply calls_app; auto.
          exists [], suffix. split; [ constructor | ]. split; [ constructor | auto ]. }
        { exact Fb. }
        destruct (String.eqb (tidy (body ++ suffix)) s) eqn:X.
        * exists 1, (Ok (tidy (body ++ suffix))). cbn [substitute_macros]. unfold substitute_once. rewrite D. cbn [rbind fst snd].
          rewrite E. cbn [rbind]. now rewrite X.
        * exists (S n), r. cbn [substitute_macros]. unfold substitute_once. rewrite D. cbn [rbind fst snd].
          rewrite E. cbn [rbind]. now rewrite X.
  Qed.
  Lemma ranked_terminates : forall s cs, has_calls s cs -> Forall bare_call cs ->
    exists n r, forall fuel, n <= fuel -> substitute_macros fuel re lib s = Some r.
  Proof.
    intros s cs H F.
    assert (B : exists k, Forall (fun c => rank (mc_name c) < k) cs).
    { clear. induction cs as [|c cs [k IH]]; [ exists 0; constructor | ]. exists (S (max k (rank (mc_name c)))).
      constructor; [ lia | ]. eapply Forall_impl; [ | exact IH ]. cbn. intros; lia. }
    destruct B as [k B]. destruct (ranked_rounds k s cs H) as (n & r & E).
    { clear H. induction cs; constructor; inversion F; inversion B; subst; auto. }
    exists n, r. intros fuel Hf. eapply rounds_mono; eauto.
  Qed.
End Ranked.
Lemma plain_text_result : forall re lib s, no_tick s ->
  exists n r, (forall fuel, n <= fuel -> substitute_macros fuel re lib s = Some (Ok r)) /\ trimmed s r.
Proof.
  intros re lib s H. destruct (plain_rounds re lib (S (String.length s)) s H ltac:(lia)) as (r & E & T).
  exists (S (String.length s)), r. split; auto. intros fuel Hf. eapply rounds_mono; eauto.
Qed.
Lemma never_ends : exists lib s, forall re fuel, substitute_macros fuel re lib s = None.
Proof. exists growing, ("`x`" ++ tail_a 0). intros. apply growing_never. Qed.

(** ** Examples *)
Definition ex_lib : Macros := registry [("f", mkMacro ["a"; "b"] "x=$a$ OR y=$b$ OR z=$a$"); ("g", mkMacro [] "head 3")].
Lemma bad_call_example : bad_call ex_lib (mkMacroCall "f" [(None, "1")]) /\
  bad_call ex_lib (mkMacroCall "f" [(None, "1"); (Some "b", "2")]) /\
  ~ bad_call ex_lib (mkMacroCall "f" [(None, "1"); (None, "2")]).
Proof.
  unfold bad_call. cbn. split; [ | split ].
  - split; [ discriminate | left; discriminate ].
  - split; [ discriminate | right ]. split; [ exists (None, "1") | exists (Some "b", "2") ]; split; auto; discriminate.
  - intros (_ & [H|(_ & a & [<-|[<-|[]]] & H)]); auto.
Qed.
Lemma expands_example : expands ex_lib (mkMacroCall "f" [(None, "1"); (None, "2")]) "x=1 OR y=2 OR z=1".
Proof.
  apply (EX_positional ex_lib "f" _ ["1"; "2"] "x=" [("a", " OR y="); ("b", " OR z="); ("a", "")]) with (1 := eq_refl);
    try reflexivity; try discriminate.
  - repeat constructor; cbn; intuition discriminate.
  - repeat constructor; try discriminate; left; cbn; lia.
  - repeat constructor; cbn; lia || discriminate.
  - split; [ cbn; repeat split; discriminate | ]. split.
    + repeat apply Forall_cons; try apply Forall_nil; unfold param_name; cbn; repeat split; try discriminate; left; unfold letter; cbn; lia.
    + cbn. repeat split; auto; intros _ [[H|[H|H]] _]; try discriminate; unfold letter, digit in H; cbn in H; lia.
Qed.
Lemma sequential_substitution : forall re,
  exists lib s d t0 l values,
    lib "f" = Some d /\ md_definition d = template t0 l /\ plain_template t0 l /\
    NoDup (md_arguments d) /\ Forall param_name (md_arguments d) /\
    detect_macros s = Some (Ok ([("", mkMacroCall "f" (map (pair None) values))], "")) /\
    length values = length (md_arguments d) /\
    exists n q, (forall fuel, n <= fuel -> substitute_macros fuel re lib s = Some (Ok q)) /\
                ~ trimmed (instantiate (md_arguments d) values t0 l) q.
Proof.
  intro re. exists ex_lib, "`f(""$b$"", 2)`". eexists. exists "x=", [("a", " OR y="); ("b", " OR z="); ("a", "")], ["""$b$"""; "2"].
  split; [ reflexivity | ]. split; [ reflexivity | ]. split.
  { split; [ cbn; repeat split; discriminate | ]. split.
    + repeat apply Forall_cons; try apply Forall_nil; unfold param_name; cbn; repeat split; try discriminate; left; unfold letter; cbn; lia.
    + cbn. repeat split; auto; intros _ [[H|[H|H]] _]; try discriminate; unfold letter, digit in H; cbn in H; lia. }
  split; [ repeat constructor; cbn; intuition discriminate | ].
  split; [ repeat constructor; try discriminate; left; cbn; lia | ].
  split; [ vm_compute; reflexivity | ]. split; [ reflexivity | ].
  exists 2, "x=""2"" OR y=2 OR z=""2""". split.
  - intros fuel Hf. now apply (rounds_mono re ex_lib 2).
  - intros (a & b & E & Ha & _). destruct a as [|c a]; cbn in E; [ discriminate | ].
    injection E as <- _. destruct Ha as [Ha _]. unfold py_white in Ha. cbn in Ha. lia.
Qed.
Definition ex_ranked : Macros := registry [("a", mkMacro [] "`b` OR `b`"); ("b", mkMacro [] "x=1")].
Lemma ranked_example :
  substitute_macros 9 (fun _ _ _ => Err) ex_ranked "index=i `a` `b`" = Some (Ok "index=i x=1 OR x=1 x=1") /\
  forall n d, ex_ranked n = Some d -> exists cs, has_calls (md_definition d) cs /\
     Forall (fun c => bare_call c /\ (if (mc_name c =? "a")%string then 1 else 0) < (if (n =? "a")%string then 1 else 0)) cs.
Proof.
  split; [ vm_compute; reflexivity | ]. intros n d H. unfold ex_ranked, registry in H.
  destruct (String.eqb_spec "b" n) as [<-|_].
  - injection H as <-. exists []. split; [ | constructor ]. exists [], "x=1".
    split; [ constructor | ]. split; [ constructor | ]. split; [ cbn; repeat split; discriminate | reflexivity ].
  - destruct (String.eqb_spec "a" n) as [<-|_]; [ | discriminate ]. injection H as <-. cbn [md_definition].
    assert (CT : call_text (mkMacroCall "b" []) "b") by exact (CT_bare "b" "" "" I I).
    exists [mkMacroCall "b" []; mkMacroCall "b" []]. split.
    + exists [("", mkMacroCall "b" []); (" OR ", mkMacroCall "b" [])], "". split; [ | split; [ | split; [ exact I | reflexivity ]]].
      * apply (SP_call "" _ "b" _ _ " OR `b`" CT). apply (SP_call " OR " _ "b" _ _ "" CT). constructor.
      * repeat apply Forall_cons; try apply Forall_nil; cbn; repeat split; discriminate.
    + repeat apply Forall_cons; try apply Forall_nil; (split; [ split; [ now apply ident_by | reflexivity ] | cbn; lia ]).
Qed.
