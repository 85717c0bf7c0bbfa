(** The texts the model of tonumber reads are exactly the numbers of SpecUdf. *)
From Coq Require Import String Ascii List Bool ZArith Lia.
Import ListNotations.
From Verif Require Import Str Lexer Macros SpecUdf Udfs UdfFacts.
Open Scope list_scope.
Open Scope string_scope.
Open Scope Z_scope.

(** ** White space *)
Lemma white_space : forall c, py_space c = true <-> In (nat_of_ascii c) [9; 10; 11; 12; 13; 28; 29; 30; 31; 32; 133; 160]%nat.
Proof. intro c. destruct c as [[] [] [] [] [] [] [] []]; vm_compute; split; intro H; intuition (try discriminate). Qed.
Lemma white_all : forall s, white s <-> sforall py_space s = true.
Proof.
  induction s as [|c s IH]; [ split; [ reflexivity | intros _; constructor ] | ]. unfold white in *. cbn [list_ascii_of_string sforall]. split; intro H.
  - inversion H as [|? ? H1 H2]; subst. apply white_space in H1. rewrite H1. now apply IH.
  - apply andb_prop in H as [H1 H2]. constructor; [ now apply white_space | now apply IH ].
Qed.
Lemma lstrip_cut : forall f s, exists w, s = w ++ lstrip_by f s /\ sforall f w = true.
Proof.
  intros f s. induction s as [|c s (w & E & W)]; [ now exists "" | ]. cbn [lstrip_by]. destruct (f c) eqn:C.
  - exists (String c w). cbn [append sforall]. rewrite C, W. now rewrite <- E.
  - now exists "".
Qed.
Lemma rstrip_cut : forall f s, exists w, s = rstrip_by f s ++ w /\ sforall f w = true.
Proof.
  intros f s. induction s as [|c s (w & E & W)]; [ now exists "" | ]. cbn [rstrip_by]. destruct (rstrip_by f s) as [|d t] eqn:R.
  - cbn [append] in E. subst w. destruct (f c) eqn:C.
    + exists (String c s). cbn [append sforall]. now rewrite C, W.
    + exists s. now split.
  - exists w. cbn [append]. cbn [append] in E. now rewrite <- E.
Qed.
Lemma strip_cut : forall s, exists w w', s = w ++ py_strip s ++ w' /\ white w /\ white w'.
Proof.
  intro s. destruct (lstrip_cut py_space s) as (w & E & W). destruct (rstrip_cut py_space (lstrip_by py_space s)) as (w' & E' & W').
  exists w, w'. unfold py_strip. rewrite <- E'. now rewrite !white_all.
Qed.
Lemma lstrip_white : forall f w t, sforall f w = true -> lstrip_by f (w ++ t) = lstrip_by f t.
Proof. intros f. induction w as [|c w IH]; intros t H; [ reflexivity | ]. cbn [sforall] in H. apply andb_prop in H as [H1 H2]. cbn. rewrite H1. now apply IH. Qed.
Lemma rstrip_white_all : forall f w, sforall f w = true -> rstrip_by f w = "".
Proof. intros f. induction w as [|c w IH]; intros H; [ reflexivity | ]. cbn [sforall] in H. apply andb_prop in H as [H1 H2]. cbn. now rewrite (IH H2), H1. Qed.
Lemma rstrip_white : forall f t w, sforall f w = true -> rstrip_by f (t ++ w) = rstrip_by f t.
Proof. intros f. induction t as [|c t IH]; intros w H; [ now apply rstrip_white_all | ]. cbn. now rewrite (IH _ H). Qed.
Lemma strip_white : forall w t w', white w -> white w' -> sforall (fun c => negb (py_space c)) t = true -> t <> "" -> py_strip (w ++ t ++ w') = t.
Proof.
  intros w t w' H H' T N. apply white_all in H, H'. unfold py_strip. rewrite lstrip_white by exact H.
  destruct t as [|c t]; [ contradiction | ]. cbn [append lstrip_by]. pose proof T as T'. cbn [sforall] in T'. apply andb_prop in T' as [T1 _]. apply negb_true_iff in T1. rewrite T1.
  change (String c (t ++ w')) with (String c t ++ w'). rewrite rstrip_white by exact H'. now apply rstrip_none.
Qed.

(** ** Digits *)
Definition later_full (l : list string) : Prop := match l with _ :: gs => Forall (fun g => g <> "") gs | [] => False end.
Lemma split_nonempty : forall c s, split_on c s <> [].
Proof. intros c s. destruct s as [|d s]; [ discriminate | ]. cbn. destruct (Ascii.eqb c d); [ discriminate | ]. destruct (split_on c s); discriminate. Qed.
Lemma digit_below : forall base c, base <= 36 -> (digit_of c <? base) = true ->
  exists v, digit_value c = Some v /\ v < base /\ digit_of c = v /\ Ascii.eqb c "_" = false /\ Ascii.eqb "_" c = false.
Proof.
  intros base c B H. apply Z.ltb_lt in H. pose proof (digit_value_of c) as V. destruct (digit_value c) as [v|]; [ | lia ].
  destruct V as (V & _ & U & _). exists v. assert (Ascii.eqb "_" c = false) by (now rewrite Ascii.eqb_sym). repeat split; try assumption; lia.
Qed.
Lemma digit_known : forall base c v, digit_value c = Some v -> v < base ->
  digit_of c = v /\ (digit_of c <? base) = true /\ Ascii.eqb c "_" = false /\ Ascii.eqb "_" c = false.
Proof.
  intros base c v D L. pose proof (digit_value_of c) as V. rewrite D in V. destruct V as (V & _ & U & _). rewrite V.
  assert (Ascii.eqb "_" c = false) by (now rewrite Ascii.eqb_sym). assert ((v <? base) = true) by (now apply Z.ltb_lt). repeat split; assumption.
Qed.
Lemma split_digit : forall c s, Ascii.eqb "_" c = false -> exists h, split_on "_" (String c s) = String c h :: tl (split_on "_" s) /\ hd "" (split_on "_" s) = h.
Proof.
  intros c s H. cbn [split_on]. rewrite H. pose proof (split_nonempty "_" s) as N. destruct (split_on "_" s) as [|h t]; [ contradiction | ]. now exists h.
Qed.
Lemma later_cons : forall s, later_full (split_on "_" s) <-> Forall (fun g => g <> "") (tl (split_on "_" s)).
Proof. intro s. pose proof (split_nonempty "_" s) as N. destruct (split_on "_" s); [ contradiction | reflexivity ]. Qed.
Lemma digits_exact : forall base n k s acc, base <= 36 -> (String.length s <= k)%nat ->
  int_digits base acc s = Some n <-> numeral_from base acc (without_char "_" s) n /\ later_full (split_on "_" s).
Proof.
  intros base n k. induction k as [|k IH]; intros s acc B L.
  { destruct s; [ | cbn in L; lia ]. cbn. split.
    - intro E. injection E as ->. split; constructor.
    - intros [E _]. now inversion E. }
  destruct s as [|c s].
  { cbn. split.
    - intro E. injection E as ->. split; constructor.
    - intros [E _]. now inversion E. }
  cbn [int_digits without_char]. rewrite (Ascii.eqb_sym "_" c). destruct (Ascii.eqb c "_") eqn:C.
  - apply Ascii.eqb_eq in C as ->. cbn [split_on]. change (Ascii.eqb "_" "_") with true. cbv iota. cbn [later_full]. destruct s as [|d t].
    { split; [ discriminate | ]. cbn. intros [_ H]. inversion H; congruence. }
    cbn [String.length] in L. destruct (digit_of d <? base) eqn:D.
    + destruct (digit_below _ _ B D) as (v & V & G & E & U1 & U2). rewrite IH by (assumption || lia).
      destruct (split_digit d t U2) as (h & S & _). rewrite S. cbn [without_char]. rewrite U2, E, later_cons. split; intros [H1 H2].
      * split; [ econstructor; eassumption | ]. constructor; [ discriminate | exact H2 ].
      * inversion H1 as [|? ? v' ? ? D' G' H1']; subst. rewrite V in D'. injection D' as <-. inversion H2. now split.
    + split; [ discriminate | ]. intros [H1 H2]. exfalso. destruct (Ascii.eqb "_" d) eqn:U.
      { cbn [split_on] in H2. rewrite U in H2. inversion H2. congruence. }
      cbn [without_char] in H1. rewrite U in H1. inversion H1 as [|? ? v' ? ? D' G' _]; subst.
      destruct (digit_known base _ _ D' G') as (_ & K & _). congruence.
  - cbn [String.length] in L. destruct (digit_of c <? base) eqn:D.
    + destruct (digit_below _ _ B D) as (v & V & G & E & U1 & U2). rewrite IH by (assumption || lia).
      destruct (split_digit c s U2) as (h & S & _). rewrite S, E, later_cons. cbn [later_full]. split; intros [H1 H2].
      * split; [ econstructor; eassumption | exact H2 ].
      * inversion H1 as [|? ? v' ? ? D' G' H1']; subst. rewrite V in D'. injection D' as <-. now split.
    + split; [ discriminate | ]. intros [H1 H2]. exfalso. inversion H1 as [|? ? v' ? ? D' G' _]; subst.
      destruct (digit_known base _ _ D' G') as (_ & K & _). congruence.
Qed.
Lemma number_exact : forall base n s, base <= 36 -> int_number base s = Some n <-> spaced_numeral base s n.
Proof.
  intros base n s B. unfold spaced_numeral, numeral. destruct s as [|c s].
  { split; [ discriminate | ]. intros [[H _] _]. now contradiction H. }
  cbn [int_number without_char]. destruct (digit_of c <? base) eqn:D.
  - destruct (digit_below _ _ B D) as (v & V & G & E & U1 & U2). rewrite (digits_exact _ _ _ s _ B (le_n _)).
    destruct (split_digit c s U2) as (h & S & _). rewrite S, E, later_cons, U2. split.
    + intros [H1 H2]. split; [ split; [ discriminate | ] | constructor; [ discriminate | exact H2 ] ]. econstructor; eassumption.
    + intros [[_ H1] H2]. inversion H1 as [|? ? v' ? ? D' G' H1']; subst. rewrite V in D'. injection D' as <-. inversion H2. now split.
  - split; [ discriminate | ]. intros [[_ H1] H2]. exfalso. destruct (Ascii.eqb "_" c) eqn:U.
    { apply Ascii.eqb_eq in U as <-. cbn [split_on] in H2. change (Ascii.eqb "_" "_") with true in H2. inversion H2. congruence. }
    inversion H1 as [|? ? v' ? ? D' G' _]; subst. destruct (digit_known base _ _ D' G') as (_ & K & _). congruence.
Qed.
Lemma count_without : forall s, count_digits s = Z.of_nat (String.length (without_char "_" s)).
Proof.
  induction s as [|c s IH]; [ reflexivity | ]. cbn [count_digits without_char]. rewrite (Ascii.eqb_sym c), IH. destruct (Ascii.eqb "_" c); [ lia | ].
  cbn [String.length]. lia.
Qed.
Lemma long_exact : forall base s, too_long base s = false <-> short base (without_char "_" s).
Proof.
  intros base s. unfold too_long, short. rewrite count_without. unfold max_digits. destruct (existsb (Z.eqb base) [2; 4; 8; 16; 32]) eqn:E; cbn [negb andb].
  - split; [ | reflexivity ]. intros _. right. apply existsb_exists in E as (b & I & E). apply Z.eqb_eq in E as ->. exact I.
  - rewrite Z.ltb_ge. split; [ intro H; now left | ]. intros [H|H]; [ exact H | ]. exfalso.
    assert (existsb (Z.eqb base) [2; 4; 8; 16; 32] = true); [ | congruence ]. apply existsb_exists. exists base. now rewrite Z.eqb_refl.
Qed.

(** ** Prefixes *)
Lemma app_len_inj : forall a b x y : string, String.length a = String.length b -> a ++ x = b ++ y -> x = y.
Proof.
  induction a as [|c a IH]; intros [|d b] x y L E; try discriminate L; [ exact E | ]. cbn in L, E. injection L as L. injection E as _ E. now apply (IH b).
Qed.
Definition has_prefix (base : Z) (s : string) : Prop := exists q t, In (base, q) base_prefixes /\ s = q ++ t.
Lemma prefix_cut : forall base s, (exists q t, In (base, q) base_prefixes /\ s = q ++ t /\
    skip_prefix base s = match t with String u t' => if Ascii.eqb u "_" then t' else t | EmptyString => t end)
  \/ (skip_prefix base s = s /\ ~ has_prefix base s).
Proof.
  intros base s. destruct s as [|z [|x t]].
  - right. split; [ reflexivity | ]. intros (q & t & I & E). cbn in I. repeat (destruct I as [I|I]; [ injection I as <- <-; discriminate E | ]). exact I.
  - right. split; [ reflexivity | ]. intros (q & t & I & E). cbn in I. repeat (destruct I as [I|I]; [ injection I as <- <-; discriminate E | ]). exact I.
  - cbn [skip_prefix]. destruct (Ascii.eqb z "0" && _) eqn:C.
    + left. apply andb_prop in C as [C1 C2]. apply Ascii.eqb_eq in C1 as ->. exists (String "0" (String x "")), t. split; [ | now split ].
      apply orb_prop in C2 as [C2|C2]; [ apply orb_prop in C2 as [C2|C2] | ]; apply andb_prop in C2 as [C2 C3]; apply Z.eqb_eq in C2 as ->;
        apply Ascii.eqb_eq in C3; revert C3; destruct x as [[] [] [] [] [] [] [] []]; vm_compute; intro C3; try discriminate C3; tauto.
    + right. split; [ reflexivity | ]. intros (q & t' & I & E). cbn in I.
      repeat (destruct I as [I|I]; [ injection I as <- <-; cbn [append] in E; injection E as -> -> _; vm_compute in C; discriminate C | ]). exact I.
Qed.
Lemma no_prefix_numeral : forall base d n, spaced_numeral base d n -> ~ has_prefix base d.
Proof.
  intros base d n [[_ H] _] (q & t & I & ->).
  assert (exists x v, q = String "0" (String x "") /\ Ascii.eqb "_" x = false /\ digit_value x = Some v /\ base <= v) as (x & v & -> & U & V & L).
  { cbn in I. repeat (destruct I as [I|I]; [ injection I as <- <-; eexists _, _; split; [ reflexivity | ]; split; [ reflexivity | ]; split; [ vm_compute; reflexivity | lia ] | ]). contradiction. }
  cbn [append without_char] in H. rewrite U in H. change (Ascii.eqb "_" "0") with false in H. cbv iota in H.
  inversion H as [|? ? ? ? ? _ _ H']; subst. inversion H' as [|? ? v' ? ? D L' _]; subst. rewrite V in D. injection D as ->. lia.
Qed.
Lemma first_no_underscore : forall base d n, spaced_numeral base d n -> match d with String u _ => Ascii.eqb u "_" = false | EmptyString => False end.
Proof.
  intros base d n [[N H] G]. destruct d as [|u d]; [ now apply N | ]. destruct (Ascii.eqb_spec u "_") as [->|]; [ | reflexivity ].
  cbn in G. inversion G. congruence.
Qed.
Lemma unsigned_exact : forall base s n, base <= 36 ->
  unsigned base s = Some n <-> exists mark d, s = mark ++ d /\ prefix_mark base mark /\ spaced_numeral base d n /\ short base (without_char "_" d).
Proof.
  intros base s n B. unfold unsigned. split.
  - destruct (too_long base (skip_prefix base s)) eqn:L; [ discriminate | ]. intro H. apply number_exact in H; [ | exact B ]. apply long_exact in L.
    destruct (prefix_cut base s) as [(q & t & I & E & K)|[K _]].
    + rewrite K in H, L. subst s. destruct t as [|u t'].
      { exists q, "". repeat split; try apply H; try exact L. right. exists q. tauto. }
      destruct (Ascii.eqb_spec u "_") as [->|].
      * exists (q ++ "_"), t'. split; [ now rewrite app_assoc_s | ]. split; [ right; exists q; tauto | now split ].
      * exists q, (String u t'). split; [ reflexivity | ]. split; [ right; exists q; tauto | now split ].
    + rewrite K in H, L. exists "", s. split; [ reflexivity | ]. split; [ now left | now split ].
  - intros (mark & d & -> & M & H & L).
    assert (skip_prefix base (mark ++ d) = d) as ->.
    { destruct M as [->|(q & I & M)].
      - cbn [append]. destruct (prefix_cut base d) as [(q & t & I & E & _)|[K _]]; [ | exact K ]. exfalso. apply (no_prefix_numeral _ _ _ H). now exists q, t.
      - destruct (prefix_cut base (mark ++ d)) as [(q' & t & I' & E & K)|[_ K]].
        + rewrite K. clear K. assert (String.length q = String.length q') as LE.
          { cbn in I, I'. repeat (destruct I as [I|I]; [ injection I as _ <-; repeat (destruct I' as [I'|I']; [ injection I' as _ <-; reflexivity | ]); contradiction | ]). contradiction. }
          destruct M as [->| ->].
          * assert (t = d) as -> by (eapply app_len_inj; [ symmetry; exact LE | symmetry; exact E ]).
            pose proof (first_no_underscore _ _ _ H) as F. destruct d as [|u d]; [ contradiction | ]. now rewrite F.
          * rewrite app_assoc_s in E. assert (t = "_" ++ d) as -> by (eapply app_len_inj; [ symmetry; exact LE | symmetry; exact E ]). reflexivity.
        + exfalso. apply K. destruct M as [->| ->]; [ now exists q, d | ]. exists q, ("_" ++ d). split; [ exact I | now rewrite app_assoc_s ]. }
    apply long_exact in L. rewrite L. now apply number_exact.
Qed.

(** ** tonumber *)
Lemma mark_chars : forall base p, prefix_mark base p -> sforall (fun c => negb (py_space c)) p = true /\
  (forall t, p <> "" -> exists t', p ++ t = String "0" t').
Proof.
  intros base p [->|(q & I & M)]; [ split; [ reflexivity | intros t N; now contradiction N ] | ]. cbn in I.
  repeat (destruct I as [I|I]; [ injection I as <- <-; destruct M as [->| ->]; split; try reflexivity; intros t _; eexists; reflexivity | ]). contradiction.
Qed.
Lemma digits_spaceless : forall base acc d n, numeral_from base acc (without_char "_" d) n -> sforall (fun c => negb (py_space c)) d = true.
Proof.
  intros base acc d n. revert acc. induction d as [|c d IH]; intros acc H; [ reflexivity | ]. cbn [without_char] in H. cbn [sforall].
  destruct (Ascii.eqb_spec "_" c) as [<-|].
  - now rewrite (IH _ H).
  - inversion H as [|? ? v ? ? D L H']; subst. pose proof (digit_value_of c) as V. rewrite D in V. destruct V as (_ & _ & _ & V & _).
    now rewrite V, (IH _ H').
Qed.
Lemma sforall_app_s : forall f a b, sforall f (a ++ b) = sforall f a && sforall f b.
Proof. intros f. induction a as [|c a IH]; intro b; [ reflexivity | ]. cbn. now rewrite IH, andb_assoc. Qed.
Lemma no_sign : forall base p d n, prefix_mark base p -> spaced_numeral base d n -> exists c t, p ++ d = String c t /\ Ascii.eqb c "-" = false /\ Ascii.eqb c "+" = false.
Proof.
  intros base p d n M S. destruct (mark_chars _ _ M) as [_ K]. destruct p as [|x p].
  - pose proof (first_no_underscore _ _ _ S) as F. destruct d as [|c d]; [ contradiction | ]. exists c, d. split; [ reflexivity | ].
    destruct S as [[_ S] _]. cbn [without_char] in S. rewrite Ascii.eqb_sym, F in S. inversion S as [|? ? v ? ? D L _]; subst.
    pose proof (digit_value_of c) as V. rewrite D in V. tauto.
  - destruct (K d) as (t' & E); [ discriminate | ]. exists "0"%char, t'. split; [ exact E | ]. now split.
Qed.
Lemma tonumber_exact : forall guess base s z, 2 <= base <= 36 -> tonumber guess (UStr s) base = UInt z <-> number_text base s z.
Proof.
  intros guess base s z B. destruct (in_range _ B) as [B1 B2]. unfold tonumber, py_int. rewrite B1, B2. assert (L : base <= 36) by lia. split.
  - intro H. destruct (strip_cut s) as (w & w' & E & W & W'). destruct (py_strip s) as [|c t]; [ discriminate | ].
    assert (K : forall sign m u, String c t = sign ++ u -> unsigned base u = Some m -> In (sign, z) [("", m); ("+", m); ("-", - m)] -> number_text base s z).
    { intros sign m u Eu U I. apply unsigned_exact in U as (mark & d & -> & M & S & G); [ | exact L ]. exists w, sign, mark, d, w', m.
      split; [ | exact (conj W (conj W' (conj M (conj S (conj G I))))) ]. rewrite E, Eu, !app_assoc_s. reflexivity. }
    destruct (Ascii.eqb c "-") eqn:C1; [ | destruct (Ascii.eqb c "+") eqn:C2 ].
    + apply Ascii.eqb_eq in C1 as ->. destruct (unsigned base t) as [m|] eqn:U; [ | discriminate ]. cbn in H. injection H as <-.
      apply (K "-" m t); [ reflexivity | exact U | cbn; tauto ].
    + apply Ascii.eqb_eq in C2 as ->. destruct (unsigned base t) as [m|] eqn:U; [ | discriminate ]. cbn in H. injection H as <-.
      apply (K "+" m t); [ reflexivity | exact U | cbn; tauto ].
    + destruct (unsigned base (String c t)) as [m|] eqn:U; [ | discriminate ]. injection H as <-.
      apply (K "" m (String c t)); [ reflexivity | exact U | cbn; tauto ].
  - intros (w & sign & mark & d & w' & n & -> & W & W' & M & S & G & I).
    assert (U : unsigned base (mark ++ d) = Some n) by (apply unsigned_exact; [ exact L | ]; now exists mark, d).
    destruct (no_sign _ _ _ _ M S) as (c & t & E & N1 & N2).
    assert (F : sforall (fun c => negb (py_space c)) (mark ++ d) = true).
    { rewrite sforall_app_s. destruct (mark_chars _ _ M) as [-> _]. destruct S as [[_ S] _]. now rewrite (digits_spaceless _ _ _ _ S). }
    replace (w ++ sign ++ mark ++ d ++ w') with (w ++ (sign ++ mark ++ d) ++ w') by (now rewrite !app_assoc_s).
    cbn in I. destruct I as [I|[I|[I|[]]]]; injection I as <- <-.
    + cbn [append]. rewrite strip_white; [ | exact W | exact W' | exact F | rewrite E; discriminate ].
      rewrite E in *. now rewrite N1, N2, U.
    + rewrite strip_white; [ | exact W | exact W' | now rewrite sforall_app_s, F | discriminate ]. cbn [append].
      change (Ascii.eqb "+" "-") with false. change (Ascii.eqb "+" "+") with true. cbv iota. now rewrite U.
    + rewrite strip_white; [ | exact W | exact W' | now rewrite sforall_app_s, F | discriminate ]. cbn [append].
      change (Ascii.eqb "-" "-") with true. cbv iota. now rewrite U.
Qed.
Lemma tonumber_texts : forall guess base s, 2 <= base <= 36 ->
  (forall z, tonumber guess (UStr s) base = UInt z <-> number_text base s z) /\
  ((forall z, ~ number_text base s z) -> tonumber guess (UStr s) base = UNull).
Proof.
  intros guess base s B. assert (K : forall z, tonumber guess (UStr s) base = UInt z <-> number_text base s z) by (intro z; now apply tonumber_exact).
  split; [ exact K | ]. intro N. destruct (tonumber guess (UStr s) base) as [| | |z|] eqn:E; try (unfold tonumber in E; destruct (py_int guess base s); discriminate E); [ reflexivity | ].
  exfalso. apply (N z). now apply K.
Qed.
