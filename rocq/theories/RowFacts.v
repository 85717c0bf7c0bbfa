(** Facts: the column generated for an expression computes the expression's value. *)
From Coq Require Import Decimal DecimalString DecimalFacts.
From Verif Require Import Str SplAst PyAst Functions Transpile SpecPy SpecCol SpecSpark SpecRows FrameFacts.
Open Scope list_scope.

(** ** Wildcards *)
Definition star_to_percent (c : ascii) : ascii := if Ascii.eqb c "*" then "%"%char else c.
Lemma wildcard_smap : forall p, wildcard_to_like p = smap star_to_percent p.
Proof.
  unfold wildcard_to_like, replace_all.
  induction p as [|c p IH]; [ reflexivity | ].
  cbn [replace_go smap]. unfold star_to_percent at 1, starts_with. cbn [strip_prefix]. rewrite Ascii.eqb_sym.
  destruct (Ascii.eqb c "*") eqn:E.
  - destruct p; cbn [strip_prefix String.length pred append]; now rewrite IH.
  - now rewrite IH.
Qed.
Lemma like_wild : forall p s,
  sforall (fun c => negb (Ascii.eqb c "%" || Ascii.eqb c "_" || Ascii.eqb c "\")) p = true ->
  like (wildcard_to_like p) s = wild p s.
Proof.
  intros p s H. rewrite wildcard_smap. revert s.
  induction p as [|c p IH]; intro s; [ reflexivity | ].
  cbn [sforall] in H. apply andb_true_iff in H. destruct H as [Hc Hp]. specialize (IH Hp).
  apply negb_true_iff in Hc. apply orb_false_iff in Hc. destruct Hc as [Hc H3].
  apply orb_false_iff in Hc. destruct Hc as [H1 H2].
  cbn [smap]. destruct (Ascii.eqb c "*") eqn:E.
  - replace (star_to_percent c) with "%"%char by (unfold star_to_percent; now rewrite E).
    cbn [like wild]. rewrite E. change (Ascii.eqb "%" "%") with true. cbv beta iota.
    induction s as [|d s IHs]; rewrite IH; [ reflexivity | ]. now rewrite IHs.
  - replace (star_to_percent c) with c by (unfold star_to_percent; now rewrite E).
    cbn [like wild]. rewrite H1, H2, H3, E. destruct s; [ reflexivity | ]. now rewrite IH.
Qed.
Lemma wild_any : forall p s,
  (fix any (s : string) : bool := wild p s || match s with String _ s' => any s' | EmptyString => false end) s = true
  <-> exists run rest, s = (run ++ rest)%string /\ wild p rest = true.
Proof.
  induction s as [|c s IH].
  - split.
    + intro H. rewrite orb_false_r in H. now exists ""%string, ""%string.
    + intros (run & rest & E & H). destruct run; [ | discriminate ]. cbn in E. subst rest. now rewrite H.
  - rewrite orb_true_iff, IH. split.
    + intros [H | (run & rest & -> & H)].
      * now exists ""%string, (String c s).
      * now exists (String c run), rest.
    + intros (run & rest & E & H). destruct run as [|d run].
      * left. cbn in E. now subst rest.
      * right. injection E as -> ->. now exists run, rest.
Qed.
Lemma wild_matches : forall p s, wild p s = true <-> Matches p s.
Proof.
  induction p as [|c p IH]; intro s.
  - split; [ destruct s; [ constructor | discriminate ] | now inversion 1 ].
  - cbn [wild]. destruct (Ascii.eqb c "*") eqn:E.
    + apply Ascii.eqb_eq in E. subst c. rewrite wild_any. split.
      * intros (run & rest & -> & H). apply MStar. now apply IH.
      * intro H. inversion H; subst; [ congruence | ]. exists run, s0. split; [ reflexivity | now apply IH ].
    + apply Ascii.eqb_neq in E. split.
      * destruct s as [|d s]; [ discriminate | ]. rewrite andb_true_iff. intros [Hd H].
        apply Ascii.eqb_eq in Hd. subst d. constructor; [ assumption | now apply IH ].
      * intro H. inversion H; subst; [ | congruence ]. rewrite Ascii.eqb_refl. now apply IH.
Qed.

(** ** Literals *)
Lemma digit_not_quote : forall c, py_digit c = true -> py_quote c = false.
Proof.
  intros c D. destruct (py_quote c) eqn:Q; [ | reflexivity ]. exfalso.
  unfold py_quote in Q. unfold py_digit in D. apply andb_prop in D as [D1 D2].
  apply Nat.leb_le in D1. apply orb_prop in Q as [Q|Q]; apply Nat.eqb_eq in Q; lia.
Qed.
Lemma number_tree : forall s, is_number s = true -> code_tree s = PNum s.
Proof.
  intros [|c s] H; [ discriminate | ]. unfold code_tree.
  assert (D : py_digit c = true) by (cbn [is_number] in H; apply andb_prop in H as [H _]; now apply andb_prop in H).
  now rewrite (digit_not_quote c D), D.
Qed.
Lemma uint_val : forall d, num_val (NilZero.string_of_uint d) = SInt (Z.of_uint d).
Proof. intro d. destruct d; [ reflexivity | .. ]; unfold num_val; now rewrite NilZero.usu. Qed.
Lemma lit_dec : forall z, lit_val (code_tree (dec z)) = Some (SInt z).
Proof.
  intro z. pose proof (dec_cases z) as C. pose proof (DecimalZ.of_to z) as E.
  unfold dec in *. destruct (Z.to_int z) as [d|d]; cbn [NilZero.string_of_int Z.of_int] in *.
  - destruct C as [C|(s & C & _)].
    + rewrite (number_tree _ C). unfold lit_val. f_equal.
      now rewrite uint_val, E.
    + destruct d; discriminate C.
  - destruct C as [C|(s & C & H)].
    + discriminate C.
    + cbn in C. injection C as <-.
      change (code_tree (String "-" (NilZero.string_of_uint d))) with (PUn "-" (PNum (NilZero.string_of_uint d))).
      unfold lit_val. change (String.eqb "-" "-") with true. cbn [andb]. now rewrite uint_val, <- E.
Qed.

(** ** Columns without an alias around them *)
Definition flat (c : ColumnLike) : Prop := match c with CAliased _ _ => False | _ => True end.
Lemma flat_unaliased : forall c, flat c -> cl_unaliased_with_name c = (c, None).
Proof. destruct c; cbn; tauto. Qed.
Lemma flat_pe : forall c, flat c -> pe_unaliased (PCol c) = PCol c.
Proof. intros c F. unfold pe_unaliased, pe_unaliased_with_name. now rewrite flat_unaliased. Qed.
Lemma flat_cl : forall c, flat c -> cl_unaliased c = c.
Proof. intros c F. unfold cl_unaliased. now rewrite flat_unaliased. Qed.
Lemma flat_not_literal : forall c, flat c -> plain_col c = true -> lit_val (col_tree c) = None.
Proof. intros [] F P; cbn in *; try tauto; try reflexivity. destruct right as [c|code]; [ | discriminate P ].
  destruct (pexpr_tree (PCol c)); reflexivity. Qed.

Section Sem.
  Variable sp : Spark.
  Variable row : Row.
  Notation cv := (cv sp row).
  Lemma cv_bin : forall op a b x y, cv a = Some x -> cv b = Some y -> cv (PBin op a b) = bin_val sp op x y.
  Proof.
    unfold SpecSpark.cv. intros op a b x y Ha Hb. cbn [cvx]. rewrite Ha, Hb.
    now destruct (bin_val sp op x y).
  Qed.
  Lemma cv_not : forall a x, cv a = Some x -> cv (PUn "~" a) = negate x.
  Proof.
    unfold SpecSpark.cv, negate. intros a x Ha. cbn [cvx]. change (String.eqb "~" "~") with true. cbv beta iota.
    rewrite Ha. now destruct (truth x).
  Qed.
  Lemma cv_col : forall n, cv (py_F "col" [PStr n]) = Some (cell n row).
  Proof. reflexivity. Qed.
  Lemma cv_lit : forall t, cv (py_F "lit" [t]) = lit_val t.
  Proof. intro t. unfold SpecSpark.cv, py_F. cbn [cvx]. cbn. now destruct (lit_val t). Qed.
  Definition arg_of (t : Py) (a : FArg) : Prop := option_map (py_arg t) (cv t) = Some a.
  Lemma all_some_map : forall {A B} (f : A -> option B) l m, Forall2 (fun a b => f a = Some b) l m -> all_some (map f l) = Some m.
  Proof. induction 1 as [|a b l m H _ IH]; [ reflexivity | ]. cbn [map all_some]. now rewrite H, IH. Qed.
  Lemma cv_fn : forall f ts vs, str_in f ["col"; "lit"; "expr"; "when"]%string = false ->
    Forall2 arg_of ts vs -> cv (py_F f ts) = fn_val sp f (named_columns row f vs).
  Proof.
    intros f ts vs N H. cbn in N. repeat (apply orb_false_iff in N; destruct N as [?N N]).
    unfold SpecSpark.cv, py_F. cbn [cvx]. change (String.eqb "F" "F") with true. cbv beta iota zeta.
    rewrite N0, N1, N2, N3. rewrite (all_some_map _ ts vs); [ | exact H ]. now destruct (fn_val sp f _).
  Qed.
  Lemma named_vals : forall f vs, named_columns row f (map AVal vs) = map AVal vs.
  Proof. intros f vs. unfold named_columns. destruct (String.eqb f "regexp_like"); [ | reflexivity ]. rewrite map_map. reflexivity. Qed.
  Lemma named_other : forall f vs, String.eqb f "regexp_like" = false -> named_columns row f vs = vs.
  Proof. intros f vs H. unfold named_columns. now rewrite H. Qed.
  (** Methods of something that is not a bare name *)
  Definition not_name (t : Py) : Prop := match t with PName _ => False | _ => True end.
  Lemma cv_like : forall t p x, not_name t -> cv t = Some x -> cv (py_method t "like" [PStr p]) = Some (like_val x p).
  Proof.
    unfold SpecSpark.cv, py_method. intros t p x N H. cbn [cvx].
    assert (E : exists ch, cvx sp row t = Some (x, ch)) by (destruct (cvx sp row t) as [[v ch]|]; [ | discriminate ]; exists ch; cbn in H; now injection H as ->).
    destruct E as [ch E]. destruct t; try contradiction; rewrite E; reflexivity.
  Qed.
  Lemma cv_ilike : forall t p x, not_name t -> cv t = Some x ->
    cv (py_method t "ilike" [PStr p]) = Some (match x with SNull => SNull | _ => SBool (like (lower p) (lower (val_text x))) end).
  Proof.
    unfold SpecSpark.cv, py_method. intros t p x N H. cbn [cvx].
    assert (E : exists ch, cvx sp row t = Some (x, ch)) by (destruct (cvx sp row t) as [[v ch]|]; [ | discriminate ]; exists ch; cbn in H; now injection H as ->).
    destruct E as [ch E]. destruct t; try contradiction; rewrite E; reflexivity.
  Qed.
End Sem.
Lemma col_not_name : forall c, not_name (col_tree c).
Proof. destruct c; exact I. Qed.
