(** Lemmas on time formats. *)
From Coq Require Import String Ascii List Arith ZArith Bool Lia.
Import ListNotations.
From Verif Require Import Str SplAst PyAst Functions SpecTime.
Open Scope bool_scope.
Open Scope list_scope.
Open Scope string_scope.

(** ** Tokens: items, or text already replaced *)
Inductive Tok := TItem (i : Item) | TDone (s : string).
Definition tok_text (t : Tok) : string := match t with TItem i => item_text i | TDone s => s end.
Definition toks_text (l : list Tok) : string := sconcat (map tok_text l).
Definition tok_ok (t : Tok) : Prop := match t with TItem i => known i | TDone s => has_char "%" s = false end.
Fixpoint toks_ok (l : list Tok) : Prop :=
  match l with
  | [] => True
  | t :: l' => tok_ok t /\ toks_ok l' /\
      match t, l' with
      | TItem Percent, TItem (Lit c) :: _ => begins_directive c = false
      | TItem Percent, TItem (Dir _) :: _ => False
      | TItem Percent, TDone _ :: _ => False
      | _, _ => True
      end
  end.
Definition is_dir (d : string) (t : Tok) : bool := match t with TItem (Dir d') => String.eqb d d' | _ => false end.
Definition subst1 (d r : string) (t : Tok) : Tok := if is_dir d t then TDone r else t.

Lemma app_nil : forall s : string, s ++ "" = s.
Proof. induction s as [|c s IH]; cbn; [ reflexivity | now rewrite IH ]. Qed.
Lemma app_assoc_s : forall a b c : string, (a ++ b) ++ c = a ++ (b ++ c).
Proof. intros a b c. induction a as [|x a IH]; cbn; [ reflexivity | now rewrite IH ]. Qed.
Lemma toks_cons : forall t l, toks_text (t :: l) = tok_text t ++ toks_text l.
Proof. reflexivity. Qed.

(** Nothing that starts with % is found in text without % *)
Lemma pct_start : forall d c s, c <> "%"%char -> starts_with (String "%" d) (String c s) = false.
Proof. intros d c s N. unfold starts_with. cbn. destruct c as [[] [] [] [] [] [] [] []]; try reflexivity. exfalso. now apply N. Qed.
Lemma has_char_cons : forall c x s, has_char c (String x s) = false -> x <> c /\ has_char c s = false.
Proof.
  intros c x s H. unfold has_char, sexists in *. cbn [sforall] in H. rewrite negb_andb, negb_involutive in H. apply orb_false_iff in H.
  destruct H as [H1 H2]. split; [ | exact H2 ]. intros ->. rewrite Ascii.eqb_refl in H1. discriminate.
Qed.
Lemma replace_over : forall d r s rest, has_char "%" s = false ->
  replace_go (String "%" d) r 0 (s ++ rest) = s ++ replace_go (String "%" d) r 0 rest.
Proof.
  intros d r s rest. induction s as [|c s IH]; intro H; [ reflexivity | ]. apply has_char_cons in H. destruct H as [N H].
  cbn [append replace_go]. rewrite pct_start by exact N. now rewrite (IH H).
Qed.
Lemma contains_over : forall d s rest, has_char "%" s = false -> contains (String "%" d) (s ++ rest) = contains (String "%" d) rest.
Proof.
  intros d s rest. induction s as [|c s IH]; intro H; [ reflexivity | ]. apply has_char_cons in H. destruct H as [N H].
  cbn [append contains]. rewrite pct_start by exact N. exact (IH H).
Qed.
Lemma replace_skip : forall p r s rest, replace_go p r (String.length s) (s ++ rest) = replace_go p r 0 rest.
Proof. intros p r s rest. induction s as [|c s IH]; [ destruct rest; reflexivity | ]. cbn [append String.length replace_go]. exact IH. Qed.

(** No directive begins another *)
Definition differ (a b : string) : bool := String.eqb a b || negb (starts_with a b) && negb (starts_with b a).
Lemma directives_differ : forall a b, In a directives -> In b directives -> a <> b -> starts_with a b = false /\ starts_with b a = false.
Proof.
  assert (K : forallb (fun a => forallb (differ a) directives) directives = true) by (vm_compute; reflexivity).
  intros a b Ha Hb N. rewrite forallb_forall in K. specialize (K a Ha). rewrite forallb_forall in K. specialize (K b Hb).
  unfold differ in K. rewrite (proj2 (String.eqb_neq a b) N) in K. cbn in K. apply andb_true_iff in K. destruct K as [K1 K2].
  now apply negb_true_iff in K1, K2.
Qed.
Lemma directive_shape : forall d, In d directives -> has_char "%" d = false /\ exists c d', d = String c d' /\ c <> "%"%char /\ begins_directive c = true.
Proof.
  assert (K : forallb (fun d => negb (has_char "%" d) && match d with String c _ => negb (Ascii.eqb c "%") && begins_directive c | _ => false end) directives = true)
    by (vm_compute; reflexivity).
  intros d H. rewrite forallb_forall in K. specialize (K d H). apply andb_true_iff in K. destruct K as [K1 K2]. apply negb_true_iff in K1.
  split; [ exact K1 | ]. destruct d as [|c d']; [ discriminate K2 | ]. apply andb_true_iff in K2. destruct K2 as [K2 K3]. apply negb_true_iff in K2.
  exists c, d'. repeat split; auto. intros ->. now rewrite Ascii.eqb_refl in K2.
Qed.
Lemma starts_app : forall a b rest, starts_with a b = false -> starts_with b a = false -> starts_with a (b ++ rest) = false.
Proof.
  induction a as [|x a IH]; intros b rest H1 H2; [ discriminate H1 | ]. destruct b as [|y b]; [ discriminate H2 | ].
  unfold starts_with in *. cbn in *. rewrite Ascii.eqb_sym in H2. destruct (Ascii.eqb x y); [ now apply IH | reflexivity ].
Qed.
Lemma starts_self : forall a rest, starts_with a (a ++ rest) = true.
Proof. intros a rest. unfold starts_with. induction a as [|x a IH]; [ reflexivity | ]. cbn. now rewrite Ascii.eqb_refl. Qed.
(** What follows a doubled percent cannot begin with a directive *)
Lemma after_percent : forall d l, In d directives -> toks_ok (TItem Percent :: l) -> starts_with d (toks_text l) = false.
Proof.
  intros d l H (_ & Hl & Hp). destruct (directive_shape d H) as (_ & c & d' & -> & N & B).
  destruct l as [|t l]; [ reflexivity | ]. destruct t as [[x|x|]|s]; [ | contradiction | | contradiction ].
  - rewrite toks_cons. unfold starts_with. cbn. destruct (Ascii.eqb c x) eqn:E; [ | reflexivity ]. apply Ascii.eqb_eq in E. subst x. congruence.
  - rewrite toks_cons. unfold starts_with. cbn. destruct (Ascii.eqb c "%") eqn:E; [ | reflexivity ]. apply Ascii.eqb_eq in E. contradiction.
Qed.
Lemma starts_pct : forall d s, starts_with (String "%" d) (String "%" s) = starts_with d s.
Proof. reflexivity. Qed.

(** ** One replacement *)
Lemma replace_toks : forall d r l, In d directives -> toks_ok l ->
  replace_all (String "%" d) r (toks_text l) = toks_text (map (subst1 d r) l).
Proof.
  intros d r l H. unfold replace_all. induction l as [|t l IH]; intro K; [ reflexivity | ].
  pose proof K as K0. destruct K as (Kt & Kl & Kp). specialize (IH Kl). cbn [map]. rewrite !toks_cons.
  destruct t as [[c|d'|]|s]; cbn [tok_text subst1 is_dir item_text].
  - cbn in Kt. cbn [append replace_go]. rewrite pct_start by exact Kt. now rewrite IH.
  - cbn in Kt. unfold subst1. cbn [is_dir]. destruct (String.eqb_spec d d') as [<-|N]; cbn [tok_text item_text].
    + cbn [append replace_go]. 
      rewrite starts_pct, starts_self. cbn [String.length append pred]. now rewrite replace_skip, IH.
    + cbn [append replace_go]. 
      destruct (directives_differ d d' H Kt N) as [D1 D2]. rewrite starts_pct, starts_app by auto.
      rewrite replace_over by (now apply directive_shape). now rewrite IH.
  - cbn [append replace_go]. rewrite starts_pct.
    destruct (directive_shape d H) as (_ & c & d' & E & N & _).
    assert (X : starts_with d (String "%" (toks_text l)) = false).
    { subst d. unfold starts_with. cbn. destruct (Ascii.eqb c "%") eqn:Q; [ | reflexivity ]. apply Ascii.eqb_eq in Q. contradiction. }
    rewrite X, starts_pct, (after_percent d l H K0), IH. reflexivity.
  - cbn in Kt. rewrite replace_over by exact Kt. now rewrite IH.
Qed.
Lemma contains_toks : forall d l, In d directives -> toks_ok l -> contains (String "%" d) (toks_text l) = existsb (is_dir d) l.
Proof.
  intros d l H. induction l as [|t l IH]; intro K; [ reflexivity | ].
  pose proof K as K0. destruct K as (Kt & Kl & Kp). specialize (IH Kl). cbn [existsb]. rewrite !toks_cons.
  destruct t as [[c|d'|]|s]; cbn [tok_text is_dir item_text orb].
  - cbn in Kt. cbn [append contains]. rewrite pct_start by exact Kt. exact IH.
  - cbn in Kt. cbn [append contains]. rewrite starts_pct. destruct (String.eqb_spec d d') as [<-|N].
    + now rewrite starts_self.
    + destruct (directives_differ d d' H Kt N) as [D1 D2]. rewrite starts_app by auto. cbn [orb].
      rewrite contains_over by (now apply directive_shape). exact IH.
  - cbn [append contains]. rewrite !starts_pct, (after_percent d l H K0).
    destruct (directive_shape d H) as (_ & c & d' & E & N & _).
    assert (X : starts_with d (String "%" (toks_text l)) = false).
    { subst d. unfold starts_with. cbn. destruct (Ascii.eqb c "%") eqn:Q; [ | reflexivity ]. apply Ascii.eqb_eq in Q. contradiction. }
    rewrite X. cbn [orb]. exact IH.
  - cbn in Kt. rewrite contains_over by exact Kt. exact IH.
Qed.
Lemma subst1_ok : forall d r l, has_char "%" r = false -> toks_ok l -> toks_ok (map (subst1 d r) l).
Proof.
  intros d r l R. induction l as [|t l IH]; intro K; [ exact I | ]. destruct K as (Kt & Kl & Kp). cbn [map toks_ok].
  split; [ | split; [ now apply IH | ] ].
  - unfold subst1. destruct (is_dir d t); [ exact R | exact Kt ].
  - unfold subst1 at 1. destruct t as [[c|d'|]|s]; cbn [is_dir]; auto; [ destruct (String.eqb d d'); auto | ].
    destruct l as [|[[c|d'|]|s] l]; cbn [map subst1 is_dir]; auto; contradiction.
Qed.

(** ** All of them *)
Definition conv_in (convs : list (string * option string)) (d : string) : option (option string) :=
  option_map snd (find (fun x => String.eqb d (fst x)) convs).
Definition subst_all (convs : list (string * option string)) (t : Tok) : Tok :=
  match t with
  | TItem (Dir d) => match conv_in convs d with Some (Some r) => TDone r | _ => t end
  | _ => t
  end.
Definition bad (convs : list (string * option string)) (t : Tok) : bool :=
  match t with TItem (Dir d) => match conv_in convs d with Some None => true | _ => false end | _ => false end.
Definition with_pct (x : string * option string) : string * option string := (String "%" (fst x), snd x).
Definition conv_good (x : string * option string) : Prop :=
  In (fst x) directives /\ match snd x with Some r => has_char "%" r = false | None => True end.
Lemma go_toks : forall convs more l, Forall conv_good convs -> toks_ok l ->
  convert_time_go (map with_pct convs ++ more)%list (toks_text l) =
  if existsb (bad convs) l then Err else convert_time_go more (toks_text (map (subst_all convs) l)).
Proof.
  intros convs more. induction convs as [|[d x] convs IH]; intros l F K.
  - cbn [map app]. assert (E1 : existsb (bad []) l = false).
    { clear K. induction l as [|[[]|] l IHl]; cbn; auto. }
    rewrite E1. f_equal. f_equal. symmetry. clear. induction l as [|[[]|] l IHl]; cbn; auto; now rewrite IHl.
  - inversion F as [|? ? [Gd Gx] F']; subst. cbn [fst snd] in *. cbn [map app convert_time_go with_pct fst snd].
    rewrite (contains_toks d l Gd K). destruct (existsb (is_dir d) l) eqn:E.
    + destruct x as [r|].
      * rewrite (replace_toks d r l Gd K), (IH _ F' (subst1_ok d r l Gx K)).
        assert (E1 : forall t, bad convs (subst1 d r t) = bad ((d, Some r) :: convs) t).
        { intros [[c|d'|]|s]; try reflexivity. unfold subst1, bad, conv_in. cbn [is_dir find fst]. rewrite (String.eqb_sym d' d).
          destruct (String.eqb d d'); reflexivity. }
        assert (E2 : forall t, subst_all convs (subst1 d r t) = subst_all ((d, Some r) :: convs) t).
        { intros [[c|d'|]|s]; try reflexivity. unfold subst1, subst_all, conv_in. cbn [is_dir find fst]. rewrite (String.eqb_sym d' d).
          destruct (String.eqb d d'); reflexivity. }
        assert (E3 : existsb (bad convs) (map (subst1 d r) l) = existsb (bad ((d, Some r) :: convs)) l).
        { clear -E1. induction l as [|t l IHl]; cbn [map existsb]; [ reflexivity | now rewrite E1, IHl ]. }
        rewrite E3, map_map, (map_ext _ _ E2). reflexivity.
      * apply existsb_exists in E. destruct E as (t & Ht & Et). assert (E1 : existsb (bad ((d, None) :: convs)) l = true).
        { apply existsb_exists. exists t. split; [ exact Ht | ]. destruct t as [[c|d'|]|s]; try discriminate Et. unfold bad, conv_in. cbn [is_dir find fst] in *.
          rewrite String.eqb_sym, Et. reflexivity. }
        now rewrite E1.
    + rewrite (IH l F' K).
      assert (N : forall t, In t l -> is_dir d t = false).
      { intros t Ht. destruct (is_dir d t) eqn:Q; [ | reflexivity ]. exfalso. assert (existsb (is_dir d) l = true) by (apply existsb_exists; eauto). congruence. }
      assert (E1 : forall t, In t l -> bad convs t = bad ((d, x) :: convs) t).
      { intros t Ht. specialize (N t Ht). destruct t as [[c|d'|]|s]; try reflexivity. unfold bad, conv_in. cbn [is_dir find fst] in *. rewrite (String.eqb_sym d' d), N. reflexivity. }
      assert (E2 : forall t, In t l -> subst_all convs t = subst_all ((d, x) :: convs) t).
      { intros t Ht. specialize (N t Ht). destruct t as [[c|d'|]|s]; try reflexivity. unfold subst_all, conv_in. cbn [is_dir find fst] in *. rewrite (String.eqb_sym d' d), N. reflexivity. }
      assert (E3 : existsb (bad convs) l = existsb (bad ((d, x) :: convs)) l).
      { clear -E1. induction l as [|t l IHl]; cbn [existsb]; [ reflexivity | ]. rewrite (E1 t (or_introl eq_refl)), IHl; [ reflexivity | ]. intros u Hu. apply E1. now right. }
      rewrite E3, (map_ext_in _ _ _ E2). reflexivity.
Qed.

(** ** The last replacement: doubled percents *)
Definition no_dir (t : Tok) : bool := match t with TItem (Dir _) => false | _ => true end.
Definition subst_pct (t : Tok) : Tok := match t with TItem Percent => TDone "%" | _ => t end.
Lemma replace_pcts : forall l, toks_ok l -> forallb no_dir l = true -> replace_all "%%" "%" (toks_text l) = toks_text (map subst_pct l).
Proof.
  intro l. unfold replace_all. induction l as [|t l IH]; intros K D; [ reflexivity | ]. destruct K as (Kt & Kl & _). cbn [forallb] in D.
  apply andb_true_iff in D. destruct D as [Dt Dl]. specialize (IH Kl Dl). cbn [map]. rewrite !toks_cons.
  destruct t as [[c|d'|]|s]; cbn [tok_text subst_pct item_text]; [ | discriminate Dt | | ].
  - cbn in Kt. cbn [append replace_go]. rewrite pct_start by exact Kt. now rewrite IH.
  - cbn [append replace_go starts_with strip_prefix]. cbn. rewrite <- IH. destruct (toks_text l); reflexivity.
  - rewrite replace_over by exact Kt. now rewrite IH.
Qed.
Lemma contains_pcts : forall l, toks_ok l -> forallb no_dir l = true -> contains "%%" (toks_text l) = false -> toks_text (map subst_pct l) = toks_text l.
Proof.
  intro l. induction l as [|t l IH]; intros K D C; [ reflexivity | ]. destruct K as (Kt & Kl & _). cbn [forallb] in D.
  apply andb_true_iff in D. destruct D as [Dt Dl]. specialize (IH Kl Dl). cbn [map]. rewrite !toks_cons in *.
  destruct t as [[c|d'|]|s]; cbn [tok_text subst_pct item_text] in *; [ | discriminate Dt | | ].
  - cbn [append contains] in C. apply orb_false_iff in C. destruct C as [_ C]. now rewrite (IH C).
  - discriminate C.
  - rewrite contains_over in C by exact Kt. now rewrite (IH C).
Qed.

Definition CONVS : list (string * option string) :=
  Eval vm_compute in map (fun x => (match fst x with String _ d => d | EmptyString => "" end, snd x)) (firstn 36 CONVERSIONS).
Lemma conversions : CONVERSIONS = (map with_pct CONVS ++ [("%%", Some "%")])%list.
Proof. reflexivity. Qed.
Lemma convs_good : Forall conv_good CONVS.
Proof.
  apply Forall_forall. assert (K : forallb (fun x => existsb (String.eqb (fst x)) directives && match snd x with Some r => negb (has_char "%" r) | None => true end) CONVS = true)
    by (vm_compute; reflexivity).
  rewrite forallb_forall in K. intros x Hx. specialize (K x Hx). apply andb_true_iff in K. destruct K as [K1 K2]. split.
  - apply existsb_exists in K1. destruct K1 as (y & Hy & E). apply String.eqb_eq in E. now rewrite E.
  - destruct (snd x); [ now apply negb_true_iff in K2 | exact I ].
Qed.
Lemma conv_known : forall d, In d directives -> exists x, conv_in CONVS d = Some x.
Proof.
  assert (K : forallb (fun d => match conv_in CONVS d with Some _ => true | None => false end) directives = true) by (vm_compute; reflexivity).
  intros d H. rewrite forallb_forall in K. specialize (K d H). destruct (conv_in CONVS d) as [x|]; [ eauto | discriminate K ].
Qed.
Definition converted (i : Item) : res string :=
  match i with
  | Lit c => Ok (String c "")
  | Percent => Ok "%"
  | Dir d => match conv_in CONVS d with Some (Some r) => Ok r | _ => Err end
  end.
Lemma subst_all_ok : forall l, toks_ok l -> existsb (bad CONVS) l = false ->
  toks_ok (map (subst_all CONVS) l) /\ forallb no_dir (map (subst_all CONVS) l) = true.
Proof.
  intro l. induction l as [|t l IH]; intros K B; [ split; reflexivity | ]. destruct K as (Kt & Kl & Kp). cbn [existsb] in B. apply orb_false_iff in B. destruct B as [Bt Bl].
  destruct (IH Kl Bl) as [I1 I2]. cbn [map toks_ok forallb]. rewrite I2.
  assert (P : forall c, conv_in CONVS c = Some None \/ (forall r, conv_in CONVS c = Some (Some r) -> has_char "%" r = false)).
  { intro c. right. intros r E. unfold conv_in in E. destruct (find (fun x => String.eqb c (fst x)) CONVS) as [[n y]|] eqn:Q; [ | discriminate E ].
    cbn in E. injection E as ->. apply find_some in Q. destruct Q as [Q _]. pose proof convs_good as G. rewrite Forall_forall in G. apply (G _ Q). }
  destruct t as [[c|d|]|s]; cbn [subst_all no_dir andb].
  - split; [ split; [ exact Kt | split; [ exact I1 | exact I ] ] | reflexivity ].
  - cbn in Kt. destruct (conv_known d Kt) as [[r|] E]; cbn [bad] in Bt; rewrite E in *; [ | discriminate Bt ].
    split; [ | reflexivity ]. split; [ | split; [ exact I1 | exact I ] ]. cbn. destruct (P d) as [Q|Q]; [ congruence | now apply Q ].
  - split; [ | reflexivity ]. split; [ exact I | split; [ exact I1 | ] ]. destruct l as [|[[c|d|]|s] l]; cbn [map subst_all]; auto; contradiction.
  - split; [ | reflexivity ]. split; [ exact Kt | split; [ exact I1 | exact I ] ].
Qed.
Lemma items_ok : forall l, Forall known l -> percents_apart l -> toks_ok (map TItem l).
Proof.
  intro l. induction l as [|i l IH]; intros F P; [ exact I | ]. inversion F; subst. destruct P as [P1 P2]. cbn [map toks_ok].
  split; [ assumption | split; [ now apply IH | ] ]. destruct i; auto. destruct l as [|[] l]; cbn [map]; auto.
Qed.
Lemma format_toks : forall l, format_text l = toks_text (map TItem l).
Proof. intro l. unfold format_text, toks_text. now rewrite map_map. Qed.
Lemma convert_items : forall l, Forall known l -> percents_apart l ->
  convert_time_format (format_text l) = rmap sconcat (rtraverse converted l).
Proof.
  intros l F P. unfold convert_time_format. rewrite conversions, format_toks. pose proof (items_ok l F P) as K.
  rewrite (go_toks CONVS _ _ convs_good K). destruct (existsb (bad CONVS) (map TItem l)) eqn:B.
  - apply existsb_exists in B. destruct B as (t & Ht & Bt). apply in_map_iff in Ht. destruct Ht as (i & <- & Hi).
    unfold rtraverse. clear F P K. induction l as [|j l IH]; [ contradiction Hi | ]. cbn [map rsequence].
    assert (NP : forall i, converted i <> Panic) by (intros []; cbn; try discriminate; destruct (conv_in CONVS name) as [[]|]; discriminate).
    destruct Hi as [-> |Hi].
    + destruct i as [c|d|]; try discriminate Bt. cbn [bad] in Bt. cbn [converted]. destruct (conv_in CONVS d) as [[]|]; try discriminate Bt. reflexivity.
    + specialize (IH Hi). pose proof (NP j) as NJ. destruct (converted j) as [a| |]; [ | reflexivity | now elim NJ ]. cbn [rbind].
      destruct (rsequence (map converted l)) as [b| |]; [ discriminate IH | reflexivity | discriminate IH ].
  - destruct (subst_all_ok _ K B) as [K2 D]. cbn [convert_time_go].
    assert (E : (if contains "%%" (toks_text (map (subst_all CONVS) (map TItem l))) then Ok (replace_all "%%" "%" (toks_text (map (subst_all CONVS) (map TItem l))))
                 else Ok (toks_text (map (subst_all CONVS) (map TItem l)))) = Ok (toks_text (map subst_pct (map (subst_all CONVS) (map TItem l))))).
    { destruct (contains "%%" _) eqn:C; [ now rewrite replace_pcts | now rewrite contains_pcts ]. }
    rewrite E. unfold rtraverse. clear K K2 D E P. induction F as [|i l Ki F IH]; [ reflexivity | ]. cbn [map existsb] in B. apply orb_false_iff in B. destruct B as [Bi Bl].
    specialize (IH Bl). cbn [map rsequence]. destruct (rsequence (map converted l)) as [b| |] eqn:Q; try discriminate IH. cbn [rmap rbind] in IH. injection IH as IH.
    assert (X : converted i = Ok (tok_text (subst_pct (subst_all CONVS (TItem i))))).
    { destruct i as [c|d|]; [ reflexivity | | reflexivity ]. cbn in Ki. destruct (conv_known d Ki) as [[r|] R]; cbn [bad] in Bi; rewrite R in Bi; [ | discriminate Bi ].
      cbn [converted subst_all]. now rewrite R. }
    rewrite X. cbn [rbind rmap]. rewrite toks_cons. cbn [sconcat]. now rewrite IH.
Qed.
Lemma convert_one : forall i, known i -> convert_time_format (item_text i) = converted i.
Proof.
  intros i K. assert (E : item_text i = format_text [i]) by (unfold format_text; cbn [map sconcat]; now rewrite app_nil).
  rewrite E, convert_items; [ | now constructor | split; [ exact I | now destruct i ] ]. unfold rtraverse. cbn [map rsequence].
  destruct (converted i); cbn; [ now rewrite app_nil | reflexivity.. ].
Qed.
Lemma convert_itemwise : forall l, Forall known l -> percents_apart l ->
  convert_time_format (format_text l) = rmap sconcat (rtraverse (fun i => convert_time_format (item_text i)) l).
Proof.
  intros l F P. rewrite (convert_items l F P). unfold rtraverse. f_equal. f_equal. apply map_ext_in. intros i Hi. symmetry. apply convert_one.
  rewrite Forall_forall in F. now apply F.
Qed.
Lemma convert_refused : forall l d, Forall known l -> percents_apart l -> In d untranslatable -> In (Dir d) l -> convert_time_format (format_text l) = Err.
Proof.
  intros l d F P U Hd. rewrite (convert_items l F P).
  assert (E : converted (Dir d) = Err).
  { assert (K : forallb (fun d => match converted (Dir d) with Err => true | _ => false end) untranslatable = true) by (vm_compute; reflexivity).
    rewrite forallb_forall in K. specialize (K d U). now destruct (converted (Dir d)). }
  unfold rtraverse. clear F P. induction l as [|i l IH]; [ contradiction Hd | ]. cbn [map rsequence]. destruct Hd as [-> |Hd]; [ now rewrite E | ].
  specialize (IH Hd). assert (NP : converted i <> Panic) by (destruct i; cbn; try discriminate; destruct (conv_in CONVS name) as [[]|]; discriminate).
  destruct (converted i); [ | reflexivity | now elim NP ]. cbn [rbind]. destruct (rsequence (map converted l)); [ discriminate IH | reflexivity | discriminate IH ].
Qed.

(** ** What the pattern shows *)
Definition oapp (a b : option string) : option string := match a, b with Some x, Some y => Some (x ++ y) | _, _ => None end.
Definition shown (t : Time) (run : option (ascii * nat)) : option string := match run with Some (c, n) => spark_shows t c n | None => Some "" end.
Lemma oapp_assoc : forall a b c, oapp (oapp a b) c = oapp a (oapp b c).
Proof. intros [a|] [b|] [c|]; try reflexivity. cbn. now rewrite app_assoc_s. Qed.
Lemma oapp_nil : forall a, oapp (Some "") a = a.
Proof. now intros [a|]. Qed.
Definition letter_of (u : Unit) : ascii :=
  match u with
  | UHour => "H" | UHour12 => "h" | UMinute => "m" | USecond => "s" | UFraction => "S" | UHalf => "a" | UZone => "z" | UYear => "y" | UMonth => "M"
  | UDay => "d" | UWeekday => "E"
  end%char.
Lemma letter_of_inj : forall u v, letter_of u = letter_of v -> u = v.
Proof. intros [] []; intro H; reflexivity || discriminate H. Qed.
Definition run_apart (run : option (ascii * nat)) (u : Unit) : Prop := match run with Some (c, _) => c <> letter_of u | None => True end.
Lemma go_letter : forall t run c s, letter c = true -> match run with Some (c', _) => c' <> c | None => True end ->
  spark_go t run (String c s) = oapp (shown t run) (spark_go t (Some (c, 1)) s).
Proof.
  intros t run c s L N. cbn [spark_go]. rewrite L. destruct run as [[c' n]|].
  - destruct (Ascii.eqb c c') eqn:E; [ apply Ascii.eqb_eq in E; congruence | reflexivity ].
  - cbn [shown]. now rewrite oapp_nil.
Qed.
Lemma go_same : forall t c n s, letter c = true -> spark_go t (Some (c, n)) (String c s) = spark_go t (Some (c, S n)) s.
Proof. intros t c n s L. cbn [spark_go]. now rewrite L, Ascii.eqb_refl. Qed.
Lemma go_other : forall t run c s, letter c = false -> special c = false ->
  spark_go t run (String c s) = oapp (shown t run) (oapp (Some (String c "")) (spark_go t None s)).
Proof. intros t run c s L S. cbn [spark_go]. rewrite L, S. destruct (spark_go t None s); destruct run as [[]|]; reflexivity. Qed.
Lemma units_in : forall d u, units d = Some u -> In (d, u) agreeing.
Proof.
  intros d u H. unfold units in H. destruct (find (fun x => String.eqb d (fst x)) agreeing) as [[n v]|] eqn:E; [ | discriminate H ]. cbn in H. injection H as <-.
  pose proof E as E'. apply find_some in E. destruct E as [E Q]. cbn in Q. apply String.eqb_eq in Q. now subst n.
Qed.
Definition directive_good (d : string) (u : Unit * Unit) : Prop := exists r, converted (Dir d) = Ok r /\
  forall t run rest, run_apart run (fst u) -> exists pre n,
    spark_go t run (r ++ rest) = oapp (shown t run) (oapp pre (spark_go t (Some (letter_of (snd u), n)) rest)) /\
    spl_shows t d = oapp pre (spark_shows t (letter_of (snd u)) n).
Lemma good_T : directive_good "T" (UHour, USecond).
Proof.
  eexists; split; [ reflexivity | ]. intros t run rest A. cbn [fst snd run_apart letter_of] in *. cbn [append]. rewrite go_letter by (reflexivity || exact A).
  rewrite go_same by reflexivity. rewrite (go_other t _ ":") by reflexivity. rewrite go_letter by (reflexivity || exact I). rewrite go_same by reflexivity.
  rewrite (go_other t _ ":") by reflexivity. rewrite go_letter by (reflexivity || exact I). rewrite go_same by reflexivity.
  exists (Some (padded 2 (hour t) ++ ":" ++ padded 2 (minute t) ++ ":")), 2. set (f := spark_go t (Some ("s"%char, 2)) rest). split.
  - f_equal. cbn [shown]. destruct f; cbn [oapp spark_shows Nat.ltb Nat.leb Nat.eqb]; [ rewrite ?app_assoc_s; reflexivity | reflexivity ].
  - cbn [oapp spark_shows Nat.ltb Nat.leb Nat.eqb]. rewrite ?app_assoc_s. reflexivity.
Qed.
Lemma good_F : directive_good "F" (UYear, UDay).
Proof.
  eexists; split; [ reflexivity | ]. intros t run rest A. cbn [fst snd run_apart letter_of] in *. cbn [append]. rewrite go_letter by (reflexivity || exact A).
  rewrite !go_same by reflexivity. rewrite (go_other t _ "-") by reflexivity. rewrite go_letter by (reflexivity || exact I). rewrite go_same by reflexivity.
  rewrite (go_other t _ "-") by reflexivity. rewrite go_letter by (reflexivity || exact I). rewrite go_same by reflexivity.
  exists (Some (padded 4 (year t) ++ "-" ++ padded 2 (month t) ++ "-")), 2. set (f := spark_go t (Some ("d"%char, 2)) rest). split.
  - f_equal. cbn [shown]. destruct f; cbn [oapp spark_shows Nat.ltb Nat.leb Nat.eqb]; [ rewrite ?app_assoc_s; reflexivity | reflexivity ].
  - cbn [oapp spark_shows Nat.ltb Nat.leb Nat.eqb]. rewrite ?app_assoc_s. reflexivity.
Qed.
Lemma directive_shown : forall d u, units d = Some u -> directive_good d u.
Proof.
  intros d u H. apply units_in in H. unfold agreeing in H. cbn [In] in H.
  repeat (destruct H as [H|H]; [ injection H as <- <-; (exact good_T || exact good_F ||
    (eexists; split; [ reflexivity | ]; intros t run rest A; cbn [fst snd run_apart letter_of] in *;
     cbn [append]; rewrite go_letter by (reflexivity || exact A); rewrite ?go_same by reflexivity;
     exists (Some ""); eexists; split; [ rewrite oapp_nil; reflexivity | reflexivity ])) | ]).
  contradiction.
Qed.
Definition conv_text (i : Item) : string := match converted i with Ok s => s | _ => "" end.
Definition first_apart (run : option (ascii * nat)) (l : list Item) : Prop :=
  match l with Dir d :: _ => forall u, units d = Some u -> run_apart run (fst u) | _ => True end.
Lemma format_shown : forall t l run, Forall shown_alike l -> units_apart l -> first_apart run l ->
  spark_go t run (sconcat (map conv_text l)) = oapp (shown t run) (spl_format t l).
Proof.
  intros t l. induction l as [|i l IH]; intros run F U A.
  - cbn [map sconcat spark_go spl_format]. change (match run with Some (c, n) => spark_shows t c n | None => Some "" end) with (shown t run).
    destruct (shown t run); cbn [oapp]; [ now rewrite app_nil | reflexivity ].
  - inversion F as [|? ? Hi Fl]; subst. destruct U as [Ul Ui]. cbn [map sconcat spl_format]. destruct i as [c|d|].
    + destruct Hi as (L & S & _). cbn [conv_text converted append]. rewrite (go_other t run c _ L S), (IH None Fl Ul); [ | destruct l as [|[] ?]; cbn; auto ].
      cbn [shown]. rewrite oapp_nil. destruct (spl_format t l); reflexivity.
    + cbn in Hi. destruct (units d) as [u|] eqn:Eu; [ | now elim Hi ]. destruct (directive_shown d u Eu) as (r & Er & Hr).
      unfold conv_text at 1. rewrite Er. destruct (Hr t run (sconcat (map conv_text l)) (A u Eu)) as (pre & n & E1 & E2).
      rewrite E1, E2, (IH (Some (letter_of (snd u), n)) Fl Ul).
      * cbn [shown]. rewrite !oapp_assoc || idtac. destruct (shown t run); [ | reflexivity ]. cbn [oapp]. f_equal.
        destruct pre as [p|]; [ | reflexivity ]. cbn [oapp]. destruct (spark_shows t (letter_of (snd u)) n); [ | reflexivity ]. cbn [oapp].
        destruct (spl_format t l); [ cbn [oapp]; now rewrite app_assoc_s | reflexivity ].
      * destruct l as [|[c|d'|] l]; cbn; auto. intros u' Eu'. cbn. intro E. apply letter_of_inj in E. exact (Ui u u' eq_refl Eu' E).
    + cbn [conv_text converted append]. rewrite (go_other t run "%" _ eq_refl eq_refl), (IH None Fl Ul); [ | destruct l as [|[] ?]; cbn; auto ].
      cbn [shown]. rewrite oapp_nil. destruct (spl_format t l); reflexivity.
Qed.
Lemma spl_total : forall t l, Forall shown_alike l -> exists s, spl_format t l = Some s.
Proof.
  intros t l F. induction F as [|i l Hi F (s & E)]; [ eexists; reflexivity | ]. cbn [spl_format]. rewrite E. destruct i as [c|d|]; [ eexists; reflexivity | | eexists; reflexivity ].
  cbn in Hi. destruct (units d) as [u|] eqn:Eu; [ | now elim Hi ]. apply units_in in Eu. unfold agreeing in Eu. cbn [In] in Eu.
  repeat (destruct Eu as [Eu|Eu]; [ injection Eu as <- <-; eexists; reflexivity | ]). contradiction.
Qed.
Lemma shown_known : forall l, Forall shown_alike l -> Forall known l.
Proof.
  intros l F. eapply Forall_impl; [ | exact F ]. intros [c|d|] H; [ apply H | | exact I ]. cbn in *. destruct (units d) as [u|] eqn:Eu; [ | now elim H ].
    apply units_in in Eu. assert (Q : forallb (fun x => existsb (String.eqb (fst x)) directives) agreeing = true) by (vm_compute; reflexivity).
    rewrite forallb_forall in Q. specialize (Q _ Eu). cbn [fst] in Q. apply existsb_exists in Q. destruct Q as (y & Hy & E). apply String.eqb_eq in E. now subst y.
Qed.
Lemma convert_shown : forall l, Forall shown_alike l -> units_apart l -> percents_apart l ->
  exists g, convert_time_format (format_text l) = Ok g /\ forall t, exists s, spl_format t l = Some s /\ spark_format t g = Some s.
Proof.
  intros l F U P. pose proof (shown_known l F) as K.
  exists (sconcat (map conv_text l)). split.
  - rewrite (convert_items l K P). unfold rtraverse. clear U P K. induction F as [|i l Hi F IH]; [ reflexivity | ]. cbn [map rsequence].
    destruct (rsequence (map converted l)) as [b| |]; try discriminate IH. cbn in IH. injection IH as IH.
    assert (E : converted i = Ok (conv_text i)).
    { unfold conv_text. destruct i as [c|d|]; try reflexivity. cbn in Hi. destruct (units d) as [u|] eqn:Eu; [ | now elim Hi ].
      destruct (directive_shown d u Eu) as (r & Er & _). now rewrite Er. }
    rewrite E. cbn [rbind rmap sconcat]. now rewrite IH.
  - intro t. destruct (spl_total t l F) as (s & E). exists s. split; [ exact E | ]. unfold spark_format. rewrite (format_shown t l None F U).
    + cbn [shown]. now rewrite oapp_nil.
    + destruct l as [|[] l]; cbn; auto.
Qed.
