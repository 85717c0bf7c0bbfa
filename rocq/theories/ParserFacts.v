(** Totality of the grammar: no input makes a parser panic or run out of fuel, and
    what a parser leaves over is a suffix of its input. *)
From Coq Require Import Lia.
From Verif Require Import Str SplAst Nom Lexer Parser CmdParser.

Definition is_suffix (r s : string) : Prop := exists p, s = (p ++ r)%string.

Lemma append_nil_r : forall s, (s ++ "")%string = s.
Proof. induction s as [|c s IH]; cbn; [ reflexivity | now rewrite IH ]. Qed.
Lemma append_assoc_s : forall a b c : string, ((a ++ b) ++ c)%string = (a ++ (b ++ c))%string.
Proof. induction a as [|x a IH]; intros; cbn; [ reflexivity | now rewrite IH ]. Qed.
Lemma length_append : forall a b : string,
  String.length (a ++ b) = String.length a + String.length b.
Proof. induction a as [|x a IH]; intros; cbn; [ reflexivity | now rewrite IH ]. Qed.

Lemma suffix_refl : forall s, is_suffix s s.
Proof. intro s. exists EmptyString. reflexivity. Qed.
Lemma suffix_trans : forall a b c, is_suffix a b -> is_suffix b c -> is_suffix a c.
Proof.
  intros a b c [p Hp] [q Hq]. exists (q ++ p)%string. subst. now rewrite append_assoc_s.
Qed.
Lemma suffix_length : forall r s, is_suffix r s -> String.length r <= String.length s.
Proof. intros r s [p H]. subst. rewrite length_append. lia. Qed.
Lemma suffix_cons : forall c s, is_suffix s (String c s).
Proof. intros c s. exists (String c EmptyString). reflexivity. Qed.

(** [good k n p]: on inputs shorter than n, p neither panics nor runs out of fuel,
    leaves a suffix over, and has consumed something if k is set. *)
Definition good {A} (k : bool) (n : nat) (p : Parser A) : Prop :=
  forall s, String.length s < n ->
    match p s with
    | POk r _ => is_suffix r s /\ (k = true -> String.length r < String.length s)
    | PErr => True
    | PPanic => False
    | PFuel => False
    end.

Lemma good_weaken : forall A n (p : Parser A), good true n p -> good false n p.
Proof.
  intros A n p H s Hs. specialize (H s Hs). destruct (p s); auto. destruct H; split; auto; discriminate.
Qed.
Lemma good_mono : forall A k n m (p : Parser A), m <= n -> good k n p -> good k m p.
Proof. intros A k n m p Hm H s Hs. apply H. lia. Qed.
Lemma good_false : forall A k n (p : Parser A), good k n p -> good false n p.
Proof. intros A [] n p H; [ now apply good_weaken | exact H ]. Qed.

Lemma good_bind : forall A B k n (p : Parser A) (f : A -> Parser B),
  good k n p -> (forall a, good false n (f a)) -> good k n (p_bind p f).
Proof.
  intros A B k n p f Hp Hf s Hs. unfold p_bind. specialize (Hp s Hs).
  destruct (p s) as [r a| | |]; auto. destruct Hp as [Hsuf Hlt].
  pose proof (suffix_length _ _ Hsuf) as Hl.
  assert (Hr : String.length r < n) by lia.
  specialize (Hf a r Hr). destruct (f a r) as [r' b| | |]; auto.
  destruct Hf as [Hsuf' _]. pose proof (suffix_length _ _ Hsuf') as Hl'. split.
  - eapply suffix_trans; eauto.
  - intro Hk. specialize (Hlt Hk). lia.
Qed.
Lemma good_bind_r : forall A B k n (p : Parser A) (f : A -> Parser B),
  good false n p -> (forall a, good k n (f a)) -> good k n (p_bind p f).
Proof.
  intros A B k n p f Hp Hf s Hs. unfold p_bind. specialize (Hp s Hs).
  destruct (p s) as [r a| | |]; auto. destruct Hp as [Hsuf Hlt].
  pose proof (suffix_length _ _ Hsuf) as Hl.
  assert (Hr : String.length r < n) by lia.
  specialize (Hf a r Hr). destruct (f a r) as [r' b| | |]; auto.
  destruct Hf as [Hsuf' Hlt']. pose proof (suffix_length _ _ Hsuf') as Hl'. split.
  - eapply suffix_trans; eauto.
  - intro Hk. specialize (Hlt' Hk). lia.
Qed.
(** After something has been consumed the continuation only needs the smaller bound. *)
Lemma good_bind_dec : forall A B n (p : Parser A) (f : A -> Parser B),
  good true (S n) p -> (forall a, good false n (f a)) -> good true (S n) (p_bind p f).
Proof.
  intros A B n p f Hp Hf s Hs. unfold p_bind. specialize (Hp s Hs).
  destruct (p s) as [r a| | |]; auto. destruct Hp as [Hsuf Hlt]. specialize (Hlt eq_refl).
  assert (Hr : String.length r < n) by lia.
  specialize (Hf a r Hr). destruct (f a r) as [r' b| | |]; auto.
  destruct Hf as [Hsuf' _]. pose proof (suffix_length _ _ Hsuf') as Hl'. split.
  - eapply suffix_trans; eauto.
  - intros _. lia.
Qed.
Lemma good_ret : forall A n (a : A), good false n (p_ret a).
Proof. intros A n a s Hs. cbn. split; [ apply suffix_refl | discriminate ]. Qed.
Lemma good_fail : forall A k n, good k n (@p_fail A).
Proof. intros A k n s Hs. exact I. Qed.
Lemma good_map : forall A B k n (f : A -> B) p, good k n p -> good k n (p_map f p).
Proof. intros. unfold p_map. apply good_bind; auto. intro a. apply good_ret. Qed.
Lemma good_or : forall A k n (p q : Parser A), good k n p -> good k n q -> good k n (p <|> q).
Proof.
  intros A k n p q Hp Hq s Hs. unfold p_or. specialize (Hp s Hs). destruct (p s); auto.
  apply (Hq s Hs).
Qed.
Lemma good_pair : forall A B k n (p : Parser A) (q : Parser B),
  good k n p -> good false n q -> good k n (pair_ p q).
Proof.
  intros. unfold pair_. apply good_bind; auto. intro a. apply good_bind; auto.
  intro b. apply good_ret.
Qed.
Lemma good_preceded : forall A B k n (p : Parser A) (q : Parser B),
  good k n p -> good false n q -> good k n (preceded p q).
Proof. intros. unfold preceded. apply good_bind; auto. Qed.
Lemma good_preceded_r : forall A B k n (p : Parser A) (q : Parser B),
  good false n p -> good k n q -> good k n (preceded p q).
Proof. intros. unfold preceded. apply good_bind_r; auto. Qed.
Lemma good_terminated : forall A B k n (p : Parser A) (q : Parser B),
  good k n p -> good false n q -> good k n (terminated p q).
Proof.
  intros. unfold terminated. apply good_bind; auto. intro a. apply good_bind; auto.
  intro b. apply good_ret.
Qed.
Lemma good_delimited : forall A B C k n (p : Parser A) (q : Parser B) (r : Parser C),
  good k n p -> good false n q -> good false n r -> good k n (delimited p q r).
Proof.
  intros. unfold delimited. apply good_bind; auto. intro a. apply good_bind; auto.
  intro b. apply good_bind; auto. intro c. apply good_ret.
Qed.
Lemma good_separated_pair : forall A B C k n (p : Parser A) (q : Parser B) (r : Parser C),
  good k n p -> good false n q -> good false n r -> good k n (separated_pair p q r).
Proof.
  intros. unfold separated_pair. apply good_bind; auto. intro a. apply good_bind; auto.
  intro b. apply good_bind; auto. intro c. apply good_ret.
Qed.
Lemma good_opt : forall A k n (p : Parser A), good k n p -> good false n (opt p).
Proof.
  intros A k n p Hp s Hs. unfold opt. specialize (Hp s Hs). destruct (p s); auto.
  - destruct Hp. split; auto; discriminate.
  - split; [ apply suffix_refl | discriminate ].
Qed.
Lemma good_peek : forall A k n (p : Parser A), good k n p -> good false n (peek p).
Proof.
  intros A k n p Hp s Hs. unfold peek. specialize (Hp s Hs). destruct (p s); auto.
  split; [ apply suffix_refl | discriminate ].
Qed.
Lemma good_verify : forall A k n (p : Parser A) f, good k n p -> good k n (verify p f).
Proof.
  intros. unfold verify. apply good_bind; auto. intro a.
  destruct (f a); [ apply good_ret | apply good_fail ].
Qed.
Lemma good_unwrapped : forall A k n (p : Parser (res A)), good k n p -> good k n (unwrapped p).
Proof.
  intros. unfold unwrapped. apply good_bind; auto. intro a.
  destruct a; [ apply good_ret | apply good_fail | apply good_fail ].
Qed.
Lemma good_eof : forall n, good false n eof.
Proof. intros n [|c s] Hs; cbn; auto. split; [ apply suffix_refl | discriminate ]. Qed.
Lemma good_all_consuming : forall A k n (p : Parser A), good k n p -> good k n (all_consuming p).
Proof.
  intros. unfold all_consuming. apply good_bind; auto. intro a.
  apply good_bind; [ apply good_eof | intro b; apply good_ret ].
Qed.
Lemma good_recognize : forall A k n (p : Parser A), good k n p -> good k n (recognize p).
Proof.
  intros A k n p Hp s Hs. unfold recognize. specialize (Hp s Hs). destruct (p s); auto.
Qed.
Lemma good_map_parser : forall B k n (p : Parser string) (q : Parser B),
  good k n p ->
  (forall s r t, String.length s < n -> p s = POk r t -> q t <> PPanic /\ q t <> PFuel) ->
  good k n (map_parser p q).
Proof.
  intros B k n p q Hp Hq s Hs. unfold map_parser, p_bind.
  pose proof (Hp s Hs) as H. destruct (p s) as [r t| | |] eqn:E; auto.
  specialize (Hq s r t Hs E). destruct (q t); auto; destruct Hq; congruence.
Qed.
Lemma good_out : forall A (p : Parser A), (forall n, good false n p) ->
  forall t, p t <> PPanic /\ p t <> PFuel.
Proof.
  intros A p H t. specialize (H (S (String.length t)) t (Nat.lt_succ_diag_r _)).
  destruct (p t); split; try discriminate; tauto.
Qed.

(** ** Characters and tags *)
Lemma good_satisfy : forall n f, good true n (satisfy f).
Proof.
  intros n f [|c s] Hs; cbn; auto. destruct (f c); auto. split; [ apply suffix_cons | ].
  intros _. lia.
Qed.
Lemma strip_prefix_suffix : forall t s r, strip_prefix t s = Some r -> s = (t ++ r)%string.
Proof.
  induction t as [|a t IH]; intros s r H; cbn in H.
  - injection H as H. now subst.
  - destruct s as [|b s]; [ discriminate | ].
    destruct (Ascii.eqb a b) eqn:E; [ | discriminate ].
    apply Ascii.eqb_eq in E. subst. apply IH in H. now subst.
Qed.
Lemma good_tag : forall n t, good (negb (String.eqb t "")) n (tag t).
Proof.
  intros n t s Hs. unfold tag. destruct (strip_prefix t s) as [r|] eqn:E; auto.
  apply strip_prefix_suffix in E. subst. split; [ now exists t | ].
  intro Hk. rewrite length_append. destruct t; cbn in *; [ discriminate | lia ].
Qed.
Lemma good_tag_f : forall n t, good false n (tag t).
Proof. intros. eapply good_false. apply good_tag. Qed.
Lemma strip_prefix_nc_suffix : forall t s r, strip_prefix_nc t s = Some r ->
  exists p, s = (p ++ r)%string /\ String.length p = String.length t.
Proof.
  induction t as [|a t IH]; intros s r H; cbn in H.
  - injection H as H. subst. now exists EmptyString.
  - destruct s as [|b s]; [ discriminate | ].
    destruct (Ascii.eqb (lower_c a) (lower_c b)); [ | discriminate ].
    apply IH in H. destruct H as [p [Hp Hl]]. exists (String b p). cbn. now subst; rewrite Hl.
Qed.
Lemma good_tag_no_case : forall n t, good (negb (String.eqb t "")) n (tag_no_case t).
Proof.
  intros n t s Hs. unfold tag_no_case. destruct (strip_prefix_nc t s) as [r|] eqn:E; auto.
  apply strip_prefix_nc_suffix in E. destruct E as [p [Hp Hl]]. subst s. split; [ now exists p | ].
  intro Hk. rewrite length_append. destruct t; cbn in *; [ discriminate | lia ].
Qed.
Lemma good_tag_no_case_f : forall n t, good false n (tag_no_case t).
Proof. intros. eapply good_false. apply good_tag_no_case. Qed.
Lemma span_append : forall f s a b, span f s = (a, b) -> s = (a ++ b)%string.
Proof.
  intros f s. induction s as [|c s IH]; intros a b H; cbn in H.
  - injection H as <- <-. reflexivity.
  - destruct (f c).
    + destruct (span f s) as [a' b'] eqn:E. injection H as <- <-. cbn. f_equal. now apply IH.
    + injection H as <- <-. reflexivity.
Qed.
Lemma good_take_while : forall n f, good false n (take_while f).
Proof.
  intros n f s Hs. unfold take_while. destruct (span f s) as [a b] eqn:E.
  apply span_append in E. split; [ now exists a | discriminate ].
Qed.
Lemma good_take_while1 : forall n f, good true n (take_while1 f).
Proof.
  intros n f s Hs. unfold take_while1. destruct (span f s) as [a b] eqn:E.
  apply span_append in E. destruct a as [|c a]; auto. subst. split; [ now exists (String c a) | ].
  intros _. rewrite length_append. cbn. lia.
Qed.
Lemma good_take_until_char : forall n c, good false n (take_until_char c).
Proof.
  intros n c s Hs. unfold take_until_char. destruct (span _ s) as [a b] eqn:E.
  apply span_append in E. destruct b as [|d b]; auto. split; [ now exists a | discriminate ].
Qed.

(** ** Repetition *)
Lemma many0_go_good : forall A k n (p : Parser A), good k n p ->
  forall fuel s, String.length s < n -> String.length s < fuel ->
  match many0_go p fuel s with
  | POk r _ => is_suffix r s
  | PErr => True
  | _ => False
  end.
Proof.
  intros A k n p Hp. induction fuel as [|f IH]; intros s Hn Hf; [ lia | ]. cbn.
  pose proof (Hp s Hn) as H. destruct (p s) as [r a| | |]; auto; [ | apply suffix_refl ].
  destruct H as [Hsuf _]. pose proof (suffix_length _ _ Hsuf) as Hl.
  destruct (Nat.eqb (String.length r) (String.length s)) eqn:E; auto.
  apply Nat.eqb_neq in E. specialize (IH r ltac:(lia) ltac:(lia)).
  destruct (many0_go p f r); auto. eapply suffix_trans; eauto.
Qed.
Lemma good_many0 : forall A k n (p : Parser A), good k n p -> good false n (many0 p).
Proof.
  intros A k n p Hp s Hs. unfold many0.
  pose proof (many0_go_good A k n p Hp (S (String.length s)) s Hs (Nat.lt_succ_diag_r _)) as H.
  destruct (many0_go p (S (String.length s)) s); auto. split; auto; discriminate.
Qed.
Lemma good_many1 : forall A k n (p : Parser A), good k n p -> good k n (many1 p).
Proof.
  intros. unfold many1. apply good_bind; auto. intro a.
  apply good_bind; [ eapply good_many0; eauto | intro l; apply good_ret ].
Qed.
Lemma good_many2 : forall A k n (p : Parser A), good k n p -> good false n (many2 p).
Proof. intros. unfold many2. apply good_verify. eapply good_many0; eauto. Qed.
Lemma sep_go_good : forall A B k k' n (sep : Parser B) (p : Parser A),
  good k' n sep -> good k n p ->
  forall fuel s, String.length s < n -> String.length s < fuel ->
  match sep_go sep p fuel s with
  | POk r _ => is_suffix r s
  | PErr => True
  | _ => False
  end.
Proof.
  intros A B k k' n sep p Hsep Hp. induction fuel as [|f IH]; intros s Hn Hf; [ lia | ]. cbn.
  pose proof (Hsep s Hn) as H. destruct (sep s) as [r b| | |]; auto; [ | apply suffix_refl ].
  destruct H as [Hsuf _]. pose proof (suffix_length _ _ Hsuf) as Hl.
  destruct (Nat.eqb (String.length r) (String.length s)) eqn:E; auto.
  apply Nat.eqb_neq in E.
  pose proof (Hp r ltac:(lia)) as H. destruct (p r) as [r2 a| | |]; auto; [ | apply suffix_refl ].
  destruct H as [Hsuf2 _]. pose proof (suffix_length _ _ Hsuf2) as Hl2.
  specialize (IH r2 ltac:(lia) ltac:(lia)).
  destruct (sep_go sep p f r2); auto. eapply suffix_trans; [ eauto | ]. eapply suffix_trans; eauto.
Qed.
Lemma good_separated_list1 : forall A B k k' n (sep : Parser B) (p : Parser A),
  good k' n sep -> good k n p -> good k n (separated_list1 sep p).
Proof.
  intros A B k k' n sep p Hsep Hp. unfold separated_list1. apply good_bind; auto. intro a.
  apply good_bind; [ | intro l; apply good_ret ].
  intros s Hs.
  pose proof (sep_go_good A B k k' n sep p Hsep Hp (S (String.length s)) s Hs (Nat.lt_succ_diag_r _)) as H.
  destruct (sep_go sep p (S (String.length s)) s); auto. split; auto; discriminate.
Qed.
Lemma good_separated_list0 : forall A B k k' n (sep : Parser B) (p : Parser A),
  good k' n sep -> good k n p -> good false n (separated_list0 sep p).
Proof.
  intros A B k k' n sep p Hsep Hp s Hs. unfold separated_list0.
  pose proof (Hp s Hs) as H. destruct (p s) as [r a| | |]; auto.
  - destruct H as [Hsuf _]. pose proof (suffix_length _ _ Hsuf) as Hl.
    pose proof (sep_go_good A B k k' n sep p Hsep Hp (S (String.length r)) r ltac:(lia)
                  (Nat.lt_succ_diag_r _)) as H.
    destruct (sep_go sep p (S (String.length r)) r); auto. split; [ | discriminate ].
    eapply suffix_trans; eauto.
  - split; [ apply suffix_refl | discriminate ].
Qed.

(** ** The lexer *)
Lemma good_multispace0 : forall n, good false n multispace0.
Proof. intro n. apply good_take_while. Qed.
Lemma good_multispace1 : forall n, good true n multispace1.
Proof. intro n. apply good_take_while1. Qed.
Lemma good_ws : forall A k n (p : Parser A), good k n p -> good k n (ws p).
Proof.
  intros. unfold ws, delimited. apply good_bind_r; [ apply good_multispace0 | intro a ].
  apply good_bind; auto. intro b.
  apply good_bind; [ apply good_multispace0 | intro c; apply good_ret ].
Qed.

Create HintDb gd discriminated.
#[export] Hint Resolve good_ret good_fail good_eof good_multispace0 good_satisfy good_take_while
  good_take_until_char good_tag_f good_tag_no_case_f : gd.
#[export] Hint Extern 1 (good false _ multispace1) => apply good_weaken, good_multispace1 : gd.
#[export] Hint Extern 1 (good true _ multispace1) => apply good_multispace1 : gd.

(** Structural decomposition; [gd] solves goals about non-recursive parsers. *)
Ltac gd_step :=
  match goal with
  | |- forall _, _ => intro
  | H : good _ _ ?p |- good _ _ ?p => exact H
  | H : good _ _ ?p |- good false _ ?p => eapply good_false; exact H
  | |- good true _ (tag ?t) => apply (good_tag _ t)
  | |- good true _ (tag_no_case ?t) => apply (good_tag_no_case _ t)
  | |- good true _ multispace1 => apply good_multispace1
  | |- good false _ multispace1 => apply good_weaken, good_multispace1
  | |- good true _ (take_while1 _) => apply good_take_while1
  | |- good false _ (take_while1 _) => apply good_weaken, good_take_while1
  | |- good true _ (satisfy _) => apply good_satisfy
  | |- good false _ (satisfy _) => apply good_weaken, good_satisfy
  | |- good _ _ (p_map _ _) => apply good_map
  | |- good _ _ (p_or _ _) => apply good_or
  | |- good _ _ (pair_ _ _) => apply good_pair
  | |- good _ _ (preceded _ _) => apply good_preceded
  | |- good _ _ (terminated _ _) => apply good_terminated
  | |- good _ _ (delimited _ _ _) => apply good_delimited
  | |- good _ _ (separated_pair _ _ _) => apply good_separated_pair
  | |- good _ _ (opt _) => apply (good_opt _ false)
  | |- good _ _ (peek _) => apply (good_peek _ false)
  | |- good _ _ (verify _ _) => apply good_verify
  | |- good _ _ (unwrapped _) => apply good_unwrapped
  | |- good _ _ (all_consuming _) => apply good_all_consuming
  | |- good _ _ (recognize _) => apply good_recognize
  | |- good _ _ (many0 _) => apply (good_many0 _ false)
  | |- good _ _ (many1 _) => apply good_many1
  | |- good _ _ (many2 _) => apply (good_many2 _ false)
  | |- good _ _ (separated_list0 _ _) => apply (good_separated_list0 _ _ false false)
  | |- good _ _ (separated_list1 _ _) => apply (good_separated_list1 _ _ _ false)
  | |- good _ _ (ws _) => apply good_ws
  | |- good _ _ (p_bind _ _) => apply good_bind
  | |- good _ _ (match ?x with _ => _ end) => destruct x
  | |- good _ _ _ => solve [ auto with gd ]
  end.
Ltac gd := repeat gd_step.

Lemma good_ws_right : forall A k n (p : Parser A), good k n p -> good k n (ws_right p).
Proof. intros. unfold ws_right. gd. Qed.
Lemma good_ws_left : forall A k n (p : Parser A), good k n p -> good k n (ws_left p).
Proof. intros. unfold ws_left. apply good_preceded_r; gd. Qed.
Lemma good_parenthesized : forall A n (p : Parser A), good false n p -> good true n (parenthesized p).
Proof.
  intros. unfold parenthesized. apply good_delimited; auto.
  - apply good_ws_right. gd.
  - apply good_ws_left. gd.
Qed.
Lemma good_parenthesized_dec : forall A n (p : Parser A),
  good false n p -> good true (S n) (parenthesized p).
Proof.
  intros. unfold parenthesized, delimited. apply good_bind_dec; [ apply good_ws_right; gd | intro a ].
  apply good_bind; auto. intro b. apply good_bind; [ apply good_ws_left; gd | gd ].
Qed.
Ltac gd_step2 :=
  match goal with
  | |- good true _ (parenthesized _) => apply good_parenthesized
  | |- good false _ (parenthesized _) => apply good_weaken, good_parenthesized
  | _ => gd_step
  end.
Ltac gds := repeat gd_step2.

Lemma good_digit1 : forall n, good true n digit1.
Proof. intro n. unfold digit1. gd. Qed.
Lemma good_alphanumeric1 : forall n, good true n alphanumeric1.
Proof. intro n. unfold alphanumeric1. gd. Qed.
Ltac from H := first [ apply H | apply good_weaken; apply H ].
#[export] Hint Extern 1 (good _ _ digit1) => from good_digit1 : gd.
#[export] Hint Extern 1 (good _ _ alphanumeric1) => from good_alphanumeric1 : gd.

Lemma good_comma_sep : forall n, good true n comma_sep.
Proof. intro n. unfold comma_sep. gd. Qed.
#[export] Hint Extern 1 (good _ _ comma_sep) => from good_comma_sep : gd.
Lemma good_comma_or_space_sep : forall n, good true n comma_or_space_sep.
Proof. intro n. unfold comma_or_space_sep. gd. Qed.
#[export] Hint Extern 1 (good _ _ comma_or_space_sep) => from good_comma_or_space_sep : gd.

Lemma good_alt_tags : forall l n, good false n (alt_tags l).
Proof.
  induction l as [|t l IH]; intro n; [ apply good_fail | ].
  change (alt_tags (t :: l)) with (match l with nil => tag_no_case t | _ => tag_no_case t <|> alt_tags l end).
  destruct l; gd.
Qed.
#[export] Hint Resolve good_alt_tags : gd.
Lemma good_time_unit : forall n, good false n time_unit.
Proof. intro n. unfold time_unit, unit_normalizer. gd. Qed.
#[export] Hint Resolve good_time_unit : gd.
Lemma good_p_sign : forall n, good false n p_sign.
Proof. intro n. unfold p_sign. gd. Qed.
#[export] Hint Resolve good_p_sign : gd.
Lemma good_p_int : forall n, good false n p_int.
Proof. intro n. unfold p_int. gd. Qed.
#[export] Hint Resolve good_p_int : gd.
Lemma good_p_double : forall n, good false n p_double.
Proof. intro n. unfold p_double. gd. Qed.
#[export] Hint Resolve good_p_double : gd.
Lemma good_time_span : forall n, good false n time_span.
Proof. intro n. unfold time_span. gd. Qed.
#[export] Hint Resolve good_time_span : gd.
Lemma good_relative_time : forall n, good false n relative_time.
Proof. intro n. unfold relative_time, relative_time_fmt, time_span_one. gd. Qed.
#[export] Hint Resolve good_relative_time : gd.

Lemma good_escaped_char : forall n, good true n escaped_char.
Proof. intro n. unfold escaped_char, anychar. gd. Qed.
#[export] Hint Extern 1 (good _ _ escaped_char) => from good_escaped_char : gd.
Lemma good_token_of : forall l n, good true n (token_of l).
Proof. intros l n. unfold token_of, one_of. gd. Qed.
#[export] Hint Extern 1 (good _ _ (token_of _)) => from good_token_of : gd.
Lemma good_token : forall n, good true n token.
Proof. intro n. unfold token. apply good_token_of. Qed.
#[export] Hint Extern 1 (good _ _ token) => from good_token : gd.
Lemma good_token_with_extras : forall n, good true n token_with_extras.
Proof. intro n. unfold token_with_extras. apply good_token_of. Qed.
#[export] Hint Extern 1 (good _ _ token_with_extras) => from good_token_with_extras : gd.
Lemma good_p_bool : forall n, good true n p_bool.
Proof. intro n. unfold p_bool, one_of. gd. Qed.
#[export] Hint Extern 1 (good _ _ p_bool) => from good_p_bool : gd.
Lemma good_quoted_content : forall q n, good false n (quoted_content q).
Proof. intros q n. unfold quoted_content, none_of. gd. Qed.
#[export] Hint Resolve good_quoted_content : gd.
Lemma good_double_quoted : forall n, good true n double_quoted.
Proof. intro n. unfold double_quoted. gd. Qed.
#[export] Hint Extern 1 (good _ _ double_quoted) => from good_double_quoted : gd.
Lemma good_single_quoted : forall n, good true n single_quoted.
Proof. intro n. unfold single_quoted. gd. Qed.
#[export] Hint Extern 1 (good _ _ single_quoted) => from good_single_quoted : gd.
Lemma good_wildcard : forall n, good true n wildcard.
Proof. intro n. unfold wildcard. gd. Qed.
#[export] Hint Extern 1 (good _ _ wildcard) => from good_wildcard : gd.
Lemma good_double_quoted_alt : forall n, good true n double_quoted_alt.
Proof. intro n. unfold double_quoted_alt, none_of. gd. Qed.
#[export] Hint Extern 1 (good _ _ double_quoted_alt) => from good_double_quoted_alt : gd.
Lemma good_token_not_t_f : forall n, good true n token_not_t_f.
Proof. intro n. unfold token_not_t_f. gd. Qed.
#[export] Hint Extern 1 (good _ _ token_not_t_f) => from good_token_not_t_f : gd.
Lemma good_field : forall n, good true n field.
Proof. intro n. unfold field, field_fmt. gd. Qed.
#[export] Hint Extern 1 (good _ _ field) => from good_field : gd.
Lemma good_p_string : forall n, good true n p_string.
Proof. intro n. unfold p_string. gd. Qed.
#[export] Hint Extern 1 (good _ _ p_string) => from good_p_string : gd.
Lemma good_variable : forall n, good true n variable.
Proof. intro n. unfold variable. gd. Qed.
#[export] Hint Extern 1 (good _ _ variable) => from good_variable : gd.
Lemma good_byte : forall n, good true n byte.
Proof. intro n. unfold byte. gd. Qed.
#[export] Hint Extern 1 (good _ _ byte) => from good_byte : gd.
Lemma good_ipv4_addr : forall n, good true n ipv4_addr.
Proof. intro n. unfold ipv4_addr. gd. Qed.
#[export] Hint Extern 1 (good _ _ ipv4_addr) => from good_ipv4_addr : gd.
Lemma good_ipv4_cidr : forall n, good true n ipv4_cidr.
Proof. intro n. unfold ipv4_cidr. gd. Qed.
#[export] Hint Extern 1 (good _ _ ipv4_cidr) => from good_ipv4_cidr : gd.
Lemma good_ipv6_addr : forall n, good false n ipv6_addr.
Proof. intro n. unfold ipv6_addr. gd. Qed.
#[export] Hint Resolve good_ipv6_addr : gd.
Lemma good_literal_text : forall n, good true n literal_text.
Proof. intro n. unfold literal_text. gd. Qed.
#[export] Hint Extern 1 (good _ _ literal_text) => from good_literal_text : gd.
Lemma good_literal_value : forall n, good false n literal_value.
Proof. intro n. unfold literal_value. gd. Qed.
Lemma good_constant_value : forall n, good false n constant_value.
Proof. intro n. unfold constant_value. gd. Qed.
Lemma good_literal : forall n, good true n literal.
Proof.
  intro n. unfold literal. apply good_map_parser; [ gd | ].
  intros s r t _ _. apply good_out. apply good_literal_value.
Qed.
#[export] Hint Extern 1 (good _ _ literal) => from good_literal : gd.
Lemma good_constant : forall n, good true n constant.
Proof.
  intro n. unfold constant. apply good_map_parser; [ gd | ].
  intros s r t _ _. apply good_out. apply good_constant_value.
Qed.
#[export] Hint Extern 1 (good _ _ constant) => from good_constant : gd.
Lemma good_field_and_value : forall n, good true n field_and_value.
Proof. intro n. unfold field_and_value. gd. Qed.
#[export] Hint Extern 1 (good _ _ field_and_value) => from good_field_and_value : gd.
Lemma good_field_and_constant : forall n, good true n field_and_constant.
Proof. intro n. unfold field_and_constant. gd. Qed.
#[export] Hint Extern 1 (good _ _ field_and_constant) => from good_field_and_constant : gd.
Lemma good_command_options : forall n, good false n command_options.
Proof. intro n. unfold command_options. gd. Qed.
#[export] Hint Resolve good_command_options : gd.
Lemma good_field_list0 : forall n, good false n field_list0.
Proof. intro n. unfold field_list0, comma_or_space_separated_list0. gd. Qed.
#[export] Hint Resolve good_field_list0 : gd.
Lemma good_field_list1 : forall n, good true n field_list1.
Proof. intro n. unfold field_list1, comma_or_space_separated_list1. gd. Qed.
#[export] Hint Extern 1 (good _ _ field_list1) => from good_field_list1 : gd.
Lemma good_op_and : forall n, good true n op_and.
Proof. intro n. unfold op_and. gd. Qed.
#[export] Hint Extern 1 (good _ _ op_and) => from good_op_and : gd.
Lemma good_op_or : forall n, good true n op_or.
Proof. intro n. unfold op_or. gd. Qed.
#[export] Hint Extern 1 (good _ _ op_or) => from good_op_or : gd.
Lemma good_op_not : forall n, good true n op_not.
Proof. intro n. unfold op_not. gd. Qed.
#[export] Hint Extern 1 (good _ _ op_not) => from good_op_not : gd.
Lemma good_op_concat : forall n, good true n op_concat.
Proof.
  intro n. unfold op_concat, delimited. apply good_bind_r; [ gd | intro a ].
  apply good_bind; gd.
Qed.
#[export] Hint Extern 1 (good _ _ op_concat) => from good_op_concat : gd.
Lemma good_op_equals : forall n, good true n op_equals.
Proof. intro n. unfold op_equals. gd. Qed.
#[export] Hint Extern 1 (good _ _ op_equals) => from good_op_equals : gd.
Lemma good_comparison_operator : forall n, good true n comparison_operator.
Proof. intro n. unfold comparison_operator. gd. Qed.
#[export] Hint Extern 1 (good _ _ comparison_operator) => from good_comparison_operator : gd.
Lemma good_field_in : forall n, good true n field_in.
Proof. intro n. unfold field_in, comma_or_space_separated_list0. gds. Qed.
#[export] Hint Extern 1 (good _ _ field_in) => from good_field_in : gd.
Lemma good_term_call : forall n, good true n term_call.
Proof. intro n. unfold term_call. gds. Qed.
#[export] Hint Extern 1 (good _ _ term_call) => from good_term_call : gd.
Lemma good_aliased_field : forall n, good true n aliased_field.
Proof. intro n. unfold aliased_field. gd. Qed.
#[export] Hint Extern 1 (good _ _ aliased_field) => from good_aliased_field : gd.
Lemma good_search_modifier : forall n, good true n search_modifier.
Proof. intro n. unfold search_modifier. gd. Qed.
#[export] Hint Extern 1 (good _ _ search_modifier) => from good_search_modifier : gd.
Lemma good_time_opts : forall n, good false n time_opts.
Proof. intro n. unfold time_opts, time_format, space_separated_list1, time_modifier. gd. Qed.
#[export] Hint Resolve good_time_opts : gd.
Lemma good_maybe_spanned_field_list1 : forall n, good true n maybe_spanned_field_list1.
Proof.
  intro n. unfold maybe_spanned_field_list1, maybe_spanned_field, comma_or_space_separated_list1. gd.
Qed.
#[export] Hint Extern 1 (good _ _ maybe_spanned_field_list1) => from good_maybe_spanned_field_list1 : gd.
