(** Facts about macro loader objects *)
From Coq Require Import Lia.
From Verif Require Import Str SplAst Nom Lexer Parser CmdParser Macros Loaders SpecLoaders.
Open Scope string_scope.
Open Scope list_scope.

Section L.
Variable odd : OddGlob.

(** What a lookup shows, without the note it makes of it *)
Fixpoint shown (fuel : nat) (w : World) (id : nat) (item : string) : Outcome :=
  match fuel with
  | O => Failed
  | S fuel' =>
      match nth_error (w_objects w) id with
      | None => Failed
      | Some (ORegistry items) => match registry items item with Some d => Found d | None => Missing end
      | Some (OFolder root suffix load) =>
          match cached (w_cache w) id item with
          | Some d => Found d
          | None => read_folder odd (w_files w) root suffix load item
          end
      | Some (OCombined loaders fallback) =>
          first_of (map (fun i => shown fuel' w i item) loaders) (match fallback with Some f => f item | None => Missing end)
      end
  end.
Definition alike (w w' : World) : Prop :=
  w_files w' = w_files w /\ w_objects w' = w_objects w /\ (forall fuel id item, shown fuel w' id item = shown fuel w id item).
Lemma alike_refl : forall w, alike w w.
Proof. intro w. repeat split. Qed.
Lemma alike_trans : forall a b c, alike a b -> alike b c -> alike a c.
Proof.
  intros a b c (A1 & A2 & A3) (B1 & B2 & B3). split; [ congruence | ]. split; [ congruence | ]. intros. rewrite B3. apply A3.
Qed.
Lemma remember_alike : forall w id item d root suffix load, nth_error (w_objects w) id = Some (OFolder root suffix load) ->
  cached (w_cache w) id item = None -> read_folder odd (w_files w) root suffix load item = Found d -> alike w (remember w id item d).
Proof.
  intros w id item d root suffix load N C R. split; [ reflexivity | ]. split; [ reflexivity | ].
  induction fuel as [|fuel IH]; intros id' item'; [ reflexivity | ]. cbn [shown remember w_objects w_files w_cache].
  destruct (nth_error (w_objects w) id') as [[items|root' suffix' load'|ids fb]|] eqn:N'; try reflexivity.
  - cbn [cached]. destruct (Nat.eqb id id' && (item =? item')%string) eqn:E; [ | reflexivity ].
    apply andb_prop in E as [E1 E2]. apply Nat.eqb_eq in E1. apply String.eqb_eq in E2. subst id' item'.
    rewrite C. rewrite N in N'. injection N' as <- <- <-. now rewrite R.
  - f_equal. apply map_ext. intro i. apply IH.
Qed.
Lemma getitem_shown : forall fuel w id item,
  fst (getitem odd fuel w id item) = shown fuel w id item /\ alike w (snd (getitem odd fuel w id item)).
Proof.
  induction fuel as [|fuel IH]; intros w id item; [ split; [ reflexivity | apply alike_refl ] | ].
  cbn [getitem shown]. destruct (nth_error (w_objects w) id) as [[items|root suffix load|ids fb]|] eqn:N;
    [ split; [ reflexivity | apply alike_refl ] | | | split; [ reflexivity | apply alike_refl ] ].
  - destruct (cached (w_cache w) id item) as [d|] eqn:C; [ split; [ reflexivity | apply alike_refl ] | ].
    destruct (read_folder odd (w_files w) root suffix load item) as [d| |] eqn:R; cbn [fst snd];
      [ split; [ reflexivity | eapply remember_alike; eassumption ] | split; [ reflexivity | apply alike_refl ].. ].
  - clear N. revert w. induction ids as [|i ids IHi]; intro w; [ split; [ reflexivity | apply alike_refl ] | ].
    cbn [map first_of]. destruct (IH w i item) as [E A]. destruct (getitem odd fuel w i item) as [o w'] eqn:G. cbn [fst snd] in *. subst o.
    destruct (shown fuel w i item) as [d| |] eqn:S; cbn [fst snd]; [ split; [ reflexivity | exact A ] | | split; [ reflexivity | exact A ] ].
    destruct (IHi w') as [E' A']. split; [ | eapply alike_trans; eassumption ].
    rewrite E'. f_equal. apply map_ext. intro j. apply A.
Qed.
Lemma lookup_shown : forall w id item, fst (lookup odd w id item) = shown (S (List.length (w_objects w))) w id item.
Proof. intros. apply getitem_shown. Qed.
Lemma lookup_alike : forall w id item, alike w (snd (lookup odd w id item)).
Proof. intros. apply getitem_shown. Qed.
Lemma alike_lookup : forall w w' id item, alike w w' -> fst (lookup odd w' id item) = fst (lookup odd w id item).
Proof. intros w w' id item (A1 & A2 & A3). rewrite !lookup_shown, A2. apply A3. Qed.

(** Objects ask earlier objects only *)
Definition downward (l : list Object) : Prop :=
  forall id ids fb, nth_error l id = Some (OCombined ids fb) -> Forall (fun i => i < id) ids.
Lemma shown_fuel : forall w, downward (w_objects w) -> forall f1 f2 id item, id < f1 -> id < f2 -> shown f1 w id item = shown f2 w id item.
Proof.
  intros w D. induction f1 as [|f1 IH]; intros f2 id item L1 L2; [ lia | ]. destruct f2 as [|f2]; [ lia | ]. cbn [shown].
  destruct (nth_error (w_objects w) id) as [[items|root suffix load|ids fb]|] eqn:N; try reflexivity.
  f_equal. apply map_ext_in. intros i I. specialize (D id ids fb N). rewrite Forall_forall in D. specialize (D i I). apply IH; lia.
Qed.

(** ** Sessions *)
Definition skel (o : Object) : Object := match o with ORegistry _ => ORegistry [] | _ => o end.
Lemma update_length : forall l id f, List.length (update_at l id f) = List.length l.
Proof. induction l as [|o l IH]; intros [|id] f; cbn; auto. Qed.
Lemma update_nth : forall l id f j, nth_error (update_at l id f) j = if Nat.eqb j id then option_map f (nth_error l j) else nth_error l j.
Proof.
  induction l as [|o l IH]; intros [|id] f [|j]; cbn; try reflexivity.
  - now destruct (Nat.eqb j id).
  - apply IH.
Qed.
Lemma add_item_downward : forall l id name d, downward l -> downward (update_at l id (add_item name d)).
Proof.
  intros l id name d D j ids fb N. rewrite update_nth in N. destruct (Nat.eqb j id); [ | now apply (D j ids fb) ].
  destruct (nth_error l j) as [o|] eqn:E; [ | discriminate ]. injection N as N. apply (D j ids fb). destruct o; cbn in N; congruence.
Qed.
Lemma session_snoc : forall h e, session odd (h ++ [e]) = step odd (session odd h) e.
Proof. intros. unfold session. now rewrite fold_left_app. Qed.
Lemma possible_app : forall h1 h2 n, possible n (h1 ++ h2) <-> possible n h1 /\ possible (n + List.length (made h1)) h2.
Proof.
  induction h1 as [|e h1 IH]; intros h2 n; [ cbn [app made flat_map List.length possible]; rewrite Nat.add_0_r; tauto | ].
  destruct e as [o|id name d|fs|id name].
  - assert (E : n + List.length (made (New o :: h1)) = S n + List.length (made h1)) by (unfold made; cbn; lia).
    rewrite E. cbn [app]. destruct o; cbn [possible]; rewrite IH; tauto.
  - change (made (Register id name d :: h1)) with (made h1). cbn [app possible]. rewrite IH. tauto.
  - change (made (FilesBecome fs :: h1)) with (made h1). cbn [app possible]. rewrite IH. tauto.
  - change (made (Lookup id name :: h1)) with (made h1). cbn [app possible]. rewrite IH. tauto.
Qed.
Lemma made_app : forall h1 h2, made (h1 ++ h2) = made h1 ++ made h2.
Proof. intros. apply flat_map_app. Qed.
Lemma snoc_length : forall h e, List.length (made (h ++ [e])) = List.length (made h) + match e with New _ => 1 | _ => 0 end.
Proof. intros h e. rewrite made_app, app_length. now destruct e. Qed.

Lemma session_files : forall h, w_files (session odd h) = files_after h.
Proof.
  intro h. induction h as [|e h IH] using rev_ind; [ reflexivity | ]. rewrite session_snoc. unfold files_after. rewrite fold_left_app.
  fold (files_after h). destruct e; cbn [step w_files fold_left]; try exact IH; try reflexivity.
  destruct (lookup_alike (session odd h) id name) as [F _]. now rewrite F.
Qed.
Lemma session_length : forall h, List.length (w_objects (session odd h)) = List.length (made h).
Proof.
  intro h. induction h as [|e h IH] using rev_ind; [ reflexivity | ]. rewrite session_snoc, snoc_length.
  destruct e as [o|id name d|fs|id name]; cbn [step w_objects].
  - rewrite app_length, IH. reflexivity.
  - rewrite update_length, IH. lia.
  - rewrite IH. lia.
  - destruct (lookup_alike (session odd h) id name) as [_ [O _]]. rewrite O, IH. lia.
Qed.
Lemma nth_snoc : forall {A} (l : list A) x j y, nth_error (l ++ [x]) j = Some y ->
  nth_error l j = Some y /\ j < List.length l \/ j = List.length l /\ y = x.
Proof.
  intros A l x j y H. destruct (Nat.lt_ge_cases j (List.length l)) as [L|G].
  - rewrite nth_error_app1 in H by exact L. auto.
  - rewrite nth_error_app2 in H by exact G. destruct (j - List.length l) as [|k] eqn:E; cbn in H; [ | destruct k; discriminate ].
    injection H as ->. right. split; [ lia | reflexivity ].
Qed.
Lemma session_downward : forall h, possible 0 h -> downward (w_objects (session odd h)).
Proof.
  intro h. induction h as [|e h IH] using rev_ind; [ intros _ [|id] ids fb N; discriminate | ].
  intro P. apply possible_app in P as [P1 P2]. specialize (IH P1). rewrite session_snoc.
  destruct e as [o|id name d|fs|id name]; cbn [step w_objects].
  - intros j ids fb N. apply nth_snoc in N as [[N _]|[-> <-]]; [ now apply (IH j ids fb) | ].
    cbn [possible] in P2. rewrite session_length. cbn in P2. tauto.
  - now apply add_item_downward.
  - exact IH.
  - destruct (lookup_alike (session odd h) id name) as [_ [O _]]. now rewrite O.
Qed.
(** The object with a number, after the session *)
Definition grown (id : nat) (h : list Event) (o : Object) : Object :=
  match o with
  | ORegistry items => ORegistry (items ++ flat_map (fun e => match e with Register i n d => if Nat.eqb i id then [(n, d)] else [] | _ => [] end) h)
  | _ => o
  end.
Lemma registers_before : forall h n id, possible n h -> n + List.length (made h) <= id ->
  flat_map (fun e => match e with Register i n d => if Nat.eqb i id then [(n, d)] else [] | _ => [] end) h = [].
Proof.
  induction h as [|e h IH]; intros n id P L; [ reflexivity | ]. cbn [flat_map].
  destruct e as [o|i name d|fs|i name].
  - cbn [app]. apply (IH (S n)); [ destruct o; cbn in P; tauto | ]. unfold made in *. cbn [flat_map app List.length] in L. lia.
  - cbn [possible] in P. change (made (Register i name d :: h)) with (made h) in L.
    destruct (Nat.eqb_spec i id); [ lia | ]. cbn [app]. now apply (IH n).
  - cbn [possible] in P. now apply (IH n).
  - cbn [possible] in P. now apply (IH n).
Qed.
Lemma session_object : forall h id, possible 0 h -> nth_error (w_objects (session odd h)) id = option_map (grown id h) (nth_error (made h) id).
Proof.
  intro h. induction h as [|e h IH] using rev_ind; intros id P; [ destruct id; reflexivity | ].
  apply possible_app in P as [P1 P2]. specialize (IH id P1). rewrite session_snoc, made_app.
  assert (K : (match e with Register _ _ _ => False | _ => True end) -> forall o, grown id (h ++ [e]) o = grown id h o).
  { intros H o. destruct o; cbn [grown]; try reflexivity. rewrite flat_map_app. destruct e; try contradiction; cbn [flat_map]; now rewrite !app_nil_r. }
  destruct e as [o|i name d|fs|i name]; cbn [step w_objects].
  - destruct (Nat.lt_trichotomy id (List.length (made h))) as [L|[E|G]].
    + rewrite nth_error_app1 by now rewrite session_length. rewrite nth_error_app1 by exact L. rewrite IH.
      destruct (nth_error (made h) id); [ | reflexivity ]. cbn [option_map]. now rewrite K.
    + rewrite nth_error_app2 by (rewrite session_length; lia). rewrite nth_error_app2 by lia. rewrite session_length.
      rewrite E, Nat.sub_diag. cbn. rewrite <- E. f_equal. destruct o; cbn [grown]; try reflexivity.
      rewrite flat_map_app. cbn [flat_map]. rewrite (registers_before h 0 id P1) by (cbn; lia). now rewrite !app_nil_r.
    + rewrite nth_error_app2 by (rewrite session_length; lia). rewrite nth_error_app2 by lia. rewrite session_length.
      cbn [made flat_map app]. destruct (id - List.length (made h)) as [|k] eqn:E; [ lia | ]. destruct k; reflexivity.
  - cbn [made flat_map]. rewrite app_nil_r. rewrite update_nth, IH. fold (made h).
    destruct (nth_error (made h) id) as [o|]; [ | now destruct (Nat.eqb id i) ]. cbn [option_map].
    destruct (Nat.eqb_spec id i) as [->|Ne]; f_equal; destruct o; cbn [grown add_item]; try reflexivity;
      rewrite flat_map_app; cbn [flat_map].
    + rewrite Nat.eqb_refl, app_nil_r, <- app_assoc. reflexivity.
    + destruct (Nat.eqb_spec i id); [ congruence | ]. now rewrite !app_nil_r.
  - cbn [made flat_map]. rewrite app_nil_r. fold (made h). rewrite IH. destruct (nth_error (made h) id); [ | reflexivity ]. cbn [option_map]. now rewrite K.
  - cbn [made flat_map]. rewrite app_nil_r. fold (made h). destruct (lookup_alike (session odd h) i name) as [_ [O _]]. rewrite O, IH.
    destruct (nth_error (made h) id); [ | reflexivity ]. cbn [option_map]. now rewrite K.
Qed.

(** ** C77 *)
Lemma registry_last : forall items name,
  match registry items name with Some d => Found d | None => Missing end = last_of (map snd (filter (fun kv => (fst kv =? name)%string) items)).
Proof.
  induction items as [|[k d] items IH]; intro name; [ reflexivity | ]. cbn [registry filter fst]. specialize (IH name).
  unfold last_of in *. destruct (k =? name)%string.
  - cbn [map rev snd]. destruct (registry items name) as [d'|].
    + destruct (rev _) as [|y l]; [ discriminate IH | ]. cbn [app]. exact IH.
    + destruct (rev _) as [|y l]; [ reflexivity | discriminate IH ].
  - destruct (registry items name) as [d'|]; exact IH.
Qed.
Lemma registry_gives : forall h id items name, possible 0 h -> nth_error (made h) id = Some (ORegistry items) ->
  gives odd h id name (last_of (given items id name h)).
Proof.
  intros h id items name P N. unfold gives. rewrite lookup_shown. cbn [shown]. rewrite (session_object h id P), N. cbn [option_map grown].
  rewrite registry_last. f_equal. unfold given. rewrite filter_app, map_app. f_equal. clear.
  induction h as [|e h IH]; [ reflexivity | ]. cbn [flat_map]. rewrite filter_app, map_app, IH. f_equal.
  destruct e as [o|i n d|fs|i n]; try reflexivity. destruct (Nat.eqb i id); [ | reflexivity ]. cbn. now destruct (n =? name)%string.
Qed.

(** ** C78 *)
Lemma combined_gives : forall h id ids fallback name, possible 0 h -> nth_error (made h) id = Some (OCombined ids fallback) ->
  exists outs, Forall2 (fun i o => gives odd h i name o) ids outs /\
    gives odd h id name (first_of outs (match fallback with Some f => f name | None => Missing end)).
Proof.
  intros h id ids fb name P N. exists (map (fun i => fst (lookup odd (session odd h) i name)) ids). split.
  - clear. induction ids; constructor; [ reflexivity | assumption ].
  - unfold gives. rewrite lookup_shown. cbn [shown]. rewrite (session_object h id P), N. cbn [option_map grown]. f_equal.
    apply map_ext_in. intros i I. rewrite lookup_shown. pose proof (session_downward h P) as D.
    assert (Ni : nth_error (w_objects (session odd h)) id = Some (OCombined ids fb)) by now rewrite (session_object h id P), N.
    assert (B : id < List.length (w_objects (session odd h))) by (apply nth_error_Some; congruence).
    specialize (D id ids fb Ni). rewrite Forall_forall in D. specialize (D i I).
    apply shown_fuel; [ now apply session_downward | lia | lia ].
Qed.

(** ** C79 *)
Definition folder_at (h : list Event) (id : nat) root suffix load : Prop := nth_error (made h) id = Some (OFolder root suffix load).
Lemma folder_shown : forall h id root suffix load name, possible 0 h -> nth_error (made h) id = Some (OFolder root suffix load) ->
  fst (lookup odd (session odd h) id name) =
  match cached (w_cache (session odd h)) id name with Some d => Found d | None => read_folder odd (files_after h) root suffix load name end.
Proof.
  intros h id root suffix load name P N. rewrite lookup_shown. cbn [shown]. rewrite (session_object h id P), N. cbn [option_map grown].
  now rewrite session_files.
Qed.
(** Notes in the cache: kept, and made of what the files said *)
Definition noted (w : World) (id : nat) (name : string) : option MacroDefinition := cached (w_cache w) id name.
Lemma getitem_cache : forall fuel w id name i n d, noted w i n = Some d -> noted (snd (getitem odd fuel w id name)) i n = Some d.
Proof.
  induction fuel as [|fuel IH]; intros w id name i n d C; [ exact C | ]. cbn [getitem].
  destruct (nth_error (w_objects w) id) as [[items|root suffix load|ids fb]|] eqn:N; try exact C.
  - destruct (cached (w_cache w) id name) as [d'|] eqn:C'; [ exact C | ].
    destruct (read_folder odd (w_files w) root suffix load name) as [d'| |]; try exact C. cbn [snd]. unfold noted, remember. cbn [w_cache cached].
    destruct (Nat.eqb id i && (name =? n)%string) eqn:E; [ | exact C ]. apply andb_prop in E as [E1 E2].
    apply Nat.eqb_eq in E1. apply String.eqb_eq in E2. subst. unfold noted in C. congruence.
  - clear N. revert w C. induction ids as [|j ids IHi]; intros w C; [ exact C | ].
    specialize (IH w j name i n d C). destruct (getitem odd fuel w j name) as [o w']. cbn [snd] in IH. destruct o; try exact IH. now apply IHi.
Qed.
Lemma getitem_new_note : forall fuel w id name i n d, noted (snd (getitem odd fuel w id name)) i n = Some d ->
  noted w i n = Some d \/ exists root suffix load, nth_error (w_objects w) i = Some (OFolder root suffix load) /\ read_folder odd (w_files w) root suffix load n = Found d.
Proof.
  induction fuel as [|fuel IH]; intros w id name i n d C; [ now left | ]. cbn [getitem] in C.
  destruct (nth_error (w_objects w) id) as [[items|root suffix load|ids fb]|] eqn:N; try (now left).
  - destruct (cached (w_cache w) id name) as [d'|] eqn:C'; [ now left | ].
    destruct (read_folder odd (w_files w) root suffix load name) as [d'| |] eqn:R; try (now left). cbn [snd] in C. unfold noted, remember in C. cbn [w_cache cached] in C.
    destruct (Nat.eqb id i && (name =? n)%string) eqn:E; [ | now left ]. apply andb_prop in E as [E1 E2].
    apply Nat.eqb_eq in E1. apply String.eqb_eq in E2. subst. injection C as ->. right. eauto 6.
  - clear N. revert w C. induction ids as [|j ids IHi]; intros w C; [ now left | ].
    pose proof (IH w j name i n d) as IHj. pose proof (getitem_shown fuel w j name) as [_ (A1 & A2 & A3)].
    destruct (getitem odd fuel w j name) as [o w']. cbn [snd] in *.
    destruct o; try (now apply IHj). apply IHi in C as [C|(r & s & l & H1 & H2)]; [ now apply IHj | ].
    right. exists r, s, l. rewrite A2 in H1. rewrite A1 in H2. auto.
Qed.
Lemma step_keeps : forall w e i n d, noted w i n = Some d -> noted (step odd w e) i n = Some d.
Proof. intros w e i n d C. destruct e; try exact C. now apply getitem_cache. Qed.
Lemma kept : forall h2 h1 i n d, noted (session odd h1) i n = Some d -> noted (session odd (h1 ++ h2)) i n = Some d.
Proof.
  induction h2 as [|e h2 IH]; intros h1 i n d C; [ now rewrite app_nil_r | ].
  replace (h1 ++ e :: h2) with ((h1 ++ [e]) ++ h2) by (now rewrite <- app_assoc). apply IH. rewrite session_snoc. now apply step_keeps.
Qed.
Lemma noted_from : forall h i n d, possible 0 h -> noted (session odd h) i n = Some d ->
  exists h1 h2 root suffix load, h = h1 ++ h2 /\ h2 <> [] /\ nth_error (made h1) i = Some (OFolder root suffix load) /\
    read_folder odd (files_after h1) root suffix load n = Found d.
Proof.
  intro h. induction h as [|e h IH] using rev_ind; intros i n d P C; [ discriminate C | ].
  apply possible_app in P as [P1 P2]. rewrite session_snoc in C.
  assert (K : noted (session odd h) i n = Some d -> exists h1 h2 root suffix load, h ++ [e] = h1 ++ h2 /\ h2 <> [] /\ nth_error (made h1) i = Some (OFolder root suffix load) /\
    read_folder odd (files_after h1) root suffix load n = Found d).
  { intro C'. destruct (IH i n d P1 C') as (h1 & h2 & r & s & l & -> & NE & H). exists h1, (h2 ++ [e]), r, s, l.
    split; [ now rewrite app_assoc | ]. split; [ destruct h2; discriminate | exact H ]. }
  destruct e as [o|id name d'|fs|id name]; try (now apply K).
  apply getitem_new_note in C as [C|(r & s & l & H1 & H2)]; [ now apply K | ].
  exists h, [Lookup id name], r, s, l. split; [ reflexivity | ]. split; [ discriminate | ].
  rewrite (session_object h i P1) in H1. destruct (nth_error (made h) i) as [o|]; [ | discriminate ]. cbn in H1.
  rewrite session_files in H2. split; [ | exact H2 ]. destruct o; cbn [grown] in H1; try discriminate H1. injection H1 as -> -> ->. reflexivity.
Qed.

(** Reading the files, for simple names *)
Lemma star_simple : forall p s, simple_name p -> star_match p s = (p =? s)%string.
Proof.
  induction p as [|c p IH]; intros s S; [ now destruct s | ]. destruct S as [Hc S]. cbn [star_match].
  destruct (Ascii.eqb_spec c "*"%char) as [->|_]; [ exfalso; apply Hc; now left | ].
  destruct s as [|c' s]; [ reflexivity | ]. rewrite (IH s S). cbn [String.eqb]. destruct (Ascii.eqb c c'); reflexivity.
Qed.
Lemma simple_app : forall a b, simple_name (a ++ b)%string <-> simple_name a /\ simple_name b.
Proof. induction a as [|c a IH]; intro b; cbn [append simple_name]; [ tauto | ]. rewrite IH. tauto. Qed.
Lemma simple_no_char : forall c p, simple_name p -> In c ["*"%char; "/"%char; "\"%char; "?"%char; "["%char] -> has_char c p = false.
Proof.
  intros c p S I. unfold has_char, sexists. apply negb_false_iff. induction p as [|c' p IH]; [ reflexivity | ]. destruct S as [Hc S].
  cbn [sforall]. rewrite (IH S), andb_true_r. apply negb_true_iff. destruct (Ascii.eqb_spec c c') as [->|_]; [ contradiction | reflexivity ].
Qed.
Lemma simple_even : forall p, simple_file p -> odd_pattern p = false.
Proof.
  intros p [S N]. unfold odd_pattern. cbn [existsb].
  rewrite !(simple_no_char _ p S) by (cbn; tauto). cbn [orb].
  assert (C : contains "**" p = false).
  { clear N. induction p as [|c p IH]; [ reflexivity | ]. destruct S as [Hc S]. cbn [contains]. rewrite (IH S), orb_false_r.
    unfold starts_with. cbn [strip_prefix]. destruct (Ascii.eqb_spec "*"%char c) as [<-|_]; [ exfalso; apply Hc; now left | reflexivity ]. }
  rewrite C. cbn [orb]. apply orb_false_intro; [ apply orb_false_intro | ]; apply String.eqb_neq; intros ->; apply N; cbn; tauto.
Qed.
Lemma below_spec : forall root path rest, below root path = Some rest <-> path = root ++ rest.
Proof.
  induction root as [|r root IH]; intros path rest; cbn [below app]; [ split; congruence | ].
  destruct path as [|p path]; [ split; discriminate | ]. destruct (String.eqb_spec r p) as [->|Ne].
  - rewrite IH. split; congruence.
  - split; [ discriminate | congruence ].
Qed.
Lemma last_spec : forall {A} (l : list A) x y, last l x = y <-> exists d, x :: l = d ++ [y].
Proof.
  intros A l. induction l as [|a l IH]; intros x y.
  - cbn. split; [ intros ->; now exists [] | ]. intros (d & E). destruct d as [|b [|b' d]]; cbn in E; congruence.
  - change (last (a :: l) x) with (match l with [] => a | _ => last l x end).
    transitivity (last l a = y).
    { destruct l as [|b l]; [ reflexivity | ]. clear IH. revert b. induction l as [|b' l IHl]; intro b; [ reflexivity | ]. apply (IHl b'). }
    rewrite IH. split; intros (d & E).
    + exists (x :: d). cbn. now rewrite E.
    + destruct d as [|b d]; cbn in E; [ congruence | ]. injection E as -> E. eauto.
Qed.
Definition matches (root : list string) (p : string) (e : list string * Node) : bool :=
  match below root (fst e) with Some (x :: rest) => star_match p (last rest x) | _ => false end.
Lemma matches_called : forall root p e, simple_name p -> matches root p e = true <-> called root p (fst e).
Proof.
  intros root p e S. unfold matches, called. split.
  - destruct (below root (fst e)) as [[|x rest]|] eqn:B; try discriminate. rewrite star_simple by exact S. intro E. apply String.eqb_eq in E.
    apply below_spec in B. symmetry in E. apply last_spec in E as (d & E). exists d. now rewrite B, E.
  - intros (d & E). apply below_spec in E. rewrite E. destruct d as [|x d]; cbn [app].
    + cbn. rewrite star_simple by exact S. apply String.eqb_refl.
    + rewrite star_simple by exact S. apply String.eqb_eq. symmetry. apply last_spec. now exists (x :: d).
Qed.
Lemma read_reads : forall fs root suffix load name, simple_file (name ++ suffix)%string -> NoDup (map fst fs) ->
  reads fs root (name ++ suffix)%string load (read_folder odd fs root suffix load name).
Proof.
  intros fs root suffix load name SF ND. pose proof (simple_even _ SF) as O. destruct SF as [S _]. unfold read_folder, rglob. rewrite O. set (p := (name ++ suffix)%string) in *.
  fold (matches root p). 
  assert (I : forall e, In e (filter (matches root p) fs) <-> In e fs /\ called root p (fst e)).
  { intro e. rewrite filter_In. now rewrite matches_called. }
  assert (NF : NoDup (map fst (filter (matches root p) fs))).
  { clear - ND. induction fs as [|e fs IH]; [ constructor | ]. cbn [map] in ND. apply NoDup_cons_iff in ND as [Hn ND]. cbn [filter].
    destruct (matches root p e); [ | now apply IH ]. cbn [map]. constructor; [ | now apply IH ].
    intro I. apply Hn. apply in_map_iff in I as (x & E & I). apply filter_In in I as [I _]. apply in_map_iff. eauto. }
  destruct (filter (matches root p) fs) as [|[q nq] [|[q' nq'] l]].
  - apply R_none. intros x n Ix C. apply (I (x, n)). auto.
  - assert (U : forall p' n, In (p', n) fs -> called root p p' -> p' = q).
    { intros p' n Ix C. assert (X : In (p', n) [(q, nq)]) by now apply I. destruct X as [X|[]]. congruence. }
    assert (Q : In (q, nq) fs /\ called root p q) by (apply (I (q, nq)); now left). destruct Q as [Q1 Q2].
    destruct nq as [c|]; [ exact (R_file fs root p load q c Q1 Q2 U) | exact (R_dir fs root p load q Q1 Q2 U) ].
  - assert (Q : In (q, nq) fs /\ called root p q) by (apply (I (q, nq)); now left).
    assert (Q' : In (q', nq') fs /\ called root p q') by (apply (I (q', nq')); right; now left).
    cbn [map fst] in NF. apply NoDup_cons_iff in NF as [NF _]. 
    replace (match nq with File _ => Failed | Dir => Failed end) with Failed by now destruct nq.
    apply (R_many fs root p load q q' nq nq'); try tauto. intros ->. apply NF. now left.
Qed.
Lemma files_once : forall h, listed_once h -> NoDup (map fst (files_after h)).
Proof.
  intro h. induction h as [|e h IH] using rev_ind; intro L; [ constructor | ]. unfold files_after. rewrite fold_left_app. fold (files_after h).
  assert (L' : listed_once h) by (intros fs I; apply L, in_or_app; now left).
  destruct e; cbn [fold_left]; try now apply IH. apply L, in_or_app. right. now left.
Qed.
Lemma folder_gives : forall h id root suffix load name, possible 0 h -> listed_once h ->
  nth_error (made h) id = Some (OFolder root suffix load) -> simple_file (name ++ suffix)%string ->
  exists h1 h2 o, h = h1 ++ h2 /\ reads (files_after h1) root (name ++ suffix)%string load o /\ gives odd h id name o /\ (h2 = [] \/ exists d, o = Found d).
Proof.
  intros h id root suffix load name P L N S. pose proof (folder_shown h id root suffix load name P N) as G.
  destruct (cached (w_cache (session odd h)) id name) as [d|] eqn:C.
  - destruct (noted_from h id name d P C) as (h1 & h2 & r & s & l & E & NE & N1 & R).
    assert (X : OFolder r s l = OFolder root suffix load).
    { rewrite E, made_app in N. rewrite nth_error_app1 in N by (apply nth_error_Some; congruence). congruence. }
    injection X as -> -> ->. exists h1, h2, (Found d). split; [ exact E | ]. split; [ | split; [ exact G | right; eauto ] ].
    rewrite <- R. apply read_reads; [ assumption.. | ]. apply files_once. intros fs I. apply L. rewrite E. apply in_or_app. now left.
  - exists h, [], (read_folder odd (files_after h) root suffix load name). split; [ now rewrite app_nil_r | ].
    split; [ apply read_reads; [ assumption.. | now apply files_once ] | ]. split; [ exact G | now left ].
Qed.
Lemma folder_remembers : forall h id root suffix load name d h2, possible 0 (h ++ Lookup id name :: h2) ->
  nth_error (made h) id = Some (OFolder root suffix load) -> gives odd h id name (Found d) ->
  gives odd (h ++ Lookup id name :: h2) id name (Found d).
Proof.
  intros h id root suffix load name d h2 P N G. pose proof P as P0. apply possible_app in P0 as [P1 _].
  assert (N' : nth_error (made (h ++ Lookup id name :: h2)) id = Some (OFolder root suffix load)).
  { rewrite made_app. rewrite nth_error_app1; [ exact N | ]. apply nth_error_Some. congruence. }
  unfold gives. rewrite (folder_shown _ id root suffix load name P N').
  assert (K : noted (session odd (h ++ Lookup id name :: h2)) id name = Some d); [ | unfold noted in K; now rewrite K ].
  replace (h ++ Lookup id name :: h2) with ((h ++ [Lookup id name]) ++ h2) by now rewrite <- app_assoc.
  apply kept. rewrite session_snoc. cbn [step]. unfold gives in G. rewrite (folder_shown h id root suffix load name P1 N) in G.
  unfold lookup. cbn [getitem]. rewrite (session_object h id P1), N. cbn [option_map grown].
  destruct (cached (w_cache (session odd h)) id name) as [d'|] eqn:C; [ cbn [snd]; unfold noted; rewrite C; exact (f_equal (fun o => match o with Found d => Some d | _ => None end) G) | ].
  rewrite session_files, G. cbn [snd]. unfold noted, remember. cbn [w_cache cached]. now rewrite Nat.eqb_refl, String.eqb_refl.
Qed.

(** ** C80 *)
Lemma undisturbed : forall h id name i n, fst (lookup odd (session odd (h ++ [Lookup id name])) i n) = fst (lookup odd (session odd h) i n).
Proof. intros. rewrite session_snoc. cbn [step]. apply alike_lookup, lookup_alike. Qed.
Lemma lookups_disturb_nothing : forall h id name i n o, gives odd (h ++ [Lookup id name]) i n o <-> gives odd h i n o.
Proof. intros. unfold gives. now rewrite undisturbed. Qed.
Lemma expand_alike : forall re_sub id macros l w,
  (forall n d, macros n = Some d <-> fst (lookup odd w id n) = Found d) ->
  fst (expand_chunks_with odd re_sub id l w) = expand_chunks re_sub macros l /\ alike w (snd (expand_chunks_with odd re_sub id l w)).
Proof.
  intros re_sub id macros l. induction l as [|[prefix c] l IH]; intros w M; [ split; [ reflexivity | apply alike_refl ] | ].
  cbn [expand_chunks_with expand_chunks]. pose proof (lookup_alike w id (mc_name c)) as A.
  destruct (lookup odd w id (mc_name c)) as [o w'] eqn:E. cbn [snd] in A.
  destruct o as [d| |].
  - assert (Md : macros (mc_name c) = Some d) by (apply M; now rewrite E).
    assert (X : expand_call re_sub (fun _ => Some d) c = expand_call re_sub macros c) by (unfold expand_call; now rewrite Md).
    rewrite X. destruct (expand_call re_sub macros c) as [v| |]; cbn [rbind]; [ | split; [ reflexivity | exact A ].. ].
    assert (M' : forall n d, macros n = Some d <-> fst (lookup odd w' id n) = Found d).
    { intros n d'. rewrite (alike_lookup w w' id n A). apply M. }
    destruct (IH w' M') as [IH1 IH2]. destruct (expand_chunks_with odd re_sub id l w') as [r w'']. cbn [fst snd] in *. rewrite <- IH1.
    destruct r; cbn [rbind fst snd]; (split; [ reflexivity | eapply alike_trans; eassumption ]).
  - assert (Md : macros (mc_name c) = None). { destruct (macros (mc_name c)) as [d|] eqn:X; [ apply M in X; rewrite E in X; discriminate X | reflexivity ]. }
    unfold expand_call. rewrite Md. split; [ reflexivity | exact A ].
  - assert (Md : macros (mc_name c) = None). { destruct (macros (mc_name c)) as [d|] eqn:X; [ apply M in X; rewrite E in X; discriminate X | reflexivity ]. }
    unfold expand_call. rewrite Md. split; [ reflexivity | exact A ].
Qed.
Lemma substitute_alike : forall re_sub id macros fuel code w,
  (forall n d, macros n = Some d <-> fst (lookup odd w id n) = Found d) ->
  fst (substitute_with odd fuel re_sub id code w) = substitute_macros fuel re_sub macros code /\ alike w (snd (substitute_with odd fuel re_sub id code w)).
Proof.
  intros re_sub id macros. induction fuel as [|fuel IH]; intros code w M; [ split; [ reflexivity | apply alike_refl ] | ].
  cbn [substitute_with substitute_macros]. unfold substitute_once.
  destruct (detect_macros code) as [[cs| |]|]; cbn [rbind]; try (split; [ reflexivity | apply alike_refl ]).
  destruct (expand_alike re_sub id macros (fst cs) w M) as [E A]. destruct (expand_chunks_with odd re_sub id (fst cs) w) as [r w']. cbn [fst snd] in *.
  rewrite <- E. destruct r as [body| |]; cbn [rbind]; try (split; [ reflexivity | exact A ]).
  destruct (tidy (body ++ snd cs)%string =? code)%string; [ split; [ reflexivity | exact A ] | ].
  assert (M' : forall n d, macros n = Some d <-> fst (lookup odd w' id n) = Found d).
  { intros n d'. rewrite (alike_lookup w w' id n A). apply M. }
  destruct (IH (tidy (body ++ snd cs)%string) w' M') as [I1 I2]. split; [ exact I1 | eapply alike_trans; eassumption ].
Qed.
Lemma substitution_with_objects : forall h id macros fuel re_sub code,
  (forall n d, macros n = Some d <-> gives odd h id n (Found d)) ->
  fst (substitute_with odd fuel re_sub id code (session odd h)) = substitute_macros fuel re_sub macros code /\
  forall i n, fst (lookup odd (snd (substitute_with odd fuel re_sub id code (session odd h))) i n) = fst (lookup odd (session odd h) i n).
Proof.
  intros h id macros fuel re_sub code M. destruct (substitute_alike re_sub id macros fuel code (session odd h) M) as [E A].
  split; [ exact E | ]. intros i n. now apply alike_lookup.
Qed.
End L.
