(** Facts: what single commands at the end of a pipeline do. *)
From Coq Require Import Permutation Sorted.
From Verif Require Import Str SplAst PyAst Functions Transpile Render Commands Nom Lexer Parser CmdParser Api PipeFacts SpecPy SpecCol SpecFrame
  FrameFacts ProgramFacts SpecText SpecExpr ExprFacts LogicFacts EvalFacts SpecSpark SpecRows SpecCommands SpecResult SpecEffect RowFacts ValueFacts
  SearchFacts CommandFacts RunFacts ResultFacts.
Open Scope list_scope.

Section Effects.
  Variable env : Env.
  Variable sp : Spark.
  Variable db : string -> option Table.
  Hypothesis Rt : env_rt env = Disallow.
  Hypothesis Sets : walks_sets env.
  Notation covered := (covered sp db).
  Notation gives := (gives env sp db).
  Lemma filter_same : forall {A} (f g : A -> bool) l, (forall a, In a l -> f a = g a) -> filter f l = filter g l.
  Proof.
    intros A f g l. induction l as [|a l IH]; intro H; [ reflexivity | ]. cbn [filter].
    rewrite (H a (or_introl eq_refl)), IH by (intros; apply H; now right). reflexivity.
  Qed.
  Lemma same_test : forall a b : bool, (a = true <-> b = true) -> a = b.
  Proof. intros [] [] H; destruct H; intuition congruence. Qed.

  (** ** Conditions *)
  Lemma where_gives : forall p rows e test, covered p rows -> plain_expr true e = true ->
    (forall r, In r rows -> exists b, ev sp r e = Some (of_truth b) /\ (test r = true <-> b = Some true)) ->
    gives (p ++ [CWhere e]) (OFrame None (filter test rows)).
  Proof.
    intros p rows e test C P H. apply (command_gives env sp db p rows (CWhere e)); auto.
    cbn [step step1]. clear C. induction rows as [|r rows IH]; [ reflexivity | ]. cbn [rows_where filter].
    destruct (H r (or_introl eq_refl)) as (b & E & T). rewrite E, IH by (intros; apply H; now right).
    destruct b as [[]|]; cbn [of_truth]; destruct (test r); try reflexivity; destruct T as [T1 T2];
      try (specialize (T1 eq_refl); discriminate); specialize (T2 eq_refl); discriminate.
  Qed.
  Lemma search_rows_is : forall e rows test, plain_search e = true ->
    (forall r, In r rows -> forall f, In f (negated_fields e) -> cell f r <> SNull) ->
    (forall r, In r rows -> (test r = true <-> search_holds sp r e = Some true)) ->
    search_rows sp e rows = Some (filter test rows).
  Proof.
    intros e rows test P N H. unfold search_rows.
    assert (F : forallb (has_fields (negated_fields e)) rows = true).
    { apply forallb_forall. intros r Hr. apply forallb_forall. intros f Hf. unfold not_null. specialize (N r Hr f Hf).
      destruct (cell f r); [ congruence | reflexivity.. ]. }
    rewrite F. clear F N. induction rows as [|r rows IH]; [ reflexivity | ]. cbn [rows_where filter].
    destruct (search_total sp r e P) as [b Eb]. specialize (H r (or_introl eq_refl)) as T. rewrite Eb in *. cbn [option_map].
    rewrite IH by (intros; apply H; now right).
    destruct b, (test r); try reflexivity; destruct T as [T1 T2]; try (specialize (T1 eq_refl); discriminate); specialize (T2 eq_refl); discriminate.
  Qed.
  Lemma search_gives : forall p rows e test, covered p rows -> plain_search e = true ->
    (forall r, In r rows -> forall f, In f (negated_fields e) -> cell f r <> SNull) ->
    (forall r, In r rows -> (test r = true <-> search_holds sp r e = Some true)) ->
    gives (p ++ [CSearch e]) (OFrame None (filter test rows)).
  Proof.
    intros p rows e test C P N H. apply (command_gives env sp db p rows (CSearch e)); auto.
    cbn [step step1]. now apply search_rows_is.
  Qed.
  Lemma search_text : forall t s rows test, wf t -> writes 9 t s -> plain_search (meaning t) = true -> db "main"%string = Some rows ->
    (forall r, In r rows -> forall f, In f (negated_fields (meaning t)) -> cell f r <> SNull) ->
    (forall r, In r rows -> (test r = true <-> search_holds sp r (meaning t) = Some true)) ->
    text_gives env sp db ("search " ++ s) (OFrame None (filter test rows)).
  Proof.
    intros t s rows test W Ws P D N H. apply (text_frame _ _ _ _ _ _ (parse_search1 t s W Ws)).
    apply (search_gives [] rows); auto. now apply covered_nil.
  Qed.

  Lemma in_gives : forall p rows f l test, covered p rows -> plain_name_text f = true -> l <> [] -> forallb plain_in_value l = true ->
    (forall r, In r rows -> (test r = true <-> cell f r <> SNull /\ exists v, In v l /\ in_item sp (cell f r) v = true)) ->
    gives (p ++ [CWhere (EFieldIn f l)]) (OFrame None (filter test rows)).
  Proof.
    intros p rows f l test C Pf N Pl H. apply where_gives; [ exact C | cbn [plain_expr]; rewrite Pf; destruct l; [ congruence | exact Pl ] | ].
    intros r Hr. specialize (H r Hr). cbn [ev membership].
    destruct (cell f r) as [|b|z|t|s] eqn:E.
    { exists None. split; [ reflexivity | ]. rewrite H. intuition congruence. }
    all: (eexists (Some (existsb _ l)); split; [ reflexivity | ]; rewrite H, <- existsb_exists;
          split; [ intros [_ X]; now rewrite X | intro X; injection X as X; split; [ discriminate | exact X ] ]).
  Qed.
  Lemma pattern_matches : forall p s, plain_pattern p = true -> (like (wildcard_to_like p) s = true <-> Matches p s).
  Proof.
    intros p s P. rewrite <- wild_matches. pose proof (like_pattern p (SStr s) P) as E. cbn [like_val wild_val val_text] in E.
    injection E as ->. reflexivity.
  Qed.
  Lemma wildcard_gives : forall p rows f pat test, covered p rows -> plain_name_text f = true -> plain_pattern pat = true ->
    (forall r, In r rows -> (test r = true <-> cell f r <> SNull /\ Matches pat (val_text (cell f r)))) ->
    gives (p ++ [CWhere (EBinary (efield f) "=" (ewild pat))]) (OFrame None (filter test rows)).
  Proof.
    intros p rows f pat test C Pf Pp H. apply where_gives; [ exact C | cbn [plain_expr efield ewild]; now rewrite Pf, Pp | ].
    intros r Hr. specialize (H r Hr). cbn [ev efield ewild]. cbn [String.eqb Ascii.eqb Bool.eqb orb]. cbv iota.
    destruct (cell f r) as [|b|z|t|s] eqn:E; cbn [wild_val].
    { exists None. split; [ reflexivity | ]. rewrite H. intuition congruence. }
    all: (eexists (Some (wild pat _)); split; [ reflexivity | ]; rewrite H, <- wild_matches;
          split; [ intros [_ X]; now rewrite X | intro X; injection X as X; split; [ discriminate | exact X ] ]).
  Qed.

  (** ** Indexes *)
  Lemma event_cell : forall n f r, f <> "index"%string -> cell f (event n r) = cell f r.
  Proof.
    intros n f r N. unfold event. induction r as [|[m v] r IH]; cbn [set_cell cell].
    - destruct (String.eqb_spec f "index"); [ congruence | reflexivity ].
    - destruct (String.eqb_spec "index" m).
      + subst m. cbn [cell]. destruct (String.eqb_spec f "index"); [ congruence | reflexivity ].
      + cbn [cell]. now rewrite IH.
  Qed.
  Lemma event_index : forall n r, cell "index" (event n r) = SStr n.
  Proof.
    intros n r. unfold event. induction r as [|[m v] r IH]; cbn [set_cell cell]; [ reflexivity | ].
    destruct (String.eqb_spec "index" m); cbn [cell]; [ now rewrite String.eqb_refl | ].
    destruct (String.eqb_spec "index" m); [ congruence | exact IH ].
  Qed.
  Lemma search_same : forall e row row', (forall f, In f (search_fields e) -> cell f row = cell f row') ->
    search_holds sp row e = search_holds sp row' e.
  Proof.
    intros e row row'. induction e as [l o r IHl IHr|o r IH|n args F|e n IH|e He] using expr_induct; intro H; try reflexivity.
    - cbn [search_holds search_fields] in *. destruct (String.eqb o "AND") eqn:A; cbn [orb] in H.
      + rewrite IHl, IHr; [ reflexivity | intros; apply H, in_or_app; auto.. ].
      + destruct (String.eqb o "OR") eqn:B.
        * rewrite IHl, IHr; [ reflexivity | intros; apply H, in_or_app; auto.. ].
        * destruct l as [[[]|?|?|?]|?|?|?|?|?|?|?|?|?]; try reflexivity. destruct r as [[]|?|?|?|?|?|?|?|?|?]; try reflexivity.
          rewrite H by now left. reflexivity.
    - cbn [search_holds search_fields] in *. now rewrite IH.
    - destruct e as [[[]|?|?|?]|?|?|?|?|f l|?|?|?|?]; try contradiction; try reflexivity; cbn [search_holds search_fields raw_contains] in *;
        try (unfold raw_contains; rewrite H by (now left); reflexivity).
  Qed.
  Lemma index_true : forall l op r n row, index_test l op r = Some n -> sp_cmp sp "==" (SStr n) (SStr n) = true ->
    search_holds sp (event n row) (EBinary l op r) = Some true.
  Proof.
    intros l op r n row T Cm. unfold index_test in T. destruct l as [[[]|?|?|?]|?|?|?|?|?|?|?|?|?]; try discriminate T.
    assert (K : s = "index"%string /\ op = "="%string /\ (r = ELeaf (LConstant (KField n)) \/ r = ELeaf (LConstant (KStr n)))).
    { destruct r as [[[]|?|?|?]|?|?|?|?|?|?|?|?|?]; try discriminate T;
        match type of T with (if ?b then _ else _) = _ => destruct b eqn:B; [ | discriminate T ] end;
        apply andb_true_iff in B; destruct B as [B B3]; apply andb_true_iff in B; destruct B as [B1 B2];
        apply String.eqb_eq in B1, B2; injection T as <-; auto. }
    destruct K as (-> & -> & [-> | ->]); cbn [search_holds]; cbn [String.eqb Ascii.eqb Bool.eqb]; cbv iota; rewrite event_index; cbn; now rewrite Cm.
  Qed.
  (** The rest of a condition without its index constraint *)
  Lemma index_rest : forall e n c, take_index e = Some (n, c) -> sp_cmp sp "==" (SStr n) (SStr n) = true -> 
    match c with Some x => plain_search x = true | None => True end ->
    forall row, search_holds sp (event n row) e = match c with Some x => search_holds sp (event n row) x | None => Some true end.
  Proof.
    intros e. induction e as [l o r IHl IHr|o r IH|n' args F|e n' IH|e He] using expr_induct; intros n c T Cm P row;
      try discriminate T; [ | destruct e; try contradiction; discriminate T ].
    cbn [take_index] in T. destruct (index_test l o r) as [m|] eqn:X.
    - injection T as <- <-. now apply index_true.
    - destruct (String.eqb o "AND") eqn:O; [ | discriminate T ]. apply String.eqb_eq in O. subst o.
      cbn [search_holds]. change (String.eqb "AND" "AND") with true. cbv iota.
      destruct (take_index l) as [[nl cl]|] eqn:Tl; destruct (take_index r) as [[nr cr]|] eqn:Tr; try (destruct cl; discriminate T); try discriminate T.
      + destruct cl as [l'|]; injection T as <- <-.
        * cbn [plain_search] in P. change (String.eqb "AND" "AND" || _) with true in P. cbv iota in P. apply andb_true_iff in P. destruct P as [Pl Pr].
          rewrite (IHl nl (Some l') eq_refl Cm Pl row). cbn [search_holds]. change (String.eqb "AND" "AND") with true. reflexivity.
        * rewrite (IHl nl None eq_refl Cm I row). destruct (search_total sp (event nl row) r P) as [b ->]. reflexivity.
      + destruct cr as [r'|]; injection T as <- <-.
        * cbn [plain_search] in P. change (String.eqb "AND" "AND" || _) with true in P. cbv iota in P. apply andb_true_iff in P. destruct P as [Pl Pr].
          rewrite (IHr nr (Some r') eq_refl Cm Pr row). cbn [search_holds]. change (String.eqb "AND" "AND") with true. reflexivity.
        * rewrite (IHr nr None eq_refl Cm I row). destruct (search_total sp (event nr row) l P) as [b ->]. now rewrite andb_true_r.
  Qed.
  Lemma index_gives : forall e n c rows test, take_index e = Some (n, c) -> plain_name_text n = true ->
    match c with Some x => plain_search x = true /\ ~ In "index"%string (search_fields x) | None => True end ->
    (forall r, In r rows -> match c with Some x => forall f, In f (negated_fields x) -> cell f r <> SNull | None => True end) ->
    sp_cmp sp "==" (SStr n) (SStr n) = true -> db n = Some rows ->
    (forall r, In r rows -> (test r = true <-> search_holds sp (event n r) e = Some true)) ->
    gives [CSearch e] (OFrame None (filter test rows)).
  Proof.
    intros e n c rows test T Pn P N Cm D H. apply covered_gives; [ exact Rt | exact Sets | | discriminate ]. right.
    unfold plain_pipeline, plain_pipe, plain_first, run, run_pipe, first_rows. cbn [same_as]. rewrite T.
    assert (Q : match c with Some x => plain_search x = true | None => True end) by (destruct c; [ apply P | exact I ]).
    pose proof (index_rest e n c T Cm Q) as R. destruct c as [x|]; cbn [forallb andb]; rewrite Pn, D; cbn [run1 step1 plain1 steps]; (split; [ now rewrite ?Q | ]).
    - destruct P as [_ P]. rewrite (search_rows_is x rows test Q N); [ reflexivity | ]. intros r Hr. rewrite (H r Hr), (R r).
      rewrite (search_same x (event n r) r); [ reflexivity | ]. intros f Hf. apply event_cell. congruence.
    - rewrite (filter_same test (fun _ => true)).
      + clear. induction rows as [|r rows IH]; [ reflexivity | ]. cbn [filter]. now injection IH as <-.
      + intros r Hr. apply same_test. rewrite (H r Hr), (R r). intuition congruence.
  Qed.

  (** ** head and tail *)
  Lemma head_gives : forall p rows n keeplast null_opt, covered p rows -> (0 <= n < 2 ^ 63)%Z ->
    gives (p ++ [CHead (eint n) keeplast null_opt]) (OFrame None (firstn (Z.to_nat n) rows)).
  Proof.
    intros p rows n k o C H. apply (command_gives env sp db p rows); auto.
    - cbn [plain_command plain1 plain_head eint]. unfold int64. rewrite !andb_true_iff, !Z.leb_le, Z.ltb_lt. lia.
    - cbn [step step1 head_rows eint]. destruct (n <? 0)%Z eqn:E; [ lia | reflexivity ].
  Qed.
  Lemma head_while_gives : forall p rows n keeplast null_opt op test, covered p rows -> (0 <= n < 2 ^ 63 - 2)%Z ->
    (op = "<"%string /\ test = (fun i => i <? n)%Z) \/ (op = "<="%string /\ test = (fun i => i <=? n)%Z) ->
    gives (p ++ [CHead (EBinary (efield "count") op (eint n)) keeplast null_opt]) (OFrame None (while_count test keeplast 0 rows)).
  Proof.
    intros p rows n k o op test C H T. apply (command_gives env sp db p rows); auto.
    - cbn [plain_command plain1 plain_head eint efield]. destruct T as [[-> _]|[-> _]]; cbn; rewrite andb_true_iff, Z.leb_le, Z.ltb_lt; lia.
    - destruct T as [[-> ->]|[-> ->]]; reflexivity.
  Qed.

  (** ** sort *)
  Lemma row_le_before : forall le ks a b, row_le le ks a b = true -> Before le ks a b.
  Proof.
    induction ks as [|[n desc] ks IH]; intros a b H; [ constructor | ]. cbn [row_le] in H.
    destruct desc.
    - destruct (le (cell n b) (cell n a)) eqn:E1, (le (cell n a) (cell n b)) eqn:E2; cbn [andb] in H; try discriminate H.
      + apply BTie; auto.
      + apply BDown; auto.
    - destruct (le (cell n a) (cell n b)) eqn:E1, (le (cell n b) (cell n a)) eqn:E2; cbn [andb] in H; try discriminate H.
      + apply BTie; auto.
      + apply BUp; auto.
  Qed.
  Lemma wanted_keys : forall keys desc, forallb plain_sort_key (map written_key keys) = true ->
    sort_keys (map written_key keys) desc = Some (map (wanted_key desc) keys).
  Proof.
    intros keys desc P. unfold sort_keys. induction keys as [|[s n] keys IH]; [ reflexivity | ].
    cbn [map forallb] in P. apply andb_true_iff in P. destruct P as [P1 P2].
    cbn [map all_some written_key fst snd] in *. rewrite (IH P2).
    assert (E : match s with
                | None => Some (n, desc)
                | Some s0 => if String.eqb s0 "+" then Some (n, desc) else if String.eqb s0 "-" then Some (n, negb desc) else None
                end = Some (wanted_key desc (s, n))).
    { destruct s as [s|]; [ | reflexivity ]. unfold plain_sort_key in P1. cbn [fst snd written_key] in P1. apply andb_true_iff in P1. destruct P1 as [_ P1].
      apply orb_true_iff in P1. destruct P1 as [P1|P1]; apply String.eqb_eq in P1; subst s; reflexivity. }
    rewrite E. reflexivity.
  Qed.
  Lemma sort_gives : forall p rows keys count desc, covered p rows -> keys <> [] ->
    Forall (fun k => plain_name_text (snd k) = true /\ (fst k = None \/ fst k = Some "+"%string \/ fst k = Some "-"%string)) keys ->
    (0 <= count < 2 ^ 63)%Z ->
    let sorted := sp_sort sp (row_le (sp_le sp) (map (wanted_key desc) keys)) rows in
    gives (p ++ [CSort (map written_key keys) count desc])
          (OFrame None (if (count =? 0)%Z then sorted else firstn (Z.to_nat count) sorted)).
  Proof.
    intros p rows keys count desc C N F H sorted.
    assert (P : forallb plain_sort_key (map written_key keys) = true).
    { apply forallb_forall. intros k Hk. apply in_map_iff in Hk. destruct Hk as ([s n] & <- & Hk). rewrite Forall_forall in F.
      destruct (F _ Hk) as [P1 P2]. unfold plain_sort_key. cbn [written_key fst snd is_field] in *. rewrite P1.
      destruct P2 as [-> | [-> | ->]]; reflexivity. }
    apply (command_gives env sp db p rows); auto.
    - cbn [plain_command plain1]. rewrite P. unfold int64. destruct keys; [ congruence | ]. cbn [map nonempty_list andb].
      rewrite !andb_true_iff, !Z.leb_le, Z.ltb_lt. lia.
    - cbn [step step1]. unfold sorted_rows. rewrite (wanted_keys keys desc P). subst sorted. destruct keys as [|k keys]; [ congruence | ]. cbn [map].
      destruct (count =? 0)%Z; [ reflexivity | ]. destruct (count <? 0)%Z eqn:E; [ lia | reflexivity ].
  Qed.

  Lemma sorted_impl : forall {A} (R S : A -> A -> Prop) l, (forall a b, R a b -> S a b) -> StronglySorted R l -> StronglySorted S l.
  Proof. intros A R S l H F. induction F as [|a l F IH X]; constructor; auto. eapply Forall_impl; [ | exact X ]. auto. Qed.
  Lemma sort_orders : forall p rows keys count desc, covered p rows -> keys <> [] ->
    Forall (fun k => plain_name_text (snd k) = true /\ (fst k = None \/ fst k = Some "+"%string \/ fst k = Some "-"%string)) keys ->
    (0 <= count < 2 ^ 63)%Z ->
    (forall le, Permutation rows (sp_sort sp le rows)) ->
    StronglySorted (fun a b => row_le (sp_le sp) (map (wanted_key desc) keys) a b = true)
      (sp_sort sp (row_le (sp_le sp) (map (wanted_key desc) keys)) rows) ->
    exists sorted, Permutation rows sorted /\ StronglySorted (Before (sp_le sp) (map (wanted_key desc) keys)) sorted /\
    gives (p ++ [CSort (map written_key keys) count desc])
      (OFrame None (if (count =? 0)%Z then sorted else firstn (Z.to_nat count) sorted)).
  Proof.
    intros p rows keys count desc C N F H P S. eexists. split; [ apply P | ]. split; [ | apply (sort_gives p rows); eauto ].
    eapply sorted_impl; [ | exact S ]. intros a b. apply row_le_before.
  Qed.

  (** ** eval *)
  Lemma assigns_assign : forall l r r', Assigns sp l r r' <-> assign sp l r = Some r'.
  Proof.
    induction l as [|[n e] l IH]; intros r r'; cbn [assign].
    - split; [ intro H; now inversion H | intro H; injection H as <-; constructor ].
    - split.
      + intro H. inversion H; subst. match goal with E : ev sp r e = Some _ |- _ => rewrite E end. now apply IH.
      + destruct (ev sp r e) as [v|] eqn:E; [ | discriminate ]. intro H. apply (AOne sp n e v); [ exact E | now apply IH ].
  Qed.
  Lemma all_assigned : forall {A B} (f : A -> option B) l l', Forall2 (fun a b => f a = Some b) l l' -> all_some (map f l) = Some l'.
  Proof. intros A B f l l' H. induction H as [|a b l l' E H IH]; [ reflexivity | ]. cbn [map all_some]. now rewrite E, IH. Qed.
  Lemma eval_gives : forall p rows l out, covered p rows ->
    Forall (fun ne => plain_name_text (fst ne) = true /\ plain_expr true (snd ne) = true) l ->
    Forall2 (Assigns sp l) rows out -> gives (p ++ [CEval l]) (OFrame None out).
  Proof.
    intros p rows l out C F H. apply (command_gives env sp db p rows); auto.
    - cbn [plain_command plain1]. apply forallb_forall. intros ne Hn. rewrite Forall_forall in F. destruct (F ne Hn) as [-> ->]. reflexivity.
    - cbn [step step1]. apply all_assigned. clear C. induction H as [|r r' rows out A H IH]; constructor; [ now apply assigns_assign | exact IH ].
  Qed.
  Lemma eval_text : forall (l : list (string * (Tree * string))) rows out, l <> [] -> db "main"%string = Some rows ->
    Forall (fun a => field_name (fst a) /\ wf (fst (snd a)) /\ writes 9 (fst (snd a)) (snd (snd a)) /\ plain_expr true (meaning (fst (snd a))) = true) l ->
    Forall2 (Assigns sp (map (fun a => (fst a, meaning (fst (snd a)))) l)) rows out ->
    text_gives env sp db ("eval " ++ commas (map (fun a => fst a ++ "=" ++ snd (snd a))%string l)) (OFrame None out).
  Proof.
    intros l rows out N D F H.
    apply (text_frame _ _ _ _ _ _ (parse_eval l N ltac:(eapply Forall_impl; [ | exact F ]; cbn; tauto))).
    apply (eval_gives [] rows); auto; [ now apply covered_nil | ].
    apply Forall_forall. intros ne Hn. apply in_map_iff in Hn. destruct Hn as (a & <- & Ha). rewrite Forall_forall in F. destruct (F a Ha) as (F1 & _ & _ & F2).
    cbn [fst snd]. split; [ now apply CodeFacts.ident_name_text | exact F2 ].
  Qed.
  Lemma set_cell_same : forall n v r, cell n (set_cell n v r) = v.
  Proof.
    intros n v r. induction r as [|[m w] r IH]; cbn [set_cell cell]; [ now rewrite String.eqb_refl | ].
    destruct (String.eqb n m) eqn:E; cbn [cell]; [ now rewrite String.eqb_refl | now rewrite E ].
  Qed.
  Lemma set_cell_other : forall n m v r, m <> n -> cell m (set_cell n v r) = cell m r.
  Proof.
    intros n m v r N. induction r as [|[k w] r IH]; cbn [set_cell cell]; [ now rewrite (proj2 (String.eqb_neq m n) N) | ].
    destruct (String.eqb_spec n k); cbn [cell]; [ subst k; now rewrite (proj2 (String.eqb_neq m n) N) | now rewrite IH ].
  Qed.

  (** ** rename, table, fields *)
  Lemma rename_gives : forall p rows l, covered p rows -> Forall (fun on => plain_name_text (fst on) = true /\ plain_name_text (snd on) = true) l ->
    gives (p ++ [CRename (map written_renaming l)]) (OFrame None (map (rename_all l) rows)).
  Proof.
    intros p rows l C F. apply (command_gives env sp db p rows); auto.
    - cbn [plain_command plain1]. apply forallb_forall. intros x Hx. apply in_map_iff in Hx. destruct Hx as (on & <- & Ho). rewrite Forall_forall in F.
      destruct (F on Ho) as [E1 E2]. cbn [written_renaming fst snd is_field]. now rewrite E1, E2.
    - cbn [step step1]. rewrite (map_ext _ (fun r => Some (rename_all l r))); [ apply all_some_total | ].
      clear F. unfold rename_all. induction l as [|on l IH]; intro r; [ reflexivity | ]. cbn [map renamed written_renaming fst snd fold_left]. apply IH.
  Qed.
  Lemma table_gives : forall p rows l c, covered p rows -> l <> [] -> Forall (fun n => plain_name_text n = true) l ->
    c = CTable l \/ c = CFields false l -> gives (p ++ [c]) (OFrame None (map (keep_cells l) rows)).
  Proof.
    intros p rows l c C N F H.
    assert (P : nonempty_list l && forallb plain_name_text l = true).
    { destruct l; [ congruence | ]. apply andb_true_iff. split; [ reflexivity | ]. apply forallb_forall. now apply Forall_forall. }
    destruct H as [-> | ->]; apply (command_gives env sp db p rows); auto.
  Qed.

  Lemma fields_gives : forall p rows l, covered p rows -> l <> [] -> Forall (fun n => plain_name_text n = true) l ->
    gives (p ++ [CFields false l]) (OFrame None (map (keep_cells l) rows)).
  Proof. intros p rows l C N F. apply (table_gives p rows l); auto. Qed.
  Lemma set_cell_cells : forall n v r, cell n (set_cell n v r) = v /\ forall m, m <> n -> cell m (set_cell n v r) = cell m r.
  Proof. intros n v r. split; [ apply set_cell_same | intros m; apply set_cell_other ]. Qed.
  Lemma rename_other : forall old new r n, n <> old -> n <> new -> cell n (rename_cell old new r) = cell n r.
  Proof.
    intros old new r n N1 N2. unfold rename_cell. induction r as [|[m v] r IH]; [ reflexivity | ]. cbn [map fst snd cell].
    destruct (String.eqb_spec m old); cbn [cell]; [ | now rewrite IH ].
    subst m. rewrite (proj2 (String.eqb_neq n new) N2), (proj2 (String.eqb_neq n old) N1). exact IH.
  Qed.
  Lemma rename_moves : forall old new r, ~ In new (map fst r) -> cell new (rename_cell old new r) = cell old r.
  Proof.
    intros old new r N. unfold rename_cell. induction r as [|[m v] r IH]; [ reflexivity | ]. cbn [map fst snd cell] in *.
    rewrite String.eqb_sym. rewrite (String.eqb_sym old m). destruct (String.eqb_spec m old); cbn [cell fst snd].
    - now rewrite String.eqb_refl.
    - rewrite (String.eqb_sym new m). destruct (String.eqb_spec m new) as [X|X]; [ exfalso; apply N; now left | ].
      apply IH. intro Y. apply N. now right.
  Qed.
  Lemma agree_iff : forall op f l r, agree sp op f l r = true <-> cell f l <> SNull /\ cell f r <> SNull /\ sp_cmp sp op (cell f l) (cell f r) = true.
  Proof.
    clear env db Rt Sets. intros op f l r. unfold agree, not_null. rewrite !andb_true_iff, !negb_true_iff.
    assert (K : forall v, is_null v = false <-> v <> SNull) by (intros []; cbn; split; intro; congruence). rewrite !K. tauto.
  Qed.
  Lemma join_match_iff : forall o l r, join_match sp o l r = true <->
    (forall f, In f (jo_fields o) -> cell f l <> SNull /\ cell f r <> SNull /\ sp_cmp sp "==" (cell f l) (cell f r) = true) /\
    (jo_use_time o = true -> cell "_time" l <> SNull /\ cell "_time" r <> SNull /\
       sp_cmp sp (if jo_earlier o then ">=" else "<=") (cell "_time" l) (cell "_time" r) = true).
  Proof.
    intros o l r. clear env db Rt Sets. unfold join_match. rewrite andb_true_iff, forallb_forall, orb_true_iff, negb_true_iff, agree_iff.
    assert (K : (forall x, In x (jo_fields o) -> agree sp "==" x l r = true) <->
      (forall f, In f (jo_fields o) -> cell f l <> SNull /\ cell f r <> SNull /\ sp_cmp sp "==" (cell f l) (cell f r) = true)).
    { split; intros H f Hf; apply agree_iff, H, Hf. }
    rewrite K. destruct (jo_use_time o); intuition congruence.
  Qed.

  (** ** stats, addtotals, fillnull, spath, join *)
  Lemma stats_gives : forall p rows o funcs by_ out, covered p rows -> plain1 (CStats o funcs by_) = true ->
    stats_rows sp funcs by_ rows = Some out -> gives (p ++ [CStats o funcs by_]) (OFrame None out).
  Proof. intros p rows o funcs by_ out C P E. now apply (command_gives env sp db p rows). Qed.
  Lemma totals_gives : forall p rows a, covered p rows -> plain_name_text (at_field_name a) = true -> Forall (fun n => plain_name_text n = true) (at_fields a) ->
    gives (p ++ [CAddTotals a]) (OFrame None (map (fun r => set_cell (at_field_name a) (total sp (at_fields a) r) r) rows)).
  Proof.
    intros p rows a C P F. apply (command_gives env sp db p rows); auto. cbn [plain_command plain1]. rewrite P. apply forallb_forall. now apply Forall_forall.
  Qed.
  Lemma fillnull_gives : forall p rows v, covered p rows -> plain_between dquote v = true ->
    gives (p ++ [CFillNull v None]) (OFrame None (map (map (fun c => if is_null (snd c) then (fst c, SStr v) else c)) rows)).
  Proof. intros p rows v C P. now apply (command_gives env sp db p rows). Qed.
  Lemma spath_gives : forall p rows c out, covered p rows -> plain_name_text (sp_input c) = true -> plain_between dquote (sp_path c) = true ->
    out = match sp_output c with Some o => o | None => sp_path c end -> plain_name_text out = true ->
    gives (p ++ [CSPath c]) (OFrame None (map (fun r => set_cell out (json_value sp c r) r) rows)).
  Proof.
    intros p rows c out C P1 P2 -> P3. apply (command_gives env sp db p rows); auto. cbn [plain_command plain1]. now rewrite P1, P2, P3.
  Qed.
  Lemma join_gives : forall p rows o q right, covered p rows -> plain_pipeline q = true -> run sp db q = Some right ->
    jo_max o = 1%Z -> In (jo_type o) ["inner"; "left"; "outer"]%string -> jo_fields o <> [] -> Forall (fun n => plain_name_text n = true) (jo_fields o) ->
    gives (p ++ [CJoin o q]) (OFrame None (joined_rows sp o rows right)).
  Proof.
    intros p rows o q right C P E M K N F. apply (command_gives env sp db p rows); auto.
    - cbn [plain_command]. rewrite M. unfold plain_pipeline in P. rewrite P.
      assert (X : str_in (jo_type o) ["inner"; "left"; "outer"]%string = true).
      { destruct K as [<-|[<-|[<-|[]]]]; reflexivity. }
      rewrite X. rewrite (proj2 (forallb_forall _ _)); [ | now apply Forall_forall ]. destruct (jo_fields o); [ congruence | reflexivity ].
    - cbn [step]. unfold run in E. now rewrite E.
  Qed.

  (** ** case and validate *)
  Lemma branch_value : forall b r l v, Branch sp b r l v ->
    exists vs, all_some (map (ev sp r) (alternating l)) = Some vs /\ first_branch b vs = Some v.
  Proof.
    intros b r l v H. induction H as [|c e v l w Ec Ee H IH|c e v l w Ec Ee H IH].
    - exists []. split; reflexivity.
    - destruct IH as (vs & E & F). exists (SBool b :: v :: vs). cbn [alternating map all_some]. rewrite Ec, Ee, E. split; [ reflexivity | ].
      cbn [first_branch truth]. rewrite F. now rewrite Bool.eqb_reflx.
    - destruct IH as (vs & E & F). destruct Ec as [Ec|Ec].
      + exists (SBool (negb b) :: v :: vs). cbn [alternating map all_some]. rewrite Ec, Ee, E. split; [ reflexivity | ].
        cbn [first_branch truth]. rewrite F. now destruct b.
      + exists (SNull :: v :: vs). cbn [alternating map all_some]. rewrite Ec, Ee, E. split; [ reflexivity | ].
        cbn [first_branch truth]. now rewrite F.
  Qed.
  Lemma alternating_even : forall {A} (l : list (A * A)), Nat.even (length (alternating l)) = true.
  Proof. intros A l. induction l as [|[a b] l IH]; [ reflexivity | exact IH ]. Qed.
  Lemma branch_gives : forall p rows x l f b (v : Row -> Val), covered p rows -> plain_name_text x = true -> l <> [] ->
    Forall (fun ce => plain_expr true (fst ce) = true /\ plain_expr true (snd ce) = true) l ->
    (f = "case"%string /\ b = true) \/ (f = "validate"%string /\ b = false) ->
    (forall r, In r rows -> Branch sp b r l (v r)) ->
    gives (p ++ [CEval [(x, ECall f (alternating l))]]) (OFrame None (map (fun r => set_cell x (v r) r) rows)).
  Proof.
    intros p rows x l f b v C Px N F K H. apply (eval_gives p rows); auto.
    - constructor; [ | constructor ]. cbn [fst snd]. split; [ exact Px | ]. cbn [plain_expr andb].
      assert (A : forallb (plain_expr true) (alternating l) = true).
      { clear - F. induction F as [|[c e] l [Fc Fe] F IH]; [ reflexivity | ]. cbn [alternating forallb fst snd] in *. now rewrite Fc, Fe, IH. }
      rewrite A, andb_true_r. unfold arity_ok.
      assert (X : Nat.ltb 0 (length (alternating l)) = true) by (destruct l as [|[] ?]; [ congruence | reflexivity ]).
      destruct K as [[-> _]|[-> _]]; cbn [String.eqb Ascii.eqb Bool.eqb]; cbn [str_in existsb String.eqb Ascii.eqb Bool.eqb orb]; cbv iota; rewrite X, alternating_even; reflexivity.
    - clear C. induction rows as [|r rows IH]; [ constructor | ]. cbn [map]. constructor; [ | apply IH ].
      + destruct (branch_value b r l (v r) (H r (or_introl eq_refl))) as (vs & E & Fb).
        apply (AOne sp x _ (v r)); [ | constructor ]. cbn [ev]. rewrite E. destruct K as [[-> ->]|[-> ->]]; exact Fb.
      + intros r' Hr. apply H. now right.
  Qed.

  (** ** tail: a Python list of rows *)
  Lemma covered_frame : forall cmds p rows, covered p rows -> forall st, exists st' s,
    run_commands (transform_command env) p None st = (st', Ok s) /\ frame_sem sp db cmds [] [] true (d_or_default s) rows.
  Proof.
    intros cmds p rows C st. destruct C as [[-> D]|[P E]].
    - exists st, None. split; [ reflexivity | ]. now apply source_sem.
    - destruct (run_ok sp db cmds env p rows Rt (walks_keeps env Sets) P E st) as (st' & d & Ed & Fd). exists st', (Some d). auto.
  Qed.
  Lemma run_commands_app : forall (cmd : Command -> tstate -> M tstate) p q s st,
    run_commands cmd (p ++ q) s st = bind (run_commands cmd p s) (run_commands cmd q) st.
  Proof.
    intros cmd p. induction p as [|c p IH]; intros q s st; [ reflexivity | ]. cbn [app run_commands]. unfold bind in *.
    destruct (cmd c s st) as [st' [s'| |]]; [ apply IH | reflexivity.. ].
  Qed.
  Lemma obj_computes : forall cmds d o x, obj_sem sp db cmds [] [] true d o ->
    (computes sp db cmds (code_to_string (render_df d)) x <-> x = o).
  Proof.
    intros cmds d o x (P & _ & A & _ & F). rewrite (plain_computes sp db cmds d x P), A. cbn [exec]. rewrite F. split; congruence.
  Qed.
  Lemma command_obj : forall p rows c (f : tstate -> DataFrame) o, covered p rows ->
    (forall s st, transform_command env c s st = (st, Ok (Some (f s)))) ->
    (forall cmds s, frame_sem sp db cmds [] [] true (d_or_default s) rows -> obj_sem sp db cmds [] [] true (f s) o) -> gives (p ++ [c]) o.
  Proof.
    intros p rows c f o C T H. unfold gives, SpecResult.gives.
    assert (K : forall cmds, exists s, transform_pipeline env (p ++ [c]) = Ok (Some (f s)) /\ frame_sem sp db cmds [] [] true (d_or_default s) rows).
    { intro cmds. destruct (covered_frame cmds p rows C transform_state0) as (st' & s & E & F). exists s. split; [ | exact F ].
      unfold transform_pipeline. rewrite run_commands_app. unfold bind. rewrite E. cbn [run_commands]. unfold bind. now rewrite T. }
    destruct (K no_commands) as (s & E & F). exists (code_to_string (render_df (f s))). split; [ unfold render_pyspark; now rewrite E | ].
    intros cmds x. destruct (K cmds) as (s' & E' & F'). rewrite E in E'. injection E' as E'. rewrite E'. apply obj_computes. now apply H.
  Qed.
  Lemma tail_gives : forall p rows n, covered p rows -> (0 <= n)%Z ->
    gives (p ++ [CTail n]) (ORows (skipn (length rows - Z.to_nat n) rows)).
  Proof.
    intros p rows n C H. apply (command_obj p rows (CTail n) (fun s => DTail (d_or_default s) n)); [ exact C | | ].
    - intros s st. cbn [transform_command]. rewrite Rt. reflexivity.
    - intros cmds s D. eapply (step_sem sp db cmds [] [] true (d_or_default s)); [ exact D | | reflexivity | reflexivity | ].
      + exact (proj1 D).
      + cbn [SpecSpark.frame_method]. cbn [String.eqb Ascii.eqb Bool.eqb]. cbv iota. unfold int_arg_of, py_int. rewrite lit_dec.
        destruct (n <? 0)%Z eqn:E; [ lia | reflexivity ].
  Qed.
End Effects.

(** An index constraint below an OR is refused *)
Lemma split_mentions : forall e, mentions_index e = true -> forall b ind out, split_conditions e b ind = Ok out -> b = true.
Proof.
  intros e. induction e as [l o r IHl IHr|o r IH|n' args F|e n' IH|e He] using expr_induct; intros M b ind out E;
    try discriminate M; [ | destruct e; try contradiction; discriminate M ].
  cbn [mentions_index split_conditions] in *.
  destruct (xorb (is_index l) (is_index r) && String.eqb o "=") eqn:X.
  - destruct b; [ reflexivity | discriminate E ].
  - assert (N : names_index l o r = false) by (unfold names_index; rewrite andb_comm; exact X). rewrite N in M. cbn [orb] in M.
    destruct (is_index l || is_index r); [ discriminate E | ].
    destruct (split_conditions l (b && String.eqb o "AND") ind) as [[i1 c1]| |] eqn:E1; try discriminate E. cbn [rbind] in E.
    destruct (split_conditions r (b && String.eqb o "AND") i1) as [[i2 c2]| |] eqn:E2; try discriminate E.
    apply orb_true_iff in M. destruct M as [M|M].
    + specialize (IHl M _ _ _ E1). now destruct b.
    + specialize (IHr M _ _ _ E2). now destruct b.
Qed.
Lemma split_below : forall e, index_below_or e = true -> forall b ind out, split_conditions e b ind <> Ok out.
Proof.
  intros e. induction e as [l o r IHl IHr|o r IH|n' args F|e n' IH|e He] using expr_induct; intros M b ind out E;
    try discriminate M; [ | destruct e; try contradiction; discriminate M ].
  cbn [index_below_or split_conditions] in *. unfold names_index in M. rewrite andb_comm in M.
  change (index_field l) with (is_index l) in M. change (index_field r) with (is_index r) in M.
  destruct (xorb (is_index l) (is_index r) && String.eqb o "=") eqn:X; [ discriminate M | ].
  destruct (is_index l || is_index r); [ discriminate E | ].
  destruct (split_conditions l (b && String.eqb o "AND") ind) as [[i1 c1]| |] eqn:E1; try discriminate E. cbn [rbind] in E.
  destruct (split_conditions r (b && String.eqb o "AND") i1) as [[i2 c2]| |] eqn:E2; try discriminate E.
  destruct (String.eqb o "AND") eqn:A; apply orb_true_iff in M; destruct M as [M|M].
  - exact (IHl M _ _ _ E1).
  - exact (IHr M _ _ _ E2).
  - pose proof (split_mentions _ M _ _ _ E1) as Z. now rewrite andb_false_r in Z.
  - pose proof (split_mentions _ M _ _ _ E2) as Z. now rewrite andb_false_r in Z.
Qed.
Lemma index_refused : forall env p e q, env_rt env = Disallow -> index_below_or e = true ->
  forall out, render_pyspark env (p ++ CSearch e :: q) <> Ok out.
Proof.
  intros env p e q R B out H. unfold render_pyspark, transform_pipeline in H.
  assert (K : forall s st x, snd (run_commands (transform_command env) (p ++ CSearch e :: q) s st) <> Ok x).
  { clear H. induction p as [|c p IH]; intros s st x E.
    - cbn [app run_commands transform_command] in E. rewrite R in E. cbn [select_rt] in E. unfold t_search_standalone, bind, lift in E.
      destruct (split_conditions e true []) as [o| |] eqn:S; [ exact (split_below e B _ _ _ S) | discriminate E.. ].
    - cbn [app run_commands] in E. unfold bind in E. destruct (transform_command env c s st) as [st' [s'| |]]; [ exact (IH _ _ _ E) | discriminate E.. ]. }
  specialize (K None transform_state0). destruct (snd (run_commands (transform_command env) (p ++ CSearch e :: q) None transform_state0)) as [x| |];
    [ exact (K x eq_refl) | discriminate H.. ].
Qed.

(** ** Refusals: a command that never succeeds makes rendering fail wherever it stands *)
Definition never (env : Env) (c : Command) : Prop := forall s st x, snd (transform_command env c s st) <> Ok x.
Lemma never_renders : forall env p c q, never env c -> forall out, render_pyspark env (p ++ c :: q) <> Ok out.
Proof.
  intros env p c q N out H. unfold render_pyspark, transform_pipeline in H.
  assert (K : forall s st x, snd (run_commands (transform_command env) (p ++ c :: q) s st) <> Ok x).
  { clear H. induction p as [|c' p IH]; intros s st x E; cbn [app run_commands] in E; unfold bind in E.
    - specialize (N s st). destruct (transform_command env c s st) as [st' [s'| |]]; [ exact (N s' eq_refl) | discriminate E.. ].
    - destruct (transform_command env c' s st) as [st' [s'| |]]; [ exact (IH _ _ _ E) | discriminate E.. ]. }
  specialize (K None transform_state0). destruct (snd (run_commands (transform_command env) (p ++ c :: q) None transform_state0)) as [x| |];
    [ exact (K x eq_refl) | discriminate H.. ].
Qed.
Lemma join_refused : forall env p o sub q, jo_max o <> 1%Z \/ ~ In (jo_type o) ["inner"; "left"; "outer"]%string ->
  forall out, render_pyspark env (p ++ CJoin o sub :: q) <> Ok out.
Proof.
  intros env p o sub q H. apply never_renders. intros s st x E. cbn [transform_command] in E. unfold bind, select_rt, unimplemented, lift, ret, or_else in E.
  assert (J : forall r d, ~ In (jo_type o) ["inner"; "left"; "outer"]%string -> t_join o s r <> Ok d).
  { intros r d N J. unfold t_join in J. destruct r as [r|]; [ | discriminate J ]. unfold join_kind in J.
    destruct (existsb (String.eqb (jo_type o)) ["inner"; "left"; "outer"]%string) eqn:X; [ | discriminate J ].
    apply existsb_exists in X. destruct X as (y & Hy & Ey). apply String.eqb_eq in Ey. subst y. contradiction. }
  destruct (jo_max o =? 1)%Z eqn:M; [ apply Z.eqb_eq in M; destruct H as [H|H]; [ congruence | ] | clear H J ];
    destruct (env_rt env); cbn [ensure] in E; try discriminate E;
    match type of E with context [run_commands ?a ?b ?c ?d] => destruct (run_commands a b c d) as [st' [r| |]] end; try discriminate E;
    destruct (t_join o s r) as [d| |] eqn:T; try discriminate E; exact (J r d H T).
Qed.
Lemma when_chain_odd : forall neg l acc, Nat.even (length l) = false -> when_chain neg acc l = None.
Proof.
  intros neg l. revert l. fix IH 1. intros [|c [|v l]] acc E; [ discriminate E | reflexivity | ]. cbn [length Nat.even] in E. cbn [when_chain].
  destruct acc; apply IH; exact E.
Qed.
Lemma map_args_length : forall args l, map_args args = Ok l -> length l = length args.
Proof.
  unfold map_args, rtraverse. intros args. induction args as [|a args IH]; intros l E; cbn [map rsequence] in E; [ now injection E as <- | ].
  destruct (arg_expr a); try discriminate E. cbn [rbind] in E. destruct (rsequence (map arg_expr args)) as [l'| |]; try discriminate E. injection E as <-.
  cbn [length]. now rewrite (IH l' eq_refl).
Qed.
Lemma odd_branches : forall f args c, f = "case"%string \/ f = "validate"%string -> Nat.even (length args) = false ->
  to_spark_expr Disallow (ECall f args) <> Ok c.
Proof.
  intros f args c F O E. cbn [to_spark_expr] in E.
  assert (K : forall x, eval_fn_bare f (map (fun a => (a, to_spark_expr Disallow a)) args) <> Ok x).
  { intros x X.
    assert (B : forall n neg y, ft_map n (map (fun a => (a, to_spark_expr Disallow a)) args) (case_body neg) <> Ok y).
    { intros n neg y Y. unfold ft_map in Y. destruct (map_args (map (fun a => (a, to_spark_expr Disallow a)) args)) as [l| |] eqn:M; try discriminate Y.
      apply map_args_length in M. rewrite map_length in M. cbn [rbind] in Y. unfold case_body in Y.
      rewrite when_chain_odd in Y by congruence. discriminate Y. }
    destruct F as [-> | ->]; exact (B _ _ _ X). }
  unfold eval_fn in E. destruct (eval_fn_bare f _) as [x| |]; [ exact (K x eq_refl) | discriminate E.. ].
Qed.
Lemma branches_refused : forall env p x f args rest q, env_rt env = Disallow -> f = "case"%string \/ f = "validate"%string -> Nat.even (length args) = false ->
  forall out, render_pyspark env (p ++ CEval ((x, ECall f args) :: rest) :: q) <> Ok out.
Proof.
  intros env p x f args rest q R F O. apply never_renders. intros s st y E. cbn [transform_command] in E. rewrite R in E. cbn [select_rt t_eval_go] in E.
  unfold eval_column in E. pose proof (odd_branches f args) as N. destruct (to_spark_expr Disallow (ECall f args)) as [c| |]; [ exact (N c F O eq_refl) | discriminate E.. ].
Qed.
(** stats fails if one aggregation cannot be translated *)
Lemma stats_fn_keeps : forall rt e d d' x, transform_stats_expr rt d e = Ok x -> exists y, transform_stats_expr rt d' e = Ok y.
Proof.
  intros rt e d d' x H. unfold transform_stats_expr in *. destruct (expr_unaliased_with_name e) as [e' n]. destruct e'; try discriminate H.
  unfold stats_fn in *. cbn [expr_unaliased_with_name] in *.
  assert (B : forall a z, stats_fn_bare name a d = Ok z -> exists z', stats_fn_bare name a d' = Ok z').
  { intros a z Z. unfold stats_fn_bare in *. destruct (existsb _ stats_unsupported); [ discriminate Z | ].
    destruct (assoc name stats_unary).
    - destruct (ft1 name a _); try discriminate Z. eexists; reflexivity.
    - repeat match type of Z with (if ?b then _ else _) = _ => destruct b end;
        try (match type of Z with rmap _ ?r = _ => destruct r end; [ eexists; reflexivity | discriminate Z.. ]).
      destruct (map_args a); try discriminate Z. eexists; reflexivity. }
  assert (C : forall a z, stats_fn_runtime name a d = Ok z -> exists z', stats_fn_runtime name a d' = Ok z').
  { intros a z Z. unfold stats_fn_runtime in *. destruct (map_args a); try discriminate Z. eexists; reflexivity. }
  set (a := with_args rt args) in *.
  assert (D : exists z', match rt with
      | Disallow => stats_fn_bare name a d'
      | Allow => ror_else (stats_fn_runtime name a d') (stats_fn_bare name a d')
      | Require => stats_fn_runtime name a d' end = Ok z').
  { destruct rt.
    - destruct (stats_fn_bare name a d) as [z| |] eqn:Z; [ | discriminate H.. ]. exact (B _ _ Z).
    - unfold ror_else in *. destruct (stats_fn_runtime name a d) as [z| |] eqn:Z.
      + destruct (C _ _ Z) as [z' ->]. eauto.
      + assert (Z' : stats_fn_runtime name a d' = Err) by (unfold stats_fn_runtime in *; destruct (map_args a); [ discriminate Z | reflexivity | discriminate Z ]).
        rewrite Z'. destruct (stats_fn_bare name a d) as [w| |] eqn:W; [ | discriminate H.. ]. exact (B _ _ W).
      + discriminate H.
    - destruct (stats_fn_runtime name a d) as [z| |] eqn:Z; [ | discriminate H.. ]. exact (C _ _ Z). }
  destruct D as [[dz cz] ->]. cbn [rbind]. eexists; reflexivity.
Qed.
Lemma stats_all_translated : forall rt funcs d x, transform_stats_exprs rt d funcs = Ok x ->
  forall e, In e funcs -> exists y, transform_stats_exprs rt (DSource "main") [e] = Ok y.
Proof.
  intros rt funcs. induction funcs as [|g funcs IH]; intros d x H e He; [ destruct He | ]. cbn [transform_stats_exprs] in H.
  destruct (transform_stats_expr rt d g) as [[d1 c1]| |] eqn:E1; try discriminate H. cbn [rbind] in H.
  destruct (transform_stats_exprs rt d1 funcs) as [[d2 cs]| |] eqn:E2; try discriminate H.
  destruct He as [<-|He]; [ | exact (IH _ _ E2 e He) ]. destruct (stats_fn_keeps rt g d (DSource "main") _ E1) as [[dy cy] E]. 
  exists (dy, [cy]). cbn [transform_stats_exprs]. now rewrite E.
Qed.
Lemma stats_refused : forall env o funcs by_ e p q, env_rt env = Disallow -> In e funcs ->
  (forall out, render_pyspark env [CStats o [e] by_] <> Ok out) ->
  forall out, render_pyspark env (p ++ CStats o funcs by_ :: q) <> Ok out.
Proof.
  intros env o funcs by_ e p q R He H. apply never_renders. intros s st x E. cbn [transform_command] in E. rewrite R in E. cbn [select_rt] in E.
  unfold t_stats_standalone, bind, lift in E.
  destruct (transform_stats_exprs Disallow (d_or_default s) funcs) as [y| |] eqn:Y; [ | discriminate E.. ].
  destruct (stats_all_translated Disallow funcs _ y Y e He) as [[d cs] E1]. 
  refine (H _ _). unfold render_pyspark, transform_pipeline. cbn [run_commands transform_command]. rewrite R. cbn [select_rt].
  unfold t_stats_standalone, bind, lift. change (d_or_default None) with (DSource "main"). rewrite E1. reflexivity.
Qed.
Lemma join_overwrite : forall env ty ut ea max fields sub p q,
  render_pyspark env (p ++ CJoin (mkJoin ty ut ea true max fields) sub :: q) = render_pyspark env (p ++ CJoin (mkJoin ty ut ea false max fields) sub :: q).
Proof.
  intros. unfold render_pyspark, transform_pipeline.
  assert (K : forall s st, run_commands (transform_command env) (p ++ CJoin (mkJoin ty ut ea true max fields) sub :: q) s st
    = run_commands (transform_command env) (p ++ CJoin (mkJoin ty ut ea false max fields) sub :: q) s st).
  { induction p as [|c p IH]; intros s st; cbn [app run_commands]; [ reflexivity | ].
    unfold bind. destruct (transform_command env c s st) as [st' [s'| |]]; [ apply IH | reflexivity.. ]. }
  now rewrite K.
Qed.
(** ** The runtime allowed *)
Lemma call_free_expr : forall e, call_free e = true -> to_spark_expr Allow e = to_spark_expr Disallow e.
Proof.
  intro e. induction e as [l o r IHl IHr|o r IH|n args F|e n IH|e He] using expr_induct; intro H.
  - cbn [call_free] in H. apply andb_true_iff in H. destruct H as [Hl Hr]. cbn [to_spark_expr]. now rewrite (IHl Hl), (IHr Hr).
  - cbn [call_free] in H. cbn [to_spark_expr]. now rewrite (IH H).
  - discriminate H.
  - reflexivity.
  - destruct e; try contradiction; reflexivity.
Qed.
Definition same_command (env : Env) (c : Command) : Prop := runtime_free c = true ->
  forall s st, transform_command env c s st = transform_command (without_runtime env) c s st.
Lemma same_run : forall env p, Forall (same_command env) p -> forallb runtime_free p = true ->
  forall s st, run_commands (transform_command env) p s st = run_commands (transform_command (without_runtime env)) p s st.
Proof.
  intros env p G. induction G as [|c p Gc Gp IH]; intros F s st; [ reflexivity | ]. cbn [forallb] in F. apply andb_true_iff in F. destruct F as [Fc Fp].
  cbn [run_commands]. unfold bind. rewrite (Gc Fc). destruct (transform_command (without_runtime env) c s st) as [st' [x| |]]; auto.
Qed.
Lemma same_unions : forall env ps, Forall (Forall (same_command env)) ps -> forallb (forallb runtime_free) ps = true ->
  forall cur st, run_unions (transform_command env) ps cur st = run_unions (transform_command (without_runtime env)) ps cur st.
Proof.
  intros env ps G. induction G as [|p ps Gp Gps IH]; intros F cur st; [ reflexivity | ]. cbn [forallb] in F. apply andb_true_iff in F. destruct F as [Fp Fps].
  cbn [run_unions]. unfold bind. rewrite (same_run env p Gp Fp).
  destruct (run_commands (transform_command (without_runtime env)) p None st) as [st' [[d|]| |]]; auto.
Qed.
Lemma allow_same : forall env, env_rt env = Allow -> forall c, same_command env c.
Proof.
  intros env A c. induction c as [o p G|ps G|c O] using command_induct; intros F s st.
  - cbn [transform_command env_rt without_runtime]. rewrite A. cbn [select_rt]. unfold or_else, unimplemented, bind, lift.
    destruct (ensure (jo_max o =? 1)%Z); try reflexivity. cbn [runtime_free] in F.
    now rewrite (same_run env p G F).
  - cbn [transform_command env_rt without_runtime]. rewrite A. destruct ps as [|p ps]; [ reflexivity | ].
    cbn [select_rt]. unfold or_else, unimplemented, bind, lift. cbn [runtime_free] in F. now rewrite (same_unions env (p :: ps) G F).
  - destruct c; try discriminate O; try discriminate F; cbn [transform_command env_rt without_runtime]; rewrite A; cbn [select_rt]; try reflexivity.
    unfold t_where. cbn [runtime_free] in F. now rewrite (call_free_expr _ F).
Qed.
Lemma allow_renders : forall env p, env_rt env = Allow -> forallb runtime_free p = true ->
  render_pyspark env p = render_pyspark (without_runtime env) p.
Proof.
  intros env p A F. unfold render_pyspark, transform_pipeline. rewrite (same_run env p); [ reflexivity | | exact F ].
  apply Forall_forall. intros c _. now apply allow_same.
Qed.
Lemma allow_gives : forall env sp db p rows, env_rt env = Allow -> walks_sets env -> covered sp db p rows -> p <> [] ->
  forallb runtime_free p = true -> gives env sp db p (OFrame None rows).
Proof.
  intros env sp db p rows A W C N F. destruct (covered_gives (without_runtime env) sp db p rows eq_refl W C N) as (s & E & H).
  exists s. split; [ now rewrite (allow_renders env p A F) | exact H ].
Qed.
Lemma made_gives : forall env sp db m, env_rt env = Disallow -> walks_sets env ->
  (0 <= mr_count m)%Z -> plain_between dquote (mr_server m) = true -> mr_server_group m = None ->
  gives env sp db [CMakeResults m] (OFrame None (made_rows sp m)).
Proof.
  intros env sp db m R W H P G. apply covered_gives; auto; [ | discriminate ]. right. split; [ | reflexivity ].
  unfold plain_pipeline, plain_pipe, plain_first. cbn [same_as forallb]. apply Z.leb_le in H. now rewrite H, P, G.
Qed.
Lemma made_length : forall sp m, length (made_rows sp m) = Z.to_nat (mr_count m).
Proof. intros. unfold made_rows. now rewrite map_length, seq_length. Qed.
