(** Facts: more about what the code does instead, for every use. *)
From Coq Require Import Lia Permutation.
From Verif Require Import Str SplAst PyAst Functions Transpile Render Commands Nom Lexer Parser CmdParser Api PipeFacts SpecPy SpecCol SpecFrame
  FrameFacts ProgramFacts SpecText SpecExpr ExprFacts LogicFacts EvalFacts SpecSpark SpecRows SpecCommands SpecResult SpecEffect RowFacts ValueFacts
  SearchFacts CommandFacts RunFacts ResultFacts EffectFacts SpecSpell SpecWhere SpecEval DefectFacts.
Open Scope list_scope.

(** ** AND and OR in eval *)
Lemma or_and_eval : forall a b c sa sb sc b1 b2 b3 b4, wf a -> wf b -> wf c -> writes 7 a sa -> writes 7 b sb -> writes 7 c sc ->
  blanks b1 -> blanks b2 -> blanks b3 -> blanks b4 ->
  parse ("eval x=" ++ sa ++ b1 ++ "OR" ++ b2 ++ sb ++ b3 ++ "AND" ++ b4 ++ sc)
  = Some (Ok [CEval [("x"%string, EBinary (EBinary (meaning a) "OR" (meaning b)) "AND" (meaning c))]]).
Proof.
  intros a b c sa sb sc b1 b2 b3 b4 Ha Hb Hc Wa Wb Wc B1 B2 B3 B4.
  assert (Wf : wf (TBin OAnd (TBin OOr a b) c)) by (cbn [wf]; auto).
  assert (W : writes 9 (TBin OAnd (TBin OOr a b) c) ((sa ++ b1 ++ op_text OOr ++ b2 ++ sb) ++ b3 ++ op_text OAnd ++ b4 ++ sc)%string).
  { apply (W_bin OAnd); auto; [ | apply (writes_le 7); cbn; auto; lia ].
    apply (W_bin OOr); auto; apply (writes_le 7); cbn; auto; lia. }
  pose proof (parse_eval1 "x" _ _ ltac:(now apply field_by) Wf W) as P. rewrite !ParserFacts.append_assoc_s in P. exact P.
Qed.

(** ** IN with an empty list *)
Lemma in_nothing_where : forall env f, env_rt env <> Require -> render_pyspark env [CWhere (EFieldIn f [])] = Ok "spark.table('main').where(F.lit(True),)"%string.
Proof.
  intros env f R. unfold render_pyspark, transform_pipeline. cbn [run_commands transform_command].
  destruct (env_rt env); try congruence; reflexivity.
Qed.
Lemma in_nothing_search : forall env f, env_rt env = Disallow ->
  render_pyspark env [CSearch (EFieldIn f [])] = Ok ("spark.table('main').where(F.col('_raw').ilike(" ++ in_quotes "%True%" ++ "),)")%string.
Proof.
  intros env f R. unfold render_pyspark, transform_pipeline. cbn [run_commands transform_command]. rewrite R. reflexivity.
Qed.

(** ** search and where *)
Definition cmp_op (o : CmpOp) : Op :=
  match o with CEqEq => OEqEq | CEq => OEq | CNe => ONe | CLe => OLe | CLt => OLt | CGe => OGe | CGt => OGt end.
Lemma cmp_written : forall x o t s, field_name x -> wf t -> writes 2 t s -> forall k, 6 <= k -> k <= 9 ->
  writes k (TBin (cmp_op o) (TField x) t) (x ++ cmp_text o ++ s).
Proof.
  intros x o t s Hx Ht W k K1 K2. apply (writes_le 6); auto.
  assert (Ho : binds (cmp_op o) = 6) by now destruct o. assert (Eo : cmp_text o = op_text (cmp_op o)) by now destruct o.
  rewrite Eo. rewrite <- Ho at 1. apply (W_tight (cmp_op o) (TField x) t x s "" "").
  - split; [ exact I | ]. split; [ exact I | ]. split; [ now destruct o | ]. now right; left.
  - apply (writes_le 2); [ rewrite Ho; cbn; lia | rewrite Ho; cbn; lia | constructor ].
  - rewrite Ho. apply (writes_le 2); auto; lia.
Qed.
Lemma search_like_where : forall env p q e c, env_rt env = Disallow -> split_conditions e true [] = Ok ([], Some e) ->
  to_spark_expr Disallow e = Ok c -> into_search_expr c = c ->
  render_pyspark env (p ++ CSearch e :: q) = render_pyspark env (p ++ CWhere e :: q).
Proof.
  intros env p q e c R S T I. apply alike. intros s st. cbn [transform_command]. rewrite R. cbn [select_rt].
  unfold t_search_standalone, t_where, bind, lift, ret. rewrite S, R, T. cbn [rbind]. rewrite I. reflexivity.
Qed.
Lemma search_not : forall env sp db x o z rows, env_rt env = Disallow -> walks_sets env -> db "main"%string = Some rows ->
  field_name x -> int64_nonmin z ->
  text_gives env sp db ("search NOT " ++ x ++ cmp_text o ++ decimal z)
    (OFrame None (filter (fun r => match cell x r with SNull => false | v => negb (sp_cmp sp (written_op o) v (SInt z)) end) rows)).
Proof.
  intros env sp db x o z rows R W D Hx Hz.
  pose proof (parse_search1 (TNot (TBin (cmp_op o) (TField x) (TInt z))) ("NOT" ++ " " ++ (x ++ cmp_text o ++ decimal z))%string) as P.
  assert (P' := P (conj Hx Hz)). clear P. specialize (P' (writes_le 7 9 _ _ ltac:(lia) ltac:(lia)
    (W_not _ _ " " blank1 (cmp_written x o (TInt z) (decimal z) Hx Hz (W_int z) 7 ltac:(lia) ltac:(lia))))).
  apply (ResultFacts.text_frame _ _ _ _ _ _ P'). clear P'.
  assert (Pn : plain_name_text x = true) by now apply CodeFacts.ident_name_text.
  set (e := meaning (TNot (TBin (cmp_op o) (TField x) (TInt z)))).
  assert (L : render_pyspark env ([] ++ CSearch e :: []) = render_pyspark env ([] ++ CWhere e :: [])).
  { destruct o; (eapply search_like_where; [ exact R | | | ]; [ reflexivity | reflexivity | reflexivity ]). }
  assert (G : gives env sp db ([] ++ [CWhere e]) (OFrame None (filter (fun r => match cell x r with SNull => false | v => negb (sp_cmp sp (written_op o) v (SInt z)) end) rows))).
  { apply (where_gives env sp db R W [] rows); [ left; auto | subst e; cbn [meaning plain_expr]; destruct o; cbn; now rewrite Pn | ].
    intros r Hr. subst e. exists (match cell x r with SNull => None | v => Some (negb (sp_cmp sp (written_op o) v (SInt z))) end).
    destruct o; cbn; destruct (cell x r); cbn; (split; [ reflexivity | ]); split; congruence. }
  destruct G as (code & Ec & H). exists code. split; [ | exact H ]. cbn [app] in *. now rewrite L.
Qed.
Lemma search_word : forall env sp db x o y rows, env_rt env = Disallow -> walks_sets env -> db "main"%string = Some rows ->
  field_name x -> x <> "index"%string -> field_name y -> y <> "index"%string ->
  text_gives env sp db ("search " ++ x ++ cmp_text o ++ y)
    (OFrame None (filter (fun r => match cell x r, cell y r with SNull, _ | _, SNull => false | v, w => sp_cmp sp (written_op o) v w end) rows)).
Proof.
  intros env sp db x o y rows R W D Hx Hi Hy Hj.
  pose proof (parse_search1 (TBin (cmp_op o) (TField x) (TField y)) _ (conj Hx Hy) (cmp_written x o (TField y) y Hx Hy (W_field y) 9 ltac:(lia) ltac:(lia))) as P'.
  apply (ResultFacts.text_frame _ _ _ _ _ _ P'). clear P'.
  assert (Ei : String.eqb x "index" = false) by now apply String.eqb_neq.
  assert (Ej : String.eqb y "index" = false) by now apply String.eqb_neq.
  assert (Pn : plain_name_text x = true) by now apply CodeFacts.ident_name_text.
  assert (Pm : plain_name_text y = true) by now apply CodeFacts.ident_name_text.
  set (e := meaning (TBin (cmp_op o) (TField x) (TField y))).
  set (test := fun r => match cell x r, cell y r with SNull, _ | _, SNull => false | v, w => sp_cmp sp (written_op o) v w end).
  assert (L : render_pyspark env ([] ++ CSearch e :: []) = render_pyspark env ([] ++ CWhere e :: [])).
  { destruct o; (eapply search_like_where; [ exact R | | | ]; [ cbn; rewrite Ei, Ej; reflexivity | reflexivity | reflexivity ]). }
  assert (G : gives env sp db ([] ++ [CWhere e]) (OFrame None (filter test rows))).
  { apply (where_gives env sp db R W [] rows); [ left; auto | subst e; cbn [meaning plain_expr]; destruct o; cbn; now rewrite Pn, Pm | ].
    intros r Hr. subst e test. exists (match cell x r, cell y r with SNull, _ | _, SNull => None | v, w => Some (sp_cmp sp (written_op o) v w) end).
    destruct o; cbn; destruct (cell x r), (cell y r); cbn; (split; [ reflexivity | ]); split; congruence. }
  destruct G as (code & Ec & H). exists code. split; [ | exact H ]. cbn [app] in *. now rewrite L.
Qed.

(** ** Two indexes *)
Definition both_indexes (a b : string) : Expr :=
  EBinary (EBinary (ELeaf (LConstant (KField "index"))) "=" (ELeaf (LConstant (KField a)))) "AND"
    (EBinary (ELeaf (LConstant (KField "index"))) "=" (ELeaf (LConstant (KField b)))).
Lemma two_read : forall a b, field_name a -> field_name b -> parse ("search index=" ++ a ++ " AND index=" ++ b) = Some (Ok [CSearch (both_indexes a b)]).
Proof.
  intros a b Ha Hb. assert (Hi : field_name "index") by now apply field_by.
  assert (Wf : wf (TBin OAnd (TBin OEq (TField "index") (TField a)) (TBin OEq (TField "index") (TField b)))) by (cbn [wf]; auto).
  pose proof (fun W => parse_search1 _ (("index" ++ "=" ++ a) ++ " " ++ op_text OAnd ++ " " ++ ("index" ++ "=" ++ b))%string Wf W) as P.
  assert (W : writes 9 (TBin OAnd (TBin OEq (TField "index") (TField a)) (TBin OEq (TField "index") (TField b)))
    (("index" ++ "=" ++ a) ++ " " ++ op_text OAnd ++ " " ++ ("index" ++ "=" ++ b))%string).
  { apply (W_bin OAnd); try apply blank1.
    - apply (cmp_written "index" CEq (TField a) a Hi Ha (W_field a)); cbn; lia.
    - apply (cmp_written "index" CEq (TField b) b Hi Hb (W_field b)); cbn; lia. }
  specialize (P W). rewrite !ParserFacts.append_assoc_s in P. exact P.
Qed.
Lemma two_frames : forall env a b, env_rt env = Disallow -> a <> "index"%string -> b <> "index"%string -> a <> b -> forall o, env_hash_order env 0 [a; b] = o ->
  o = [a; b] \/ o = [b; a] ->
  transform_pipeline env [CSearch (both_indexes a b)] = Ok (Some (match o with x :: y :: _ => DUnionByName (DSource x) (DSource y) | _ => DSource a end)).
Proof.
  intros env a b R Na Nb N o E O. unfold transform_pipeline. cbn [run_commands transform_command]. rewrite R. cbn [select_rt].
  unfold bind, t_search_standalone, lift, bind, ret, hash_iter, both_indexes.
  assert (Ea : String.eqb a "index" = false) by now apply String.eqb_neq. assert (Eb : String.eqb b "index" = false) by now apply String.eqb_neq.
  assert (Eba : String.eqb b a = false) by (apply String.eqb_neq; congruence).
  cbn [split_conditions is_index]. rewrite Ea, Eb. cbn. unfold set_insert. cbn. rewrite Eba. cbn. rewrite E. destruct O as [-> | ->]; reflexivity.
Qed.
Lemma two_indexes : forall env sp db a b ra rb, env_rt env = Disallow -> walks_sets env -> field_name a -> field_name b ->
  a <> "index"%string -> b <> "index"%string -> a <> b -> db a = Some ra -> db b = Some rb ->
  text_gives env sp db ("search index=" ++ a ++ " AND index=" ++ b) (OFrame None (ra ++ rb)) \/
  text_gives env sp db ("search index=" ++ a ++ " AND index=" ++ b) (OFrame None (rb ++ ra)).
Proof.
  intros env sp db a b ra rb R W Ha Hb Na Nb N Da Db. pose proof (W 0 [a; b]) as P.
  assert (G : forall x y rx ry, field_name x -> field_name y -> db x = Some rx -> db y = Some ry ->
    transform_pipeline env [CSearch (both_indexes a b)] = Ok (Some (DUnionByName (DSource x) (DSource y))) ->
    text_gives env sp db ("search index=" ++ a ++ " AND index=" ++ b) (OFrame None (rx ++ ry))).
  { intros x y rx ry Hx Hy Dx Dy T. apply (ResultFacts.text_frame _ _ _ _ _ _ (two_read a b Ha Hb)).
    apply CodeFacts.ident_name_text in Hx, Hy. apply (frame_gives env sp db _ _ _ T); [ cbn; now rewrite Hx, Hy | ].
    intro cmds. pose proof (union_sem sp db cmds _ _ _ _ (source_sem sp db cmds x rx Hx Dx) (source_sem sp db cmds y ry Hy Dy)) as (_ & _ & _ & _ & F).
    cbn [exec df_prog fst List.app]. exact F. }
  assert (O : env_hash_order env 0 [a; b] = [a; b] \/ env_hash_order env 0 [a; b] = [b; a]).
  { destruct (env_hash_order env 0 [a; b]) as [|x [|y [|z l]]] eqn:E; try (apply Permutation_length in P; discriminate).
    apply Permutation_length_2_inv in P. destruct P as [P|P]; injection P as -> ->; auto. }
  pose proof (two_frames env a b R Na Nb N _ eq_refl O) as T. destruct O as [E|E]; rewrite E in T; [ left; exact (G a b ra rb Ha Hb Da Db T) | right; exact (G b a rb ra Hb Ha Db Da T) ].
Qed.
Lemma quote_end : forall a b x y, all_chars (fun c => c <> "'"%char) a -> all_chars (fun c => c <> "'"%char) b ->
  (a ++ String "'" x)%string = (b ++ String "'" y)%string -> a = b.
Proof.
  induction a as [|c a IH]; intros [|d b] x y Ha Hb E; cbn in *; auto; injection E as E1 E2.
  - exfalso. now apply Hb.
  - exfalso. now apply Ha.
  - f_equal; auto. apply (IH b x y); tauto.
Qed.
Lemma two_orders : forall gr a b, field_name a -> field_name b -> a <> "index"%string -> b <> "index"%string -> a <> b ->
  transpile (mkEnv Disallow (fun _ l => l) gr) ("search index=" ++ a ++ " AND index=" ++ b)
  <> transpile (mkEnv Disallow (fun _ l => rev l) gr) ("search index=" ++ a ++ " AND index=" ++ b).
Proof.
  intros gr a b Ha Hb Na Nb N E. unfold transpile in E. rewrite (two_read a b Ha Hb) in E. cbn [option_map rbind] in E. injection E as E.
  unfold render_pyspark in E.
  rewrite (two_frames (mkEnv Disallow (fun _ l => l) gr) a b eq_refl Na Nb N _ eq_refl (or_introl eq_refl)) in E.
  rewrite (two_frames (mkEnv Disallow (fun _ l => rev l) gr) a b eq_refl Na Nb N _ eq_refl (or_intror eq_refl)) in E.
  cbn [env_hash_order rev List.app] in E.
  assert (Q : forall n, field_name n -> all_chars (fun c => c <> "'"%char) n).
  { intros n H. apply fname_chars in H. destruct H as [_ H]. eapply all_chars_impl; [ | exact H ]. intros c Hc ->.
    pose proof (CodeFacts.fchar_plain squote "'"%char (or_introl eq_refl) Hc). discriminate. }
  assert (E' := f_equal (fun r => match r with Ok t => t | _ => ""%string end) E). clear E. cbn in E'.
  injection E' as E'. rewrite !ParserFacts.append_assoc_s in E'. exact (N (quote_end a b _ _ (Q a Ha) (Q b Hb) E')).
Qed.

(** ** Expressions with the same translation *)
Lemma eval_alike : forall env n e e' p q, env_rt env = Disallow -> to_spark_expr Disallow e = to_spark_expr Disallow e' ->
  render_pyspark env (p ++ CEval [(n, e)] :: q) = render_pyspark env (p ++ CEval [(n, e')] :: q).
Proof.
  intros env n e e' p q R E. apply alike. intros s st. cbn [transform_command]. rewrite R. cbn [select_rt]. unfold lift. cbn [t_eval_go].
  unfold eval_column. now rewrite E.
Qed.
Lemma replace_names : forall a b c, to_spark_expr Disallow (ECall "replace" [a; ELeaf (LConstant (KField b)); c])
  = to_spark_expr Disallow (ECall "replace" [a; ELeaf (LConstant (KStr b)); c]).
Proof. reflexivity. Qed.
Lemma mvindex_rest : forall x i j l, to_spark_expr Disallow (ECall "mvindex" (x :: i :: j :: l)) = to_spark_expr Disallow (ECall "mvindex" [x; i; j]).
Proof. reflexivity. Qed.
Lemma relative_rest : forall t s l, to_spark_expr Disallow (ECall "relative_time" (t :: ELeaf (LConstant (KSnapTime s)) :: l))
  = to_spark_expr Disallow (ECall "relative_time" [t; ELeaf (LConstant (KSnapTime s))]).
Proof. reflexivity. Qed.
Lemma log_args : forall a b, to_spark_expr Disallow (ECall "log" [a; b]) =
  rbind (to_spark_expr Disallow a) (fun x => rbind (to_spark_expr Disallow b) (fun y => Ok (PCol (CAliased (PCol (CFunctionCall "log" [pe_unaliased x; pe_unaliased y])) "log")))).
Proof.
  intros a b. cbn [to_spark_expr map]. unfold eval_fn. cbn. unfold arg_expr. cbn [snd].
  destruct (to_spark_expr Disallow a); [ | reflexivity.. ]. cbn. destruct (to_spark_expr Disallow b); reflexivity.
Qed.
(** ** A method of a negation *)
Lemma unal_idem : forall c, cl_unaliased_with_name (cl_unaliased c) = (cl_unaliased c, None) \/ exists x n, cl_unaliased c = CAliased (PyLit x) n.
Proof.
  fix IH 1. intros [n|l|col f args|f args|col n|op l r|r]; try (left; reflexivity).
  destruct col as [c|x]; [ | right; now exists x, n ]. unfold cl_unaliased. cbn [cl_unaliased_with_name fst]. exact (IH c).
Qed.
Lemma pe_idem : forall e, pe_unaliased (pe_unaliased e) = pe_unaliased e.
Proof.
  intros [c|x]; [ | reflexivity ]. unfold pe_unaliased. cbn [pe_unaliased_with_name].
  destruct (cl_unaliased_with_name c) as [c' n] eqn:E. cbn [fst pe_unaliased_with_name].
  assert (U : cl_unaliased c = c') by (unfold cl_unaliased; now rewrite E).
  destruct (unal_idem c) as [H|(x & m & H)]; rewrite U in H.
  - now rewrite H.
  - subst c'. now rewrite H.
Qed.
Lemma negated_cast : forall env n e, env_rt env = Disallow ->
  render_pyspark env [CEval [(n, ECall "tostring" [EUnary "NOT" e])]] = render_pyspark env [CEval [(n, EUnary "NOT" (ECall "tostring" [e]))]].
Proof.
  intros env n e R. unfold render_pyspark, transform_pipeline. cbn [run_commands transform_command]. rewrite R. cbn [select_rt].
  unfold bind, lift. cbn [t_eval_go]. unfold eval_column. cbn [to_spark_expr map]. unfold eval_fn. cbn.
  unfold arg_expr. cbn [snd].
  destruct (to_spark_expr Disallow e) as [x| |]; [ | reflexivity.. ]. cbn. unfold c_method. cbn. rewrite !pe_idem. reflexivity.
Qed.

(** ** Unknown functions *)
Lemma unknown_args : forall f args, ~ In f (documented ++ ["memk"; "rmunit"; "rmcomma"]%string) ->
  eval_fn_bare f args = rbind (map_args args) (fun l => Ok (CAliased (PCol (CFunctionCall f l)) f)).
Proof.
  intros f args N. set (known := (documented ++ ["memk"; "rmunit"; "rmcomma"]%string)) in N.
  assert (K : forall k, In k known -> String.eqb f k = false).
  { intros k Hk. apply String.eqb_neq. intros ->. now apply N. }
  assert (M : forall l, (forall k, In k l -> In k known) -> existsb (String.eqb f) l = false).
  { induction l as [|k l IH]; intros H; [ reflexivity | ]. cbn [existsb]. rewrite (K k), IH; auto; [ intros; apply H; now right | apply H; now left ]. }
  assert (A : forall (l : list (string * string)), (forall k, In k (map fst l) -> In k known) -> assoc f l = None).
  { induction l as [|[k v] l IH]; intros H; [ reflexivity | ]. cbn [assoc]. rewrite (K k), IH; auto; [ intros; apply H; now right | apply H; now left ]. }
  assert (I : forall l, forallb (fun k => existsb (String.eqb k) known) l = true -> forall k, In k l -> In k known).
  { intros l H k Hk. rewrite forallb_forall in H. specialize (H k Hk). apply existsb_exists in H. destruct H as (x & Hx & E). apply String.eqb_eq in E. now subst x. }
  unfold eval_fn_bare.
  rewrite (M eval_unsupported) by (apply I; vm_compute; reflexivity).
  rewrite (A eval_unary) by (apply I; vm_compute; reflexivity).
  rewrite (A eval_binary) by (apply I; vm_compute; reflexivity).
  repeat (match goal with |- context [String.eqb f ?k] => rewrite (K k) by (apply (I [k]); [ vm_compute; reflexivity | now left ]) end).
  reflexivity.
Qed.
Lemma no_dot_in : forall s, all_chars (fun c => c <> "."%char) s -> contains "." s = false.
Proof.
  induction s as [|c s IH]; intros H; [ reflexivity | ]. destruct H as [Hc Hs]. cbn [contains]. unfold starts_with. cbn [strip_prefix].
  destruct (Ascii.eqb "." c) eqn:E; [ apply Ascii.eqb_eq in E; congruence | ]. now apply IH.
Qed.
Lemma no_dot : forall f, plain_ident f -> contains "." f = false.
Proof.
  intros f [H _]. apply no_dot_in. destruct f as [|c f]; [ destruct H | ]. destruct H as [Hc Hf]. split.
  - intros ->. destruct Hc as [[H|H]|H]; [ | | discriminate ]; unfold code in H; cbn in H; lia.
  - eapply all_chars_impl; [ | exact Hf ]. intros k Hk ->. unfold name_char, letter, digit, code in Hk. cbn in Hk. intuition (discriminate || lia).
Qed.
Lemma unknown_code : forall env y f xs, env_rt env = Disallow -> field_name y -> plain_ident f -> ~ same_word f "TERM" -> Forall field_name xs ->
  ~ In f (documented ++ ["memk"; "rmunit"; "rmcomma"]%string) ->
  transpile env ("eval " ++ y ++ "=" ++ f ++ "(" ++ commas xs ++ ")")
  = Some (Ok ("spark.table('main').withColumn('" ++ y ++ "', F." ++ f ++ "(" ++ join ", " (map (fun x => "F.col('" ++ x ++ "')") xs) ++ "),)"))%string.
Proof.
  intros env y f xs R Hy Hf Ht Hx N.
  assert (Wa : writes_args (map TField xs) xs).
  { clear - Hx. induction xs; constructor; [ apply (writes_le 2); [ lia | lia | constructor ] | apply IHxs; now inversion Hx ]. }
  assert (Wf : wf (TCall f (map TField xs))).
  { cbn [wf]. split; [ exact Hf | ]. split; [ exact Ht | ]. clear - Hx. induction Hx; cbn [map]; [ exact I | split; auto ]. }
  unfold transpile. pose proof (parse_eval1 y _ _ Hy Wf (writes_le 2 9 _ _ ltac:(lia) ltac:(lia) (W_call f _ xs Wa))) as P.
  rewrite P. cbn [option_map rbind]. do 2 f_equal.
  unfold render_pyspark, transform_pipeline. cbn [run_commands transform_command]. rewrite R. cbn [select_rt]. unfold bind, lift. cbn [t_eval_go meaning].
  unfold eval_column. cbn [to_spark_expr eval_fn]. rewrite unknown_args by exact N.
  assert (M : map_args (map (fun a => (a, to_spark_expr Disallow a)) (map meaning (map TField xs))) = Ok (map pcol xs)).
  { clear. unfold map_args. induction xs as [|x xs IH]; [ reflexivity | ]. cbn [map meaning]. unfold rtraverse in *. cbn [map rsequence]. rewrite IH. reflexivity. }
  rewrite M. cbn [rbind rmap].
  assert (D : contains "." f = false) by now apply no_dot.
  cbn. rewrite D. rewrite map_map. cbn. repeat (rewrite ?ParserFacts.append_assoc_s; cbn [append]). reflexivity.
Qed.

(** ** Percent signs and underscores in wildcard patterns *)
Fixpoint without_signs (p : string) : string :=
  match p with
  | EmptyString => EmptyString
  | String c p' =>
      if Ascii.eqb c "*" || Ascii.eqb c "%" then without_signs p'
      else String (if Ascii.eqb c "_" then "a"%char else c) (without_signs p')
  end.
Lemma like_any : forall p s, like p s = true -> (fix any (s : string) : bool := like p s || match s with String _ s' => any s' | EmptyString => false end) s = true.
Proof. intros p [|c s] H; now rewrite H. Qed.
Lemma like_without : forall p, sforall (fun c => negb (Ascii.eqb c "\")) p = true -> like (wildcard_to_like p) (without_signs p) = true.
Proof.
  intros p H. rewrite wildcard_smap. induction p as [|c p IH]; [ reflexivity | ].
  cbn [sforall] in H. apply andb_true_iff in H. destruct H as [Hc Hp]. specialize (IH Hp). apply negb_true_iff in Hc.
  cbn [smap without_signs]. unfold star_to_percent at 1. destruct (Ascii.eqb c "*") eqn:E1.
  - cbn [orb like]. change (Ascii.eqb "%" "%") with true. cbv iota. now apply like_any.
  - destruct (Ascii.eqb c "%") eqn:E2; cbn [orb like]; rewrite E2.
    + now apply like_any.
    + destruct (Ascii.eqb c "_") eqn:E3; [ exact IH | ]. rewrite Hc, Ascii.eqb_refl. exact IH.
Qed.
Lemma has_cons : forall c d s, has_char c (String d s) = Ascii.eqb c d || has_char c s.
Proof. intros. unfold has_char, sexists. cbn [sforall]. now rewrite ?negb_andb, ?negb_involutive. Qed.
Lemma matches_chars : forall p s, Matches p s -> forall c, c <> "*"%char -> has_char c p = true -> has_char c s = true.
Proof.
  intros p s M. induction M as [|d p s N M IH|p run s M IH]; intros c Hc H; [ exact H | | ].
  - rewrite has_cons in *. apply orb_true_iff in H. destruct H as [H|H]; [ now rewrite H | ]. rewrite (IH c Hc H). apply orb_true_r.
  - rewrite has_cons in H. apply orb_true_iff in H. destruct H as [H|H]; [ apply Ascii.eqb_eq in H; congruence | ]. specialize (IH c Hc H).
    induction run as [|d run IHr]; [ exact IH | ]. cbn [append]. rewrite has_cons, IHr. apply orb_true_r.
Qed.
Lemma signs_gone : forall p, has_char "%" (without_signs p) = false /\ has_char "_" (without_signs p) = false.
Proof.
  induction p as [|c p [IH1 IH2]]; [ now split | ]. cbn [without_signs].
  destruct (Ascii.eqb c "*") eqn:E1; [ now split | ]. destruct (Ascii.eqb c "%") eqn:E2; [ now split | ]. cbn [orb]. rewrite !has_cons, IH1, IH2.
  destruct (Ascii.eqb c "_") eqn:E3; [ now split | ]. rewrite !(Ascii.eqb_sym _ c), E2, E3. now split.
Qed.
Lemma signs_match : forall p, sforall (fun c => negb (Ascii.eqb c "\")) p = true -> has_char "%" p || has_char "_" p = true ->
  exists s, like (wildcard_to_like p) s = true /\ ~ Matches p s.
Proof.
  intros p H C. exists (without_signs p). split; [ now apply like_without | ]. intro M. destruct (signs_gone p) as [N1 N2].
  apply orb_true_iff in C. destruct C as [C|C]; apply (matches_chars p _ M) in C; try discriminate; congruence.
Qed.

(** ** case with the runtime *)
Lemma runtime_case : forall env p s n args l, env_rt env = Allow -> transform_pipeline env p = Ok s -> map_args (map (fun a => (a, to_spark_expr Allow a)) args) = Ok l ->
  exists code, render_pyspark env (p ++ [CEval [(n, ECall "case" args)]]) = Ok code.
Proof.
  intros env p s n args l R T M. unfold render_pyspark, transform_pipeline in *. rewrite run_commands_app. unfold bind.
  destruct (run_commands (transform_command env) p None transform_state0) as [st r]. cbn [snd] in T. subst r.
  cbn [run_commands transform_command]. rewrite R. cbn [select_rt]. unfold or_else, bind, lift, t_eval_runtime, rtraverse, eval_column.
  cbn [map fst snd to_spark_expr eval_fn]. unfold eval_fn_runtime. change (String.eqb "case" "cidrmatch") with false. cbv iota. rewrite M.
  cbn. eexists. reflexivity.
Qed.

(** ** The server group *)
Lemma group_code : forall env m g, env_rt env <> Require -> mr_annotate m = true -> mr_server_group m = Some g ->
  exists before, render_pyspark env [CMakeResults m] = Ok (before ++ ".withColumn('splunk_server_group', F.lit(" ++ g ++ "),)")%string.
Proof.
  intros env m g R A G. unfold render_pyspark, transform_pipeline. cbn [run_commands transform_command]. unfold t_makeresults. rewrite A, G.
  match goal with |- context [d_with_column ?d "splunk_server_group" _] => generalize d end. intro d.
  exists (code_to_string (render_df d)). destruct (env_rt env); try congruence; cbn; repeat (rewrite ?ParserFacts.append_assoc_s; cbn [append]); reflexivity.
Qed.
