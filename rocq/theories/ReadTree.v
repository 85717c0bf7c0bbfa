(** C23, second half: the reader finds the intended tree in the tokens of a column. *)
From Verif Require Import Str PyAst Render SpecPy PyFacts SpecCol ReadFacts.
Open Scope list_scope.

Definition above (lvl : nat) : list string :=
  List.concat (map level_ops (filter (Nat.leb lvl) [0; 1; 2; 3; 4])).
(** What can follow an expression of level lvl without being part of it *)
Definition stop (lvl : nat) (k : list Tok) : bool :=
  match k with
  | TkOp o :: _ => negb (str_in o ("."%string :: "("%string :: above lvl))
  | TkStr _ :: _ => false
  | _ => true
  end.
Definition reads (lvl : nat) (ts : list Tok) (t : Py) : Prop :=
  forall k, stop lvl k = true -> exists n, rd n lvl (ts ++ k) = Some (t, k).
(** A primary: whatever the trailers after it give *)
Definition prim (ts : list Tok) (t : Py) : Prop :=
  forall k x, (exists n, rd_trailers n t k = Some x) -> exists n, rd n 6 (ts ++ k) = Some x.

(** Tokens that start a positional argument *)
Definition arg_start (ts : list Tok) : bool :=
  match ts with
  | [] => false
  | TkOp o :: _ => negb (String.eqb o ")" || String.eqb o "]" || String.eqb o "}")
  | TkName _ :: TkOp o :: _ => negb (String.eqb o "=")
  | _ => true
  end.
Definition no_prefix (ts : list Tok) : bool :=
  match ts with TkOp o :: _ => negb (str_in o unary_ops) | [] => false | _ => true end.

(** ** More depth *)
Section Mono.
  Variables (n m : nat).
  Hypothesis L : n <= m.
  Lemma ops_mono : forall lvl l ts x, rd_ops n lvl l ts = Some x -> rd_ops m lvl l ts = Some x.
  Proof. intros. now apply (mono_le n m L). Qed.
  Lemma atom_mono : forall ts x, rd_atom n ts = Some x -> rd_atom m ts = Some x.
  Proof. intros. now apply (mono_le n m L). Qed.
  Lemma trailers_mono : forall a ts x, rd_trailers n a ts = Some x -> rd_trailers m a ts = Some x.
  Proof. intros. now apply (mono_le n m L). Qed.
  Lemma args_mono : forall ts x, rd_args n ts = Some x -> rd_args m ts = Some x.
  Proof. intros. now apply (mono_le n m L). Qed.
  Lemma items_mono : forall ts x, rd_items n ts = Some x -> rd_items m ts = Some x.
  Proof. intros. now apply (mono_le n m L). Qed.
  Lemma pairs_mono : forall ts x, rd_pairs n ts = Some x -> rd_pairs m ts = Some x.
  Proof. intros. now apply (mono_le n m L). Qed.
End Mono.

Lemma str_in_app : forall o a b, str_in o (a ++ b) = str_in o a || str_in o b.
Proof. intros. unfold str_in. apply existsb_app. Qed.
Lemma stop_split : forall lvl k, lvl <= 4 -> stop lvl k = true ->
  stop (S lvl) k = true /\ next_op (level_ops lvl) k = false.
Proof.
  intros lvl k L H. destruct k as [|[] k]; try (split; [ exact H | reflexivity ]).
  unfold stop, next_op in *. apply negb_true_iff in H.
  assert (E : above lvl = level_ops lvl ++ above (S lvl)).
  { do 5 (destruct lvl as [|lvl]; [ reflexivity | ]). lia. }
  rewrite E in H. unfold str_in in H |- *. cbn [existsb] in H |- *. rewrite existsb_app in H.
  apply orb_false_iff in H as [H1 H]. apply orb_false_iff in H as [H2 H]. apply orb_false_iff in H as [H3 H].
  rewrite H1, H2, H, H3. split; reflexivity.
Qed.
Lemma reads_down : forall lvl ts t, lvl <= 4 -> reads (S lvl) ts t -> reads lvl ts t.
Proof.
  intros lvl ts t L H k S. destruct (stop_split lvl k L S) as [S' N].
  destruct (H k S') as [n R]. exists (Datatypes.S (Datatypes.S n)).
  assert (R' : rd (Datatypes.S n) (Datatypes.S lvl) (ts ++ k) = Some (t, k)) by (eapply rd_mono; [ | exact R ]; lia).
  assert (O : rd_ops (Datatypes.S n) lvl t k = Some (t, k)).
  { cbn [rd_ops]. destruct k as [|[] k]; try reflexivity. unfold next_op in N. now rewrite N. }
  remember (Datatypes.S n) as m.
  do 5 (destruct lvl as [|lvl]; [ cbn [rd]; rewrite R'; exact O | ]). lia.
Qed.
Lemma reads_0 : forall lvl ts t, lvl <= 5 -> reads lvl ts t -> reads 0 ts t.
Proof.
  induction lvl as [|lvl IH]; intros ts t L H; [ exact H | ].
  apply IH; [ lia | ]. apply reads_down; [ lia | exact H ].
Qed.
Lemma prim_reads : forall ts t, no_prefix ts = true -> prim ts t -> reads 5 ts t.
Proof.
  intros ts t N H k S.
  assert (T : exists n, rd_trailers n t k = Some (t, k)).
  { exists 1. cbn [rd_trailers]. destruct k as [|[] k]; try reflexivity.
    unfold stop in S. cbn [str_in existsb] in S. unfold str_in in S. cbn [existsb] in S.
    destruct (String.eqb s "."); [ discriminate S | ]. destruct (String.eqb s "("); [ discriminate S | ]. reflexivity. }
  destruct (H k _ T) as [n R]. exists (Datatypes.S n). cbn [rd].
  destruct ts as [|t0 ts]; [ discriminate N | ]. cbn [app] in *. destruct t0; try exact R.
  unfold no_prefix in N. apply negb_true_iff in N. now rewrite N.
Qed.

(** ** Trailers *)
Lemma trailer_attr : forall a f k x, py_identifier f = true ->
  (exists n, rd_trailers n (PAttr a f) k = Some x) ->
  exists n, rd_trailers n a (op "." :: TkName f :: k) = Some x.
Proof.
  intros a f k x F [n H]. exists (S n). cbn [rd_trailers op]. change (String.eqb "." ".") with true. cbv iota.
  now rewrite F.
Qed.
Lemma trailer_call : forall a args kw ts k x,
  (exists n, rd_args n (ts ++ k) = Some ((args, kw), k)) ->
  (exists n, rd_trailers n (PCall a args kw) k = Some x) ->
  exists n, rd_trailers n a (op "(" :: ts ++ k) = Some x.
Proof.
  intros a args kw ts k x [n A] [m T]. exists (S (n + m)). cbn [rd_trailers op].
  change (String.eqb "(" ".") with false. change (String.eqb "(" "(") with true. cbv iota.
  rewrite (args_mono n (n + m) ltac:(lia) _ _ A). now apply (trailers_mono m (n + m) ltac:(lia)).
Qed.

(** ** Arguments *)
Lemma args_positional : forall n ts, arg_start ts = true ->
  rd_args (S n) ts =
    match rd n 0 ts with
    | Some (e, TkOp c :: r) =>
        if String.eqb c ")" then Some (([e], []), r)
        else if String.eqb c "," then
          match rd_args n r with
          | Some ((args, kwargs), r') => Some ((e :: args, kwargs), r')
          | None => None
          end
        else None
    | _ => None
    end.
Proof.
  intros n ts H. cbn [rd_args]. destruct ts as [|[] ts]; try reflexivity; unfold arg_start in H.
  - destruct ts as [|[] ts]; try reflexivity. apply negb_true_iff in H. now rewrite H.
  - apply negb_true_iff in H. apply orb_false_iff in H as [H _]. apply orb_false_iff in H as [H _]. now rewrite H.
Qed.
Definition arg_reads (ts : list Tok) (t : Py) : Prop :=
  reads 0 ts t /\ arg_start ts = true.
Lemma arg_start_app : forall ts c k, arg_start ts = true -> c <> "="%string -> arg_start (ts ++ TkOp c :: k) = true.
Proof.
  intros ts c k H N. destruct ts as [|[] ts]; try discriminate H; try exact H.
  destruct ts as [|[] ts]; try exact H; try reflexivity. cbn [app arg_start].
  apply negb_true_iff. now apply String.eqb_neq.
Qed.
Lemma rd_args_end : forall k, rd_args 1 (op ")" :: k) = Some (([], []), k).
Proof. reflexivity. Qed.
(** A list of positional arguments followed by what [rest] reads *)
Lemma rd_args_then : forall toks trees rest args kw k,
  Forall2 arg_reads toks trees -> toks <> [] ->
  (exists n, rd_args n (rest ++ k) = Some ((args, kw), k)) ->
  exists n, rd_args n ((sep_toks toks ++ op "," :: rest) ++ k) = Some ((trees ++ args, kw), k).
Proof.
  intros toks trees rest args kw k F. induction F as [|ts t toks trees [R A] F IH]; intros N E; [ congruence | ].
  destruct F as [|ts2 t2 toks trees H2 F].
  - destruct E as [n E]. cbn [sep_toks]. rewrite <- app_assoc. cbn [app].
    destruct (R (op "," :: rest ++ k) eq_refl) as [m M]. exists (S (n + m)).
    rewrite args_positional by (apply arg_start_app; [ exact A | discriminate ]).
    rewrite (rd_mono m (n + m) 0 _ _ ltac:(lia) M). cbn [op].
    change (String.eqb "," ")") with false. change (String.eqb "," ",") with true. cbv iota.
    now rewrite (args_mono n (n + m) ltac:(lia) _ _ E).
  - specialize (IH ltac:(discriminate) E) as [n IH].
    change (sep_toks (ts :: ts2 :: toks)) with (ts ++ op "," :: sep_toks (ts2 :: toks)).
    replace (((ts ++ op "," :: sep_toks (ts2 :: toks)) ++ op "," :: rest) ++ k)
      with (ts ++ op "," :: (sep_toks (ts2 :: toks) ++ op "," :: rest) ++ k)
      by (repeat first [ rewrite <- app_assoc | progress cbn [app] ]; reflexivity).
    destruct (R (op "," :: (sep_toks (ts2 :: toks) ++ op "," :: rest) ++ k) eq_refl) as [m M]. exists (S (n + m)).
    rewrite args_positional by (apply arg_start_app; [ exact A | discriminate ]).
    rewrite (rd_mono m (n + m) 0 _ _ ltac:(lia) M). cbn [op].
    change (String.eqb "," ")") with false. change (String.eqb "," ",") with true. cbv iota.
    now rewrite (args_mono n (n + m) ltac:(lia) _ _ IH).
Qed.
Lemma rd_args_list : forall toks trees k, Forall2 arg_reads toks trees ->
  exists n, rd_args n ((sep_toks toks ++ [op ")"]) ++ k) = Some ((trees, []), k).
Proof.
  intros toks trees k F. induction F as [|ts t toks trees [R A] F IH].
  - exists 1. reflexivity.
  - destruct F as [|ts2 t2 toks trees H2 F].
    + cbn [sep_toks]. rewrite <- app_assoc. cbn [app].
      destruct (R (op ")" :: k) eq_refl) as [m M]. exists (S m).
      rewrite args_positional by (apply arg_start_app; [ exact A | discriminate ]).
      rewrite M. reflexivity.
    + destruct IH as [n IH].
      change (sep_toks (ts :: ts2 :: toks)) with (ts ++ op "," :: sep_toks (ts2 :: toks)).
      replace (((ts ++ op "," :: sep_toks (ts2 :: toks)) ++ [op ")"]) ++ k)
        with (ts ++ op "," :: (sep_toks (ts2 :: toks) ++ [op ")"]) ++ k)
        by (repeat first [ rewrite <- app_assoc | progress cbn [app] ]; reflexivity).
      destruct (R (op "," :: (sep_toks (ts2 :: toks) ++ [op ")"]) ++ k) eq_refl) as [m M]. exists (S (n + m)).
      rewrite args_positional by (apply arg_start_app; [ exact A | discriminate ]).
      rewrite (rd_mono m (n + m) 0 _ _ ltac:(lia) M). cbn [op].
      change (String.eqb "," ")") with false. change (String.eqb "," ",") with true. cbv iota.
      now rewrite (args_mono n (n + m) ltac:(lia) _ _ IH).
Qed.
Lemma trailer_args : forall a toks trees k x, Forall2 arg_reads toks trees ->
  (exists n, rd_trailers n (PCall a trees []) k = Some x) ->
  exists n, rd_trailers n a (call_toks toks ++ k) = Some x.
Proof.
  intros a toks trees k x F T. unfold call_toks. cbn [app].
  apply (trailer_call a trees [] _ k x); [ now apply rd_args_list | exact T ].
Qed.
Lemma prim_method : forall ts t f toks trees, py_identifier f = true -> prim ts t ->
  Forall2 arg_reads toks trees ->
  prim (ts ++ op "." :: TkName f :: call_toks toks) (py_method t f trees).
Proof.
  intros ts t f toks trees F P A k x T. rewrite <- app_assoc. cbn [app].
  apply P. apply trailer_attr; [ exact F | ]. now apply (trailer_args _ _ trees).
Qed.
Lemma prim_name : forall x, str_in x python_keywords = false -> prim [TkName x] (PName x).
Proof.
  intros x N k r [n T]. exists (S (S n)). cbn [rd app]. cbn [rd_atom]. rewrite N.
  apply (trailers_mono n (S n)); [ lia | exact T ].
Qed.
Lemma prim_attr : forall ts t f, py_identifier f = true -> prim ts t ->
  prim (ts ++ [op "."; TkName f]) (PAttr t f).
Proof. intros ts t f F P k x T. rewrite <- app_assoc. cbn [app]. apply P. now apply trailer_attr. Qed.
Lemma prim_call : forall ts t toks trees, prim ts t -> Forall2 arg_reads toks trees ->
  prim (ts ++ call_toks toks) (PCall t trees []).
Proof. intros ts t toks trees P F k x T. rewrite <- app_assoc. apply P. now apply (trailer_args _ _ trees). Qed.
Lemma prim_paren : forall ts t, reads 0 ts t -> prim (op "(" :: ts ++ [op ")"]) t.
Proof.
  intros ts t R k x [n T]. cbn [app]. rewrite <- app_assoc. cbn [app].
  destruct (R (op ")" :: k) eq_refl) as [m M].
  exists (S (S (n + m))). cbn [rd rd_atom op].
  change (String.eqb "(" "(") with true. cbv iota.
  rewrite (rd_mono m (n + m) 0 _ _ ltac:(lia) M). cbn [op]. change (String.eqb ")" ")") with true. cbv iota.
  apply (trailers_mono n (S (n + m))); [ lia | exact T ].
Qed.

(** ** Verbatim code *)
Lemma reads_str : forall s, reads 5 [TkStr s] (PStr s).
Proof.
  intros s k S. exists 4. cbn [rd app rd_atom].
  destruct k as [|[] k]; cbn [adjacent_strings rd_trailers]; try reflexivity; try discriminate S.
  unfold stop, str_in in S. cbn [existsb] in S.
  destruct (String.eqb s0 "."); [ discriminate S | ]. destruct (String.eqb s0 "("); [ discriminate S | ]. reflexivity.
Qed.
Lemma prim_num : forall s, prim [TkNum s] (PNum s).
Proof.
  intros s k r [n T]. exists (S (S n)). cbn [rd app rd_atom].
  apply (trailers_mono n (S n)); [ lia | exact T ].
Qed.
Lemma reads_code : forall code, plain_code code = true -> reads 5 (code_toks code) (code_tree code).
Proof.
  intros [|c s] H; [ discriminate H | ]. cbn [plain_code code_toks code_tree] in *.
  destruct (py_quote c); [ apply reads_str | ].
  destruct (py_digit c); [ apply prim_reads; [ reflexivity | apply prim_num ] | ].
  destruct (Ascii.eqb c "-").
  - intros k S. destruct (prim_reads [TkNum s] _ eq_refl (prim_num s) k S) as [n R].
    exists (Datatypes.S n). cbn [app rd op] in R |- *.
    change (str_in "-" unary_ops) with true. cbv iota. now rewrite R.
  - destruct (raw_start (String c s)); [ apply reads_str | ]. apply prim_reads; [ reflexivity | ]. apply prim_name.
    unfold str_in, python_constants in H. cbn [existsb] in H.
    repeat (apply orb_prop in H as [H|H]); try discriminate H; apply String.eqb_eq in H; rewrite H; reflexivity.
Qed.
Lemma arg_start_code : forall code, plain_code code = true -> arg_start (code_toks code) = true.
Proof.
  intros [|c s] H; [ discriminate H | ]. cbn [code_toks].
  destruct (py_quote c), (py_digit c), (Ascii.eqb c "-"), (raw_start (String c s)); reflexivity.
Qed.

(** ** Columns *)
Lemma F_prim : forall f, py_identifier f = true -> prim (F_toks f) (PAttr (PName "F") f).
Proof.
  intros f H. unfold F_toks. change [TkName "F"; op "."; TkName f] with ([TkName "F"] ++ [op "."; TkName f]).
  apply prim_attr; [ exact H | ]. now apply prim_name.
Qed.
Lemma ident_identifier : forall f, py_ident f = true -> py_identifier f = true.
Proof. intros [|c f] H; [ discriminate H | ]. cbn [py_ident] in H. now apply andb_prop in H as [_ H]. Qed.
Lemma identifier_not_keyword : forall f, py_identifier f = true -> str_in f python_keywords = false.
Proof. intros f H. unfold py_identifier in H. apply andb_prop in H as [H _]. now apply negb_true_iff in H. Qed.
Lemma path_prim : forall l ts t, forallb py_ident l = true -> prim ts t ->
  prim (ts ++ List.concat (map (fun y => [op "."; TkName y]) l)) (fold_left PAttr l t).
Proof.
  induction l as [|y l IH]; intros ts t H P.
  - cbn [map List.concat fold_left]. now rewrite app_nil_r.
  - cbn [forallb] in H. apply andb_prop in H as [Hy H]. cbn [map List.concat fold_left].
    change ([op "."; TkName y] ++ List.concat (map (fun y => [op "."; TkName y]) l))
      with ([op "."; TkName y] ++ List.concat (map (fun y => [op "."; TkName y]) l)).
    rewrite app_assoc. apply IH; [ exact H | ]. apply prim_attr; [ now apply ident_identifier | exact P ].
Qed.

(** A binary operation of parenthesised or prefix operands *)
Lemma op_level : forall o, str_in o binary_ops = true ->
  exists lvl, lvl <= 4 /\ str_in o (level_ops lvl) = true /\ forall k, stop (S lvl) (op o :: k) = true.
Proof.
  intros o H. unfold str_in in H. apply existsb_exists in H as (x & I & E). apply String.eqb_eq in E. subst x.
  cbn in I.
  repeat destruct I as [<-|I]; try contradiction I;
    first [ exists 0; split; [ lia | ]; split; [ reflexivity | intro k; reflexivity ]
          | exists 1; split; [ lia | ]; split; [ reflexivity | intro k; reflexivity ]
          | exists 2; split; [ lia | ]; split; [ reflexivity | intro k; reflexivity ]
          | exists 3; split; [ lia | ]; split; [ reflexivity | intro k; reflexivity ]
          | exists 4; split; [ lia | ]; split; [ reflexivity | intro k; reflexivity ] ].
Qed.
Lemma reads_5_at : forall lvl ts t, lvl <= 5 -> reads 5 ts t -> reads lvl ts t.
Proof.
  intros lvl ts t L H. remember (5 - lvl) as d. revert lvl L Heqd.
  induction d as [|d IH]; intros lvl L E; [ replace lvl with 5 by lia; exact H | ].
  apply reads_down; [ lia | ]. apply IH; lia.
Qed.
Lemma binary_reads : forall o tl l tr r, str_in o binary_ops = true ->
  reads 5 tl l -> reads 5 tr r -> reads 0 (tl ++ op o :: tr) (PBin o l r).
Proof.
  intros o tl l tr r Ho Hl Hr. destruct (op_level o Ho) as (lvl & L & I & St).
  apply (reads_0 lvl); [ lia | ]. intros k S. rewrite <- app_assoc. cbn [app].
  destruct (stop_split lvl k L S) as [S' N].
  destruct (reads_5_at (Datatypes.S lvl) tl l ltac:(lia) Hl (op o :: tr ++ k) (St _)) as [n R].
  destruct (reads_5_at (Datatypes.S lvl) tr r ltac:(lia) Hr k S') as [m M].
  exists (Datatypes.S (Datatypes.S (Datatypes.S (n + m)))).
  assert (R' : rd (Datatypes.S (Datatypes.S (n + m))) (Datatypes.S lvl) (tl ++ op o :: tr ++ k) = Some (l, op o :: tr ++ k))
    by (eapply rd_mono; [ | exact R ]; lia).
  assert (M' : rd (Datatypes.S (n + m)) (Datatypes.S lvl) (tr ++ k) = Some (r, k))
    by (eapply rd_mono; [ | exact M ]; lia).
  assert (O : rd_ops (Datatypes.S (Datatypes.S (n + m))) lvl l (op o :: tr ++ k) = Some (PBin o l r, k)).
  { remember (Datatypes.S (n + m)) as q. cbn [rd_ops op]. rewrite I, M'.
    assert (E : rd_ops q lvl (PBin o l r) k = Some (PBin o l r, k)).
    { subst q. cbn [rd_ops]. destruct k as [|[] k]; try reflexivity. unfold next_op in N. now rewrite N. }
    destruct lvl; [ now rewrite N | exact E ]. }
  remember (Datatypes.S (Datatypes.S (n + m))) as q.
  do 5 (destruct lvl as [|lvl]; [ cbn [rd]; rewrite R'; exact O | ]). lia.
Qed.

Definition col_ok (c : ColumnLike) : Prop := plain_col c = true ->
  reads 0 (col_toks c) (col_tree c) /\ arg_start (col_toks c) = true /\
  reads 5 (pexpr_toks (PCol c)) (col_tree c) /\ arg_start (pexpr_toks (PCol c)) = true /\
  (receiver (PCol c) = true -> prim (pexpr_toks (PCol c)) (col_tree c)).
Definition pexpr_ok (e : PExpr) : Prop := plain_pexpr e = true ->
  reads 5 (pexpr_toks e) (pexpr_tree e) /\ arg_start (pexpr_toks e) = true /\
  (receiver e = true -> prim (pexpr_toks e) (pexpr_tree e)).

Lemma col_ok_prim : forall c, (forall o l r, c <> CBinaryOp o l r) ->
  prim (col_toks c) (col_tree c) -> no_prefix (col_toks c) = true -> arg_start (col_toks c) = true ->
  reads 0 (col_toks c) (col_tree c) /\ arg_start (col_toks c) = true /\
  reads 5 (pexpr_toks (PCol c)) (col_tree c) /\ arg_start (pexpr_toks (PCol c)) = true /\
  (receiver (PCol c) = true -> prim (pexpr_toks (PCol c)) (col_tree c)).
Proof.
  intros c N P X A.
  assert (E : pexpr_toks (PCol c) = col_toks c) by (destruct c; try reflexivity; exfalso; eapply N; reflexivity).
  rewrite E. pose proof (prim_reads _ _ X P) as R.
  repeat split; auto. now apply (reads_0 5).
Qed.
Lemma args_ok : forall l, Forall pexpr_ok l -> forallb plain_pexpr l = true ->
  Forall2 arg_reads (map pexpr_toks l) (map pexpr_tree l).
Proof.
  induction 1 as [|e l He Hl IH]; intro H; [ constructor | ].
  cbn [forallb] in H. apply andb_prop in H as [H1 H2]. cbn [map]. constructor; [ | auto ].
  destruct (He H1) as (R & A & _). split; [ now apply (reads_0 5) | exact A ].
Qed.
Lemma start_app : forall ts us, ts <> [] -> no_prefix ts = true -> no_prefix (ts ++ us) = true.
Proof. intros [|t ts] us N H; [ congruence | exact H ]. Qed.

(** Receivers start with a name or a parenthesis, and the token after a name is a dot
    or a parenthesis *)
Definition solid (ts : list Tok) : bool :=
  match ts with
  | TkOp o :: _ => String.eqb o "("
  | TkName _ :: TkOp o :: _ => String.eqb o "." || String.eqb o "("
  | _ => false
  end.
Lemma solid_app : forall ts us, solid ts = true -> solid (ts ++ us) = true.
Proof. intros [|[] [|[] ts]] us H; try discriminate H; exact H. Qed.
Lemma solid_starts : forall ts, solid ts = true -> no_prefix ts = true /\ arg_start ts = true.
Proof.
  intros [|[] ts] H; try discriminate H.
  - destruct ts as [|[] ts]; try discriminate H. cbn [solid] in H. split; [ reflexivity | ].
    apply orb_prop in H as [H|H]; apply String.eqb_eq in H; subst; reflexivity.
  - cbn [solid] in H. apply String.eqb_eq in H. subst. split; reflexivity.
Qed.
Lemma receiver_solid : forall c, receiver (PCol c) = true -> plain_col c = true -> solid (pexpr_toks (PCol c)) = true.
Proof.
  apply (col_induct (fun c => receiver (PCol c) = true -> plain_col c = true -> solid (pexpr_toks (PCol c)) = true)
                    (fun e => receiver e = true -> plain_pexpr e = true -> solid (pexpr_toks e) = true)).
  - reflexivity.
  - reflexivity.
  - intros e f l He _ _ H. cbn [plain_col] in H.
    apply andb_prop in H as [H _]. apply andb_prop in H as [H _]. apply andb_prop in H as [Re Pe].
    cbn [pexpr_toks col_toks]. apply solid_app. auto.
  - intros f l _ _ H. cbn [plain_col] in H. apply andb_prop in H as [H _]. cbn [pexpr_toks col_toks].
    destruct (contains "." f); [ | reflexivity ].
    unfold path_toks. destruct (split_on "." f) as [|x [|y k]]; [ discriminate H | reflexivity | reflexivity ].
  - intros e n He _ H. cbn [plain_col] in H.
    apply andb_prop in H as [H _]. apply andb_prop in H as [Re Pe].
    cbn [pexpr_toks col_toks]. apply solid_app. auto.
  - reflexivity.
  - discriminate.
  - auto.
  - discriminate.
Qed.

Lemma columns_ok : forall c, col_ok c.
Proof.
  apply (col_induct col_ok pexpr_ok).
  - intros n H. apply col_ok_prim; [ discriminate | | reflexivity | reflexivity ].
    cbn [col_toks col_tree]. unfold py_F. apply prim_call; [ now apply F_prim | ].
    constructor; [ | constructor ]. split; [ apply (reads_0 5); [ lia | apply reads_str ] | reflexivity ].
  - intros n H. cbn [plain_col] in H. apply col_ok_prim; [ discriminate | | reflexivity | reflexivity ].
    cbn [col_toks col_tree]. unfold py_F. apply prim_call; [ now apply F_prim | ].
    constructor; [ | constructor ].
    split; [ apply (reads_0 5); [ lia | now apply reads_code ] | now apply arg_start_code ].
  - intros e f l He Hl H. pose proof H as H'. cbn [plain_col] in H.
    apply andb_prop in H as [H Pl]. apply andb_prop in H as [H Pf]. apply andb_prop in H as [Re Pe].
    pose proof (receiver_solid (CMethodCall e f l) eq_refl H') as So. cbn [pexpr_toks] in So.
    destruct (solid_starts _ So) as [S1 S2].
    apply col_ok_prim; [ discriminate | | exact S1 | exact S2 ].
    cbn [col_toks col_tree]. apply prim_method; [ now apply ident_identifier | now apply He | now apply args_ok ].
  - intros f l Hl H. pose proof H as H'. cbn [plain_col] in H. apply andb_prop in H as [Pf Pl].
    pose proof (receiver_solid (CFunctionCall f l) eq_refl H') as So. cbn [pexpr_toks] in So.
    destruct (solid_starts _ So) as [S1 S2].
    apply col_ok_prim; [ discriminate | | exact S1 | exact S2 ].
    cbn [col_toks col_tree]. apply prim_call; [ | now apply args_ok ].
    destruct (contains "." f); [ | apply F_prim; now apply ident_identifier ].
    unfold path_toks, py_path. destruct (split_on "." f) as [|x k]; [ discriminate Pf | ].
    apply andb_prop in Pf as [Px Pk]. apply (path_prim k [TkName x]); [ exact Pk | ].
    apply prim_name. apply identifier_not_keyword. now apply ident_identifier.
  - intros e n He H. pose proof H as H'. cbn [plain_col] in H.
    apply andb_prop in H as [H Pn]. apply andb_prop in H as [Re Pe].
    pose proof (receiver_solid (CAliased e n) eq_refl H') as So. cbn [pexpr_toks] in So.
    destruct (solid_starts _ So) as [S1 S2].
    apply col_ok_prim; [ discriminate | | exact S1 | exact S2 ].
    cbn [col_toks col_tree]. apply prim_method; [ reflexivity | now apply He | ].
    constructor; [ | constructor ]. split; [ apply (reads_0 5); [ lia | apply reads_str ] | reflexivity ].
  - intros o l r Hl Hr H. cbn [plain_col] in H.
    apply andb_prop in H as [H Pr]. apply andb_prop in H as [Ho Pl].
    destruct (Hl Pl) as (Rl & Al & _). destruct (Hr Pr) as (Rr & Ar & _).
    pose proof (binary_reads o _ _ _ _ Ho Rl Rr) as R.
    cbn [col_toks col_tree].
    assert (P : prim (pexpr_toks (PCol (CBinaryOp o l r))) (PBin o (pexpr_tree l) (pexpr_tree r)))
      by (now apply prim_paren).
    split; [ exact R | ]. split.
    + destruct (pexpr_toks l) as [|[] [|[] ts]]; try discriminate Al; try exact Al; try reflexivity.
      cbn [app arg_start op]. unfold str_in in Ho. apply existsb_exists in Ho as (x & I & E).
      apply String.eqb_eq in E. subst x. cbn in I.
      repeat destruct I as [<-|I]; try contradiction I; reflexivity.
    + split; [ now apply prim_reads | ]. split; [ reflexivity | auto ].
  - intros r Hr H. cbn [plain_col] in H. apply andb_prop in H as [Cr Pr].
    destruct (Hr Pr) as (R & A & _).
    assert (R5 : reads 5 (op "~" :: pexpr_toks r) (PUn "~" (pexpr_tree r))).
    { intros k S. destruct (R k S) as [n E]. exists (Datatypes.S n). cbn [app rd op].
      change (str_in "~" unary_ops) with true. cbv iota. now rewrite E. }
    cbn [col_toks col_tree pexpr_toks].
    split; [ now apply (reads_0 5) | ]. split; [ reflexivity | ]. split; [ exact R5 | ].
    split; [ reflexivity | discriminate ].
  - intros c Hc H. destruct (Hc H) as (_ & _ & R & A & P). cbn [pexpr_tree]. auto.
  - intros c H. cbn [pexpr_toks pexpr_tree]. split; [ now apply reads_code | ].
    split; [ now apply arg_start_code | discriminate ].
Qed.
Lemma pexprs_ok : forall e, pexpr_ok e.
Proof.
  intros [c|s] H.
  - destruct (columns_ok c H) as (_ & _ & R & A & P). cbn [pexpr_tree]. auto.
  - cbn [pexpr_toks pexpr_tree]. split; [ now apply reads_code | ].
    split; [ now apply arg_start_code | discriminate ].
Qed.

Lemma reads_python : forall s ts t, lx_ended s ts -> reads 0 ts t -> python_reads s t.
Proof.
  intros s ts t E R. exists ts. split; [ now apply lx_ended_lex | ].
  destruct (R [] eq_refl) as [n H]. rewrite app_nil_r in H. eauto.
Qed.
Lemma render_col_read : forall c, plain_col c = true -> python_reads (render_col c) (col_tree c).
Proof.
  intros c H. apply (reads_python _ (col_toks c)); [ now apply columns_lex | now apply columns_ok ].
Qed.
Lemma render_pexpr_read : forall e, plain_pexpr e = true -> python_reads (render_pexpr e) (pexpr_tree e).
Proof.
  intros e H. apply (reads_python _ (pexpr_toks e)); [ now apply pexprs_lex | ].
  apply (reads_0 5); [ lia | now apply pexprs_ok ].
Qed.
