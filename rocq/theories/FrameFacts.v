(** Python reads a rendered data frame as its intended program. *)
From Coq Require Import Decimal DecimalFacts DecimalZ DecimalString.
From Verif Require Import Str PyAst Render ParserFacts SpecPy PyFacts SpecCol SpecFrame ReadFacts ReadTree NamesFacts.
Open Scope list_scope.

(** ** Decimal integers *)
Lemma uint_decimals : forall d b, is_decimals b (NilEmpty.string_of_uint d) = true.
Proof. induction d; intro b; cbn [NilEmpty.string_of_uint is_decimals]; try reflexivity; apply IHd. Qed.
Lemma uint_number : forall d, d <> Nil -> (forall d', d = D0 d' -> d' = Nil) -> is_number (NilEmpty.string_of_uint d) = true.
Proof.
  intros d N Z. destruct d; try congruence;
    try (cbn [NilEmpty.string_of_uint is_number]; rewrite uint_decimals; cbn [andb];
         unfold num_ok; destruct (NilEmpty.string_of_uint d); reflexivity).
  rewrite (Z d eq_refl). reflexivity.
Qed.
Lemma nzhead_D0 : forall d d', nzhead d <> D0 d'.
Proof. induction d; intros d'; cbn [nzhead]; try discriminate. apply IHd. Qed.
Lemma dec_cases : forall z,
  (is_number (dec z) = true) \/ (exists s, dec z = String "-" s /\ is_number s = true).
Proof.
  intro z. unfold dec. pose proof (DecimalZ.of_to z) as E. pose proof (DecimalZ.to_of (Z.to_int z)) as N.
  rewrite E in N. destruct (Z.to_int z) as [d|d].
  - left. cbn [norm] in N. injection N as N. unfold NilZero.string_of_int, NilZero.string_of_uint.
    assert (P : d <> Nil /\ forall d', d = D0 d' -> d' = Nil).
    { unfold unorm in N. destruct (nzhead d) as [|k|k|k|k|k|k|k|k|k|k] eqn:H; rewrite N;
        try (exfalso; now apply (nzhead_D0 d k)); (split; [ discriminate | ]); intros d' Ed; try discriminate Ed.
      now injection Ed as <-. }
    destruct P as [P1 P2]. destruct d; try (now apply uint_number). congruence.
  - cbn [norm] in N. destruct (nzhead d) as [|k|k|k|k|k|k|k|k|k|k] eqn:H; try discriminate N;
      try (exfalso; now apply (nzhead_D0 d k));
      right; injection N as N; exists (NilZero.string_of_uint d); (split; [ reflexivity | ]);
      rewrite N; unfold NilZero.string_of_uint; apply uint_number; intros; discriminate.
Qed.
Lemma dec_plain : forall z, plain_code (dec z) = true.
Proof.
  intro z. destruct (dec_cases z) as [H|(s & -> & H)].
  - destruct (dec z) as [|c s]; [ discriminate H | ]. unfold plain_code.
    assert (D : py_digit c = true) by (cbn [is_number] in H; apply andb_prop in H as [H _]; now apply andb_prop in H).
    rewrite D. destruct (py_quote c) eqn:Q; [ | exact H ].
    exfalso. unfold py_quote in Q. unfold py_digit in D. apply andb_prop in D as [D1 D2].
    apply Nat.leb_le in D1. apply orb_prop in Q as [Q|Q]; apply Nat.eqb_eq in Q; lia.
  - exact H.
Qed.

(** ** Texts that start like an operand *)
Definition starts (s : string) : Prop := exists c s', s = String c s' /\ c <> "="%char.
Lemma starts_app : forall a b, starts a -> starts (a ++ b)%string.
Proof. intros a b (c & s & -> & N). exists c, (s ++ b)%string. auto. Qed.
Lemma starts_code : forall code, plain_code code = true -> starts code.
Proof.
  intros [|c s] H; [ discriminate H | ]. exists c, s. split; [ reflexivity | ]. intros ->. destruct s; discriminate H.
Qed.
Lemma starts_ident : forall f, py_ident f = true -> starts f.
Proof. intros f H. destruct (ident_letter f H) as (c & f' & -> & L). exists c, f'. split; [ reflexivity | ]. intros ->. discriminate L. Qed.
Ltac chr := (do 2 eexists; split; [ reflexivity | discriminate ]).
Lemma starts_col : forall c, plain_col c = true -> starts (render_col c) /\ starts (render_pexpr (PCol c)).
Proof.
  apply (col_induct (fun c => plain_col c = true -> starts (render_col c) /\ starts (render_pexpr (PCol c)))
                    (fun e => plain_pexpr e = true -> starts (render_pexpr e))).
  - intros; split; chr.
  - intros; split; chr.
  - intros e f l He _ H. cbn [plain_col] in H.
    apply andb_prop in H as [H _]. apply andb_prop in H as [H _]. apply andb_prop in H as [_ Pe].
    cbn [render_col render_pexpr]. split; apply starts_app; auto.
  - intros f l _ H. cbn [plain_col] in H. apply andb_prop in H as [H _]. cbn [render_col render_pexpr].
    assert (S : starts (if contains "." f then f else ("F." ++ f)%string)); [ | split; now apply starts_app ].
    destruct (contains "." f); [ | chr ].
    destruct (split_on "." f) as [|x k] eqn:E; [ discriminate H | ]. apply andb_prop in H as [Px _].
    rewrite (split_dots f x k E). apply starts_app. now apply starts_ident.
  - intros e n He H. cbn [plain_col] in H.
    apply andb_prop in H as [H _]. apply andb_prop in H as [_ Pe].
    cbn [render_col render_pexpr]. split; apply starts_app; auto.
  - intros o l r Hl _ H. cbn [plain_col] in H. apply andb_prop in H as [H _]. apply andb_prop in H as [_ Pl].
    split; [ cbn [render_col]; apply starts_app; auto | chr ].
  - intros; split; chr.
  - intros c Hc H. now apply Hc.
  - intros s H. now apply starts_code.
Qed.
Lemma starts_pexpr : forall e, plain_pexpr e = true -> starts (render_pexpr e).
Proof. intros [c|s] H; [ now apply starts_col | now apply starts_code ]. Qed.

(** ** Argument texts *)
Definition arg_text (s : string) (t : Py) : Prop :=
  starts s /\ exists ts, lx_ended s ts /\ arg_reads ts t.
Lemma col_arg : forall c, plain_col c = true -> arg_text (render_col c) (col_tree c).
Proof.
  intros c H. split; [ now apply starts_col | ]. exists (col_toks c).
  split; [ now apply columns_lex | ]. destruct (columns_ok c H) as (R & A & _). split; assumption.
Qed.
Lemma pexpr_arg : forall e, plain_pexpr e = true -> arg_text (render_pexpr e) (pexpr_tree e).
Proof.
  intros e H. split; [ now apply starts_pexpr | ]. exists (pexpr_toks e).
  split; [ now apply pexprs_lex | ]. destruct (pexprs_ok e H) as (R & A & _).
  split; [ now apply (reads_0 5) | assumption ].
Qed.
Lemma code_arg : forall code, plain_code code = true -> arg_text code (code_tree code).
Proof. intros code H. now apply (pexpr_arg (PyLit code)). Qed.
Lemma int_arg : forall z, arg_text (dec z) (py_int z).
Proof. intro z. apply code_arg, dec_plain. Qed.
Lemma quoted_arg : forall q s, py_quote q = true -> plain_between q s = true ->
  arg_text (String q (s ++ one_char q)) (PStr s).
Proof.
  intros q s Q P. split; [ exists q, (s ++ one_char q)%string; split; [ reflexivity | intros ->; discriminate Q ] | ].
  exists [TkStr s]. split; [ now apply quoted_ended | ].
  split; [ apply (reads_0 5); [ lia | apply reads_str ] | reflexivity ].
Qed.

(** ** Frames: a closed primary *)
Definition frame_text (s : string) (t : Py) : Prop :=
  starts s /\ exists ts, lx_closed s ts /\ prim ts t /\ solid ts = true.
Definition name_text (s : string) (t : Py) : Prop := py_ident s = true /\ t = PName s.
Lemma frame_arg : forall s t, frame_text s t -> arg_text s t.
Proof.
  intros s t (S & ts & C & P & So). destruct (solid_starts ts So) as [S1 S2].
  split; [ exact S | ]. exists ts. split; [ now apply lx_closed_ended | ].
  split; [ apply (reads_0 5); [ lia | now apply prim_reads ] | exact S2 ].
Qed.

(** Argument lists as texts: positional ones, keyword ones, perhaps a last comma *)
Inductive args_text : string -> list Py -> list (string * Py) -> Prop :=
| At_end : args_text ")" [] []
| At_last : forall s t, arg_text s t -> args_text (s ++ ")") [t] []
| At_kw_last : forall k s t, py_ident k = true -> arg_text s t -> args_text (k ++ "=" ++ s ++ ")") [] [(k, t)]
| At_pos : forall s t sep rest args kw, arg_text s t -> In sep [","; ", "]%string -> args_text rest args kw ->
    args_text (s ++ sep ++ rest) (t :: args) kw
| At_kw : forall k s t sep rest kw, py_ident k = true -> arg_text s t -> In sep [","; ", "]%string ->
    args_text rest [] kw -> str_in k (map fst kw) = false ->
    args_text (k ++ "=" ++ s ++ sep ++ rest) [] ((k, t) :: kw).

Lemma eq_then : forall s, starts s ->
  lex_run (LxOp "=") s = pre [op "="] (lex_run LxStart s).
Proof.
  intros s (c & s' & -> & N). cbn [lex_run lex_step].
  destruct (Ascii.eqb_spec c "="); [ contradiction | ].
  change (Ascii.eqb "=" "!") with false. change (Ascii.eqb "=" ".") with false.
  change (char_in "=" "*/<>") with false. change (char_in "=" "-<") with false.
  rewrite !andb_false_r. cbn [andb orb].
  destruct (lex_start c) as [[st us]|]; [ | reflexivity ]. cbn [pre].
  destruct (lex_run st s') as [[st' vs]|]; reflexivity.
Qed.
Lemma kw_closed : forall k s ts, py_ident k = true -> starts s -> lx_closed s ts ->
  lx_closed (k ++ "=" ++ s)%string (TkName k :: op "=" :: ts).
Proof.
  intros k s ts K S C. unfold lx_closed in *. rewrite lex_run_app, ident_run by exact K. rewrite pre_nil.
  change ("=" ++ s)%string with (String "=" s). rewrite name_then by reflexivity.
  cbn [lex_run lex_step]. change (lex_start "=") with (Some (LxOp "=", @nil Tok)). cbv iota. rewrite pre_nil.
  rewrite eq_then by exact S. rewrite C. reflexivity.
Qed.
Lemma sep_closed : forall s ts sep rest us, lx_ended s ts -> In sep [","; ", "]%string -> lx_closed rest us ->
  lx_closed (s ++ sep ++ rest)%string (ts ++ op "," :: us).
Proof.
  intros s ts sep rest us E I C. cbn [In] in I. destruct I as [<-|[<-|[]]].
  - apply (lx_ended_app s ts "," rest); [ exact E | apply ender_comma | ].
    apply (lx_closed_app "," [op ","]); [ lit | exact C ].
  - apply (lx_ended_app s ts "," (" " ++ rest)); [ exact E | apply ender_comma | ].
    apply (lx_closed_app ", " [op ","]); [ lit | exact C ].
Qed.

Lemma args_text_reads : forall s args kw, args_text s args kw ->
  exists ts, lx_closed s ts /\ forall k, exists n, rd_args n (ts ++ k) = Some ((args, kw), k).
Proof.
  induction 1 as [ | s t (S & ts & E & R & A) | k s t K (S & ts & E & R & A)
                 | s t sep rest args kw (S & ts & E & R & A) I H IH
                 | k s t sep rest kw K (S & ts & E & R & A) I H IH N ].
  - exists [op ")"]. split; [ lit | ]. intro k. exists 1. reflexivity.
  - exists (ts ++ [op ")"]). split; [ apply lx_ended_app; [ exact E | apply ender_paren | lit ] | ].
    intro k. rewrite <- app_assoc. cbn [app]. destruct (R (op ")" :: k) eq_refl) as [m M]. exists (Datatypes.S m).
    rewrite args_positional by (apply arg_start_app; [ exact A | discriminate ]). now rewrite M.
  - exists (TkName k :: op "=" :: ts ++ [op ")"]). split.
    + apply kw_closed; [ exact K | now apply starts_app | ].
      apply lx_ended_app; [ exact E | apply ender_paren | lit ].
    + intro q. cbn [app]. rewrite <- app_assoc. cbn [app].
      destruct (R (op ")" :: q) eq_refl) as [m M]. exists (Datatypes.S m). cbn [rd_args op].
      change (String.eqb "=" "=") with true. cbv iota. rewrite (ident_identifier k K), M. reflexivity.
  - destruct IH as (us & C & Rd). exists (ts ++ op "," :: us). split; [ now apply sep_closed | ].
    intro k. rewrite <- app_assoc. cbn [app]. destruct (R (op "," :: us ++ k) eq_refl) as [m M].
    destruct (Rd k) as [n Hn]. exists (Datatypes.S (n + m)).
    rewrite args_positional by (apply arg_start_app; [ exact A | discriminate ]).
    rewrite (rd_mono m (n + m) 0 _ _ ltac:(lia) M). cbn [op].
    change (String.eqb "," ")") with false. change (String.eqb "," ",") with true. cbv iota.
    now rewrite (args_mono n (n + m) ltac:(lia) _ _ Hn).
  - destruct IH as (us & C & Rd). exists (TkName k :: op "=" :: ts ++ op "," :: us). split.
    + apply kw_closed; [ exact K | now apply starts_app | ]. now apply sep_closed.
    + intro q. cbn [app]. rewrite <- app_assoc. cbn [app].
      destruct (R (op "," :: us ++ q) eq_refl) as [m M]. destruct (Rd q) as [n Hn].
      exists (Datatypes.S (n + m)). cbn [rd_args op].
      change (String.eqb "=" "=") with true. cbv iota. rewrite (ident_identifier k K).
      rewrite (rd_mono m (n + m) 0 _ _ ltac:(lia) M). cbn [op].
      change (String.eqb "," ")") with false. change (String.eqb "," ",") with true. cbv iota.
      rewrite (args_mono n (n + m) ltac:(lia) _ _ Hn). now rewrite N.
Qed.

Lemma frame_method : forall s t m a args kw, frame_text s t -> py_ident m = true -> args_text a args kw ->
  frame_text (s ++ "." ++ m ++ "(" ++ a) (PCall (PAttr t m) args kw).
Proof.
  intros s t m a args kw (S & ts & C & P & So) M A.
  destruct (args_text_reads a args kw A) as (us & Cu & Rd).
  split; [ now apply starts_app | ].
  exists (ts ++ op "." :: TkName m :: op "(" :: us).
  split; [ | split; [ | now apply solid_app ] ].
  - apply lx_closed_app; [ exact C | ].
    replace ("." ++ m ++ "(" ++ a)%string with (("." ++ m ++ "(") ++ a)%string by (now rewrite !append_assoc_s).
    apply (lx_closed_app _ [op "."; TkName m; op "("]); [ now apply dot_ident_call | exact Cu ].
  - intros k x T. rewrite <- app_assoc. cbn [app]. apply P.
    apply trailer_attr; [ now apply ident_identifier | ].
    apply (trailer_call (PAttr t m) args kw us k x); [ apply Rd | exact T ].
Qed.
(** A name followed by a method call *)
Lemma name_method : forall x m a args kw, py_ident x = true -> py_ident m = true -> args_text a args kw ->
  frame_text (x ++ "." ++ m ++ "(" ++ a) (PCall (PAttr (PName x) m) args kw).
Proof.
  intros x m a args kw X M A. destruct (args_text_reads a args kw A) as (us & Cu & Rd).
  split; [ apply starts_app; now apply starts_ident | ].
  exists (TkName x :: op "." :: TkName m :: op "(" :: us).
  split; [ | split; [ | reflexivity ] ].
  - unfold lx_closed. rewrite lex_run_app, ident_run by exact X. rewrite pre_nil.
    change ("." ++ m ++ "(" ++ a)%string with (String "." (m ++ "(" ++ a))%string.
    rewrite name_then by reflexivity.
    replace (String "." (m ++ "(" ++ a))%string with (("." ++ m ++ "(") ++ a)%string
      by (cbn [append]; now rewrite !append_assoc_s).
    pose proof (lx_closed_app _ _ _ _ (dot_ident_call m M) Cu) as E. unfold lx_closed in E. rewrite E. reflexivity.
  - intros k y T. cbn [app]. apply (prim_name x (identifier_not_keyword x (ident_identifier x X))).
    apply trailer_attr; [ now apply ident_identifier | ].
    apply (trailer_call (PAttr (PName x) m) args kw us k y); [ apply Rd | exact T ].
Qed.
