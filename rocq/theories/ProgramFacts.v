(** Python reads a rendered data frame as its intended program, continued. *)
From Verif Require Import Str PyAst Render ParserFacts SpecPy PyFacts SpecCol SpecFrame ReadFacts ReadTree NamesFacts FrameFacts.
Open Scope list_scope.

(** ** List displays *)
Inductive items_text : string -> list Py -> Prop :=
| It_end : forall e, In e ["]"; " ]"]%string -> items_text e []
| It_last : forall s t e, arg_text s t -> In e ["]"; " ]"]%string -> items_text (s ++ e) [t]
| It_cons : forall s t rest l, arg_text s t -> items_text rest l -> items_text (s ++ ", " ++ rest) (t :: l).

Lemma items_positional : forall n ts, arg_start ts = true ->
  rd_items (S n) ts =
    match rd n 0 ts with
    | Some (e, TkOp c :: r) =>
        if String.eqb c "]" then Some ([e], r)
        else if String.eqb c "," then
          match rd_items n r with Some (l, r') => Some (e :: l, r') | None => None end
        else None
    | _ => None
    end.
Proof.
  intros n ts H. cbn [rd_items]. destruct ts as [|[] ts]; try reflexivity; unfold arg_start in H.
  apply negb_true_iff in H. apply orb_false_iff in H as [H _]. apply orb_false_iff in H as [_ H]. now rewrite H.
Qed.
Lemma items_text_reads : forall s l, items_text s l ->
  exists ts, lx_closed s ts /\ forall k, exists n, rd_items n (ts ++ k) = Some (l, k).
Proof.
  induction 1 as [ e I | s t e (S & ts & E & R & A) I | s t rest l (S & ts & E & R & A) H IH ].
  - exists [op "]"]. split; [ cbn [In] in I; destruct I as [<-|[<-|[]]]; lit | ]. intro k. exists 1. reflexivity.
  - exists (ts ++ [op "]"]). split.
    + cbn [In] in I. destruct I as [<-|[<-|[]]]; (apply lx_ended_app; [ exact E | | lit ]);
        [ apply ender_bracket | apply ender_space ].
    + intro k. rewrite <- app_assoc. cbn [app]. destruct (R (op "]" :: k) eq_refl) as [m M]. exists (Datatypes.S m).
      rewrite items_positional by (apply arg_start_app; [ exact A | discriminate ]). now rewrite M.
  - destruct IH as (us & C & Rd). exists (ts ++ op "," :: us).
    split; [ apply sep_closed; [ exact E | cbn [In]; tauto | exact C ] | ].
    intro k. rewrite <- app_assoc. cbn [app]. destruct (R (op "," :: us ++ k) eq_refl) as [m M].
    destruct (Rd k) as [n Hn]. exists (Datatypes.S (n + m)).
    rewrite items_positional by (apply arg_start_app; [ exact A | discriminate ]).
    rewrite (rd_mono m (n + m) 0 _ _ ltac:(lia) M). cbn [op].
    change (String.eqb "," "]") with false. change (String.eqb "," ",") with true. cbv iota.
    now rewrite (items_mono n (n + m) ltac:(lia) _ _ Hn).
Qed.
Lemma list_arg : forall before s l, In before ["["; "[ "]%string -> items_text s l ->
  arg_text (before ++ s) (PList l).
Proof.
  intros before s l I H. destruct (items_text_reads s l H) as (us & C & Rd).
  split; [ cbn [In] in I; destruct I as [<-|[<-|[]]]; chr | ].
  exists (op "[" :: us). split.
  - apply lx_closed_ended. apply (lx_closed_app _ [op "["]); [ cbn [In] in I; destruct I as [<-|[<-|[]]]; lit | exact C ].
  - split; [ | reflexivity ]. apply (reads_0 5); [ lia | ]. apply prim_reads; [ reflexivity | ].
    intros k x [n T]. destruct (Rd k) as [m M]. exists (S (S (n + m))). cbn [app rd rd_atom op].
    change (String.eqb "[" "(") with false. change (String.eqb "[" "[") with true. cbv iota.
    rewrite (items_mono m (n + m) ltac:(lia) _ _ M).
    apply (trailers_mono n (S (n + m)) ltac:(lia) _ _ _ T).
Qed.

(** ** Dictionary displays *)
Inductive pairs_text : string -> list (Py * Py) -> Prop :=
| Pt_end : pairs_text " }" []
| Pt_last : forall a k s t, arg_text a k -> arg_text s t -> pairs_text (a ++ ": " ++ s ++ " }") [(k, t)]
| Pt_cons : forall a k s t rest l, arg_text a k -> arg_text s t -> pairs_text rest l ->
    pairs_text (a ++ ": " ++ s ++ ", " ++ rest) ((k, t) :: l).
Lemma pairs_positional : forall n ts, arg_start ts = true ->
  rd_pairs (S n) ts =
    match rd n 0 ts with
    | Some (k, TkOp d :: r) =>
        if String.eqb d ":" then
          match rd n 0 r with
          | Some (v, TkOp c :: r') =>
              if String.eqb c "}" then Some ([(k, v)], r')
              else if String.eqb c "," then
                match rd_pairs n r' with Some (l, r'') => Some ((k, v) :: l, r'') | None => None end
              else None
          | _ => None
          end
        else None
    | _ => None
    end.
Proof.
  intros n ts H. cbn [rd_pairs]. destruct ts as [|[] ts]; try reflexivity; unfold arg_start in H.
  apply negb_true_iff in H. apply orb_false_iff in H as [_ H]. now rewrite H.
Qed.
Lemma colon_closed : forall a ts rest us, lx_ended a ts -> lx_closed rest us ->
  lx_closed (a ++ ": " ++ rest)%string (ts ++ op ":" :: us).
Proof.
  intros a ts rest us E C. apply (lx_ended_app a ts ":" (" " ++ rest)); [ exact E | unfold ender; cbn [In]; tauto | ].
  apply (lx_closed_app ": " [op ":"]); [ lit | exact C ].
Qed.
Lemma pairs_text_reads : forall s l, pairs_text s l ->
  exists ts, lx_closed s ts /\ forall k, exists n, rd_pairs n (ts ++ k) = Some (l, k).
Proof.
  induction 1 as [ | a k s t (S' & ks & E' & R' & A') (S & ts & E & R & A)
                 | a k s t rest l (S' & ks & E' & R' & A') (S & ts & E & R & A) H IH ].
  - exists [op "}"]. split; [ lit | ]. intro k. exists 1. reflexivity.
  - exists (ks ++ op ":" :: ts ++ [op "}"]). split.
    + apply colon_closed; [ exact E' | ].
      apply (lx_ended_app s ts " " "}"); [ exact E | apply ender_space | lit ].
    + intro q. rewrite <- app_assoc. cbn [app]. rewrite <- app_assoc. cbn [app].
      destruct (R' (op ":" :: ts ++ op "}" :: q) eq_refl) as [m' M'].
      destruct (R (op "}" :: q) eq_refl) as [m M]. exists (Datatypes.S (m + m')).
      rewrite pairs_positional by (apply arg_start_app; [ exact A' | discriminate ]).
      rewrite (rd_mono m' (m + m') 0 _ _ ltac:(lia) M'). cbn [op]. change (String.eqb ":" ":") with true. cbv iota.
      rewrite (rd_mono m (m + m') 0 _ _ ltac:(lia) M). reflexivity.
  - destruct IH as (us & C & Rd). exists (ks ++ op ":" :: ts ++ op "," :: us). split.
    + apply colon_closed; [ exact E' | ]. apply sep_closed; [ exact E | cbn [In]; tauto | exact C ].
    + intro q. rewrite <- app_assoc. cbn [app]. rewrite <- app_assoc. cbn [app].
      destruct (R' (op ":" :: ts ++ op "," :: us ++ q) eq_refl) as [m' M'].
      destruct (R (op "," :: us ++ q) eq_refl) as [m M]. destruct (Rd q) as [n N].
      exists (Datatypes.S (n + m + m')).
      rewrite pairs_positional by (apply arg_start_app; [ exact A' | discriminate ]).
      rewrite (rd_mono m' (n + m + m') 0 _ _ ltac:(lia) M'). cbn [op]. change (String.eqb ":" ":") with true. cbv iota.
      rewrite (rd_mono m (n + m + m') 0 _ _ ltac:(lia) M). cbn [op].
      change (String.eqb "," "}") with false. change (String.eqb "," ",") with true. cbv iota.
      now rewrite (pairs_mono n (n + m + m') ltac:(lia) _ _ N).
Qed.
Lemma dict_arg : forall s l, pairs_text s l -> arg_text ("{ " ++ s) (PDict l).
Proof.
  intros s l H. destruct (pairs_text_reads s l H) as (us & C & Rd).
  split; [ chr | ]. exists (op "{" :: us). split.
  - apply lx_closed_ended. apply (lx_closed_app "{ " [op "{"]); [ lit | exact C ].
  - split; [ | reflexivity ]. apply (reads_0 5); [ lia | ]. apply prim_reads; [ reflexivity | ].
    intros k x [n T]. destruct (Rd k) as [m M]. exists (S (S (n + m))). cbn [app rd rd_atom op].
    change (String.eqb "{" "(") with false. change (String.eqb "{" "[") with false. change (String.eqb "{" "{") with true.
    cbv iota. rewrite (pairs_mono m (n + m) ltac:(lia) _ _ M).
    apply (trailers_mono n (S (n + m)) ltac:(lia) _ _ _ T).
Qed.

(** ** Argument lists built with join *)
Definition kw_text (kv : string * string) : string := kwarg (fst kv) (snd kv).
Lemma join_args : forall pos trees kws ktrees,
  Forall2 arg_text pos trees ->
  Forall2 (fun kv kt => fst kv = fst kt /\ py_ident (fst kv) = true /\ arg_text (snd kv) (snd kt)) kws ktrees ->
  distinct (map fst ktrees) = true ->
  args_text (join ", " (pos ++ map kw_text kws) ++ ")") trees ktrees.
Proof.
  intros pos trees kws ktrees P. induction P as [|s t pos trees Hs P IH]; intros K D.
  - cbn [app]. clear - K D. induction K as [|[k s] [k' t] kws ktrees (E & I & A) K IH]; [ apply At_end | ].
    cbn [fst snd] in *. subst k'. cbn [map distinct fst] in D. apply andb_prop in D as [N D]. apply negb_true_iff in N.
    destruct K as [|kv kt kws ktrees Hk K].
    + cbn [map join]. unfold kw_text, kwarg. cbn [fst snd]. rewrite !append_assoc_s. now apply At_kw_last.
    + change (join ", " (map kw_text ((k, s) :: kv :: kws)) ++ ")")%string
        with (((kw_text (k, s)) ++ ", " ++ join ", " (map kw_text (kv :: kws))) ++ ")")%string.
      unfold kw_text at 1, kwarg. cbn [fst snd]. rewrite !append_assoc_s.
      apply At_kw; [ exact I | exact A | cbn [In]; tauto | now apply IH | exact N ].
  - specialize (IH K D).
    destruct (pos ++ map kw_text kws)%list as [|y l] eqn:E.
    + apply app_eq_nil in E as [-> E2]. destruct kws; [ | discriminate E2 ].
      inversion P; subst. inversion K; subst. cbn [app map join]. now apply At_last.
    + cbn [app]. rewrite E.
      change (join ", " (s :: y :: l)) with (s ++ ", " ++ join ", " (y :: l))%string.
      rewrite !append_assoc_s. apply At_pos; [ exact Hs | cbn [In]; tauto | exact IH ].
Qed.
Lemma join_args_plain : forall pos trees, Forall2 arg_text pos trees ->
  args_text (join ", " pos ++ ")") trees [].
Proof.
  intros pos trees P. pose proof (join_args pos trees [] [] P ltac:(constructor) eq_refl) as H.
  cbn [map] in H. now rewrite app_nil_r in H.
Qed.
Lemma join_comma : forall sep pos trees, In sep [","; ", "]%string -> Forall2 arg_text pos trees -> pos <> [] ->
  args_text (join sep pos ++ ",)") trees [].
Proof.
  intros sep pos trees I P. induction P as [|s t pos trees Hs P IH]; intro N; [ congruence | ].
  destruct P as [|s2 t2 pos trees H2 P].
  - cbn [join]. apply (At_pos s t "," ")"); [ exact Hs | cbn [In]; tauto | apply At_end ].
  - change (join sep (s :: s2 :: pos)) with (s ++ sep ++ join sep (s2 :: pos))%string.
    rewrite !append_assoc_s. apply At_pos; [ exact Hs | exact I | apply IH; discriminate ].
Qed.

(** ** Runtime arguments *)
Lemma path_frame : forall f x l a args kw, split_on "." f = x :: l -> l <> [] ->
  py_ident x = true -> forallb py_ident l = true -> args_text a args kw ->
  frame_text (f ++ "(" ++ a) (PCall (py_path f) args kw).
Proof.
  intros f x l a args kw E N Hx Hl A. destruct (args_text_reads a args kw A) as (us & C & Rd).
  split; [ rewrite (split_dots f x l E); apply starts_app, starts_app; now apply starts_ident | ].
  exists (path_toks f ++ op "(" :: us).
  split; [ | split ].
  - rewrite <- append_assoc_s. change (op "(" :: us) with ([op "("] ++ us). rewrite app_assoc.
    apply lx_closed_app; [ now apply (path_call f x l) | exact C ].
  - intros k y T. rewrite <- app_assoc. cbn [app]. unfold path_toks, py_path in *. rewrite E in *.
    apply (path_prim l [TkName x] (PName x) Hl); [ | ].
    + apply prim_name. apply identifier_not_keyword. now apply ident_identifier.
    + apply (trailer_call _ args kw us k y); [ apply Rd | exact T ].
  - unfold path_toks. rewrite E. destruct l as [|y l]; [ congruence | reflexivity ].
Qed.
Lemma no_preface : forall r, plain_rt r = true -> preface (render_rexpr r) = [] /\ fst (rt_prog r) = [].
Proof. intros [d|e|kvs|l|f a k] H; try discriminate H; split; reflexivity. Qed.
Lemma split_functions : forall f, split_on "." ("functions." ++ f)%string = "functions"%string :: split_on "." f.
Proof. intro f. cbn [append split_on]. reflexivity. Qed.
Lemma split_nonempty : forall s, split_on "." s <> [].
Proof.
  destruct s as [|d s]; cbn [split_on]; [ discriminate | ].
  destruct (Ascii.eqb "." d); [ discriminate | ]. destruct (split_on "." s); discriminate.
Qed.

Lemma rt_arg : forall r, plain_rt r = true -> arg_text (primary (render_rexpr r)) (snd (rt_prog r)).
Proof.
  apply (rt_induct (fun d => True) (fun r => plain_rt r = true -> arg_text (primary (render_rexpr r)) (snd (rt_prog r))));
    try (intros; exact I).
  - discriminate.
  - intros e H. now apply pexpr_arg.
  - intros l F H. cbn [render_rexpr primary rt_prog snd plain_rt] in *.
    apply dict_arg. clear - F H.
    induction F as [|[k r] l Hr F IH]; [ apply Pt_end | ].
    cbn [forallb fst snd] in H. apply andb_prop in H as [H1 H]. apply andb_prop in H1 as [Pk Pr].
    specialize (IH H). specialize (Hr Pr). cbn [map fst snd] in *.
    pose proof (quoted_arg dquote k eq_refl Pk) as Q.
    replace (dq ++ k ++ dq ++ ": " ++ primary (render_rexpr r))%string
      with (String dquote (k ++ one_char dquote) ++ ": " ++ primary (render_rexpr r))%string
      by (unfold dq, one_char; cbn [append]; now rewrite !append_assoc_s).
    destruct l as [|kv l].
    + cbn [map join]. rewrite !append_assoc_s. now apply Pt_last.
    + change (map (fun kv => dq ++ fst kv ++ dq ++ ": " ++ primary (render_rexpr (snd kv)))%string (kv :: l))
        with ((dq ++ fst kv ++ dq ++ ": " ++ primary (render_rexpr (snd kv)))%string
              :: map (fun kv => dq ++ fst kv ++ dq ++ ": " ++ primary (render_rexpr (snd kv)))%string l) in IH |- *.
      match goal with |- pairs_text (join ", " (?x :: ?y :: ?l) ++ " }") _ =>
        change (join ", " (x :: y :: l)) with (x ++ ", " ++ join ", " (y :: l))%string end.
      rewrite !append_assoc_s. apply Pt_cons; [ exact Q | exact Hr | exact IH ].
  - intros l F H. cbn [render_rexpr primary rt_prog snd plain_rt] in *.
    apply (list_arg "[ "); [ cbn [In]; tauto | ]. clear - F H.
    induction F as [|r l Hr F IH]; [ apply It_end; cbn [In]; tauto | ].
    cbn [forallb] in H. apply andb_prop in H as [Pr H]. specialize (IH H). specialize (Hr Pr).
    destruct l as [|r2 l].
    + cbn [map join]. apply It_last; [ exact Hr | cbn [In]; tauto ].
    + cbn [map] in *.
      match goal with |- items_text (join ", " (?x :: ?y :: ?l) ++ " ]") _ =>
        change (join ", " (x :: y :: l)) with (x ++ ", " ++ join ", " (y :: l))%string end.
      rewrite !append_assoc_s. now apply It_cons.
  - intros f l k Fl Fk H. cbn [render_rexpr primary rt_prog snd plain_rt] in *.
    apply andb_prop in H as [H D]. apply andb_prop in H as [H Pk]. apply andb_prop in H as [Pf Pl].
    rewrite split_functions in Pf. cbn [forallb] in Pf. apply andb_prop in Pf as [_ Pf].
    apply frame_arg.
    replace ("functions." ++ f ++ "(" ++
       join ", " (map (fun x => primary (render_rexpr x)) l ++
                  map (fun kv => kwarg (fst kv) (primary (render_rexpr (snd kv)))) k) ++ ")")%string
      with (("functions." ++ f) ++ "(" ++
       (join ", " (map (fun x => primary (render_rexpr x)) l ++
                  map kw_text (map (fun kv => (fst kv, primary (render_rexpr (snd kv)))) k)) ++ ")"))%string
      by (rewrite map_map; unfold kw_text; cbn [fst snd]; now rewrite !append_assoc_s).
    eapply path_frame; [ apply split_functions | apply split_nonempty | reflexivity | exact Pf | ].
    apply join_args.
    + clear - Fl Pl. induction Fl as [|x l Hx F IH]; [ constructor | ].
      cbn [forallb] in Pl. apply andb_prop in Pl as [Px Pl]. cbn [map]. constructor; auto.
    + clear - Fk Pk. induction Fk as [|[y x] l Hx F IH]; [ constructor | ].
      cbn [forallb fst snd] in Pk. apply andb_prop in Pk as [Px Pl]. apply andb_prop in Px as [Py Px].
      cbn [map fst snd]. constructor; [ split; [ reflexivity | split; [ exact Py | now apply Hx ] ] | auto ].
    + rewrite map_map. cbn [fst]. exact D.
Qed.

(** ** Names as arguments *)
Lemma ident_ended : forall x, py_ident x = true -> lx_ended x [TkName x].
Proof.
  intros x H. exists (LxName x), [], [TkName x]. split; [ now apply ident_run | ].
  split; [ reflexivity | ]. split; [ reflexivity | ].
  intros d Hd; unfold ender in Hd; cbn [In] in Hd;
       repeat destruct Hd as [<-|Hd]; try contradiction Hd; reflexivity.
Qed.
Lemma name_arg : forall x, py_ident x = true -> arg_text x (PName x).
Proof.
  intros x H. split; [ now apply starts_ident | ]. exists [TkName x].
  split; [ now apply ident_ended | ]. split; [ | reflexivity ].
  apply (reads_0 5); [ lia | ]. apply prim_reads; [ reflexivity | ].
  apply prim_name, identifier_not_keyword. now apply ident_identifier.
Qed.

(** ** Programs: assignment lines and a last expression *)
Definition PLine := (string * string * Py)%type.
Definition line_text (l : PLine) : string := (fst (fst l) ++ " = " ++ snd (fst l))%string.
Definition line_ok (l : PLine) : Prop := py_ident (fst (fst l)) = true /\ arg_text (snd (fst l)) (snd l).
Definition line_bind (l : PLine) : string * Py := (fst (fst l), snd l).
Definition lines_text (ls : list PLine) : string := sconcat (map (fun l => line_text l ++ nl)%string ls).

Lemma line_closed : forall x s ts, py_ident x = true -> lx_ended s ts ->
  lx_closed (line_text (x, s, PName x) ++ nl)%string (TkName x :: op "=" :: ts ++ [TkNewline]).
Proof.
  intros x s ts X E. unfold line_text. cbn [fst snd]. rewrite !append_assoc_s.
  apply (lx_ended_app x [TkName x] " " ("= " ++ s ++ nl)); [ now apply ident_ended | apply ender_space | ].
  apply (lx_closed_app " = " [op "="]); [ lit | ].
  apply (lx_ended_app s ts "010" ""); [ exact E | unfold ender; cbn [In]; tauto | lit ].
Qed.
Lemma split_lines_none : forall ts, ~ In TkNewline ts -> split_lines ts = [ts].
Proof.
  induction ts as [|t ts IH]; intro N; [ reflexivity | ].
  assert (N' : ~ In TkNewline ts) by (intro; apply N; now right). specialize (IH N').
  destruct t; cbn [split_lines]; rewrite ?IH; try reflexivity. destruct N. now left.
Qed.
Lemma split_lines_app : forall ts us, ~ In TkNewline ts ->
  split_lines (ts ++ TkNewline :: us) = ts :: split_lines us.
Proof.
  induction ts as [|t ts IH]; intros us N; [ reflexivity | ].
  assert (N' : ~ In TkNewline ts) by (intro; apply N; now right). specialize (IH us N').
  cbn [app]. destruct t; cbn [split_lines]; rewrite ?IH; try reflexivity. destruct N. now left.
Qed.
Lemma split_lines_some : forall ts, split_lines ts <> [].
Proof.
  destruct ts as [|t ts]; [ discriminate | ]. destruct t; cbn [split_lines]; try discriminate;
    destruct (split_lines ts); discriminate.
Qed.
Lemma arg_whole : forall s t, arg_text s t -> exists ts, lx_ended s ts /\ exists n, rd n 0 ts = Some (t, []).
Proof.
  intros s t (_ & ts & E & R & _). exists ts. split; [ exact E | ].
  destruct (R [] eq_refl) as [n N]. exists n. now rewrite app_nil_r in N.
Qed.
Lemma lines_program : forall ls ft t, Forall line_ok ls -> arg_text ft t ->
  exists ts, lx_ended (lines_text ls ++ ft)%string ts /\
    exists n, rd_program n (split_lines ts) = Some (map line_bind ls, t).
Proof.
  intros ls ft t F A. induction F as [|[[x s] e] ls [X S] F IH].
  - destruct (arg_whole _ _ A) as (ts & E & n & N). exists ts. split; [ exact E | ]. exists n.
    rewrite split_lines_none by (now apply (rd_no_newline n 0 ts t)). cbn [rd_program map]. now rewrite N.
  - destruct IH as (us & E & n & N). cbn [fst snd] in X, S.
    destruct (arg_whole _ _ S) as (ts & Es & m & M).
    exists ((TkName x :: op "=" :: ts ++ [TkNewline]) ++ us). split.
    + unfold lines_text. cbn [map]. 
      change (sconcat ((line_text (x, s, e) ++ nl)%string :: map (fun l => (line_text l ++ nl)%string) ls))
        with ((line_text (x, s, e) ++ nl) ++ lines_text ls)%string.
      rewrite append_assoc_s. apply lx_closed_ended_app; [ now apply (line_closed x s ts) | exact E ].
    + exists (n + m). replace ((TkName x :: op "=" :: ts ++ [TkNewline]) ++ us)
        with ((TkName x :: op "=" :: ts) ++ TkNewline :: us) by (cbn [app]; now rewrite <- app_assoc).
      rewrite split_lines_app.
      * cbn [app rd_program op]. destruct (split_lines us) as [|u0 us0] eqn:Eu; [ now destruct (split_lines_some us) | ].
        change (String.eqb "=" "=") with true. rewrite (ident_identifier x X). cbn [andb].
        rewrite (rd_mono m (n + m) 0 _ _ ltac:(lia) M).
        rewrite (rd_program_mono n (n + m) ltac:(lia) _ _ N). reflexivity.
      * cbn [app In]. intros [H|[H|H]]; try discriminate H. now apply (rd_no_newline m 0 ts e M).
Qed.

(** ** Data frames *)
Definition df_ok (d : DataFrame) : Prop :=
  exists ls ft, Forall line_ok ls /\
    code_to_string (render_df d) = (lines_text ls ++ ft)%string /\
    fst (df_prog d) = map line_bind ls /\
    (frame_text ft (snd (df_prog d)) \/ name_text ft (snd (df_prog d))) /\
    (inline d = true -> ls = [] /\ frame_text ft (snd (df_prog d))) /\
    (operand d = true -> preface (render_df d) = map line_text ls /\ primary (render_df d) = ft).

Lemma lines_text_app : forall a b, lines_text (a ++ b) = (lines_text a ++ lines_text b)%string.
Proof.
  unfold lines_text. induction a as [|x a IH]; intro b; [ reflexivity | ].
  cbn [app map sconcat fold_right]. unfold sconcat in *. cbn [fold_right]. rewrite IH. now rewrite !append_assoc_s.
Qed.
Lemma code_lines : forall ls p, code_to_string (mkCode (map line_text ls) p) = (lines_text ls ++ p)%string.
Proof. intros. unfold code_to_string, lines_text. cbn [preface primary]. now rewrite map_map. Qed.

(** A method call on a frame *)
Lemma method_ok : forall s d m a args kw,
  (plain_df s = true -> df_ok s) -> plain_df s = true ->
  py_ident m = true -> args_text a args kw ->
  render_df d = mkCode [] (code_to_string (render_df s) ++ "." ++ m ++ "(" ++ a)%string ->
  df_prog d = (fst (df_prog s), PCall (PAttr (snd (df_prog s)) m) args kw) ->
  inline d = inline s -> operand d = inline s ->
  df_ok d.
Proof.
  intros s d m a args kw IH P M A R D I O.
  destruct (IH P) as (ls & ft & F & T & B & K & In_ & Op).
  exists ls, (ft ++ "." ++ m ++ "(" ++ a)%string.
  assert (FT : frame_text (ft ++ "." ++ m ++ "(" ++ a)%string (snd (df_prog d))).
  { rewrite D. cbn [snd]. destruct K as [K|[X ->]]; [ now apply frame_method | now apply name_method ]. }
  split; [ exact F | ]. split; [ rewrite R; unfold code_to_string at 1; cbn [map preface primary]; rewrite T;
    change (sconcat []) with ""%string; cbn [append]; now rewrite append_assoc_s | ].
  split; [ now rewrite D | ]. split; [ now left | ].
  split; [ intro Hi; rewrite I in Hi; split; [ now apply In_ | exact FT ] | ].
  intro Ho. rewrite O in Ho. destruct (In_ Ho) as [-> _]. rewrite R. cbn [preface primary map]. split; [ reflexivity | ].
  rewrite T. unfold lines_text. cbn [map]. reflexivity.
Qed.

Lemma cols_args : forall cols, forallb plain_col cols = true ->
  Forall2 arg_text (map render_col cols) (map col_tree cols).
Proof.
  induction cols as [|c l IH]; intro H; [ constructor | ]. cbn [forallb] in H. apply andb_prop in H as [Hc H].
  cbn [map]. constructor; [ now apply col_arg | auto ].
Qed.
Lemma pexprs_args : forall l, forallb plain_pexpr l = true ->
  Forall2 arg_text (map render_pexpr l) (map pexpr_tree l).
Proof.
  induction l as [|c l IH]; intro H; [ constructor | ]. cbn [forallb] in H. apply andb_prop in H as [Hc H].
  cbn [map]. constructor; [ now apply pexpr_arg | auto ].
Qed.
Lemma con_arg : forall c, plain_con c = true -> arg_text (render_con c) (con_tree c).
Proof.
  intros [c|s] H; [ now apply col_arg | ]. cbn [render_con con_tree plain_con] in *.
  change (dq ++ s ++ dq)%string with (String dquote (s ++ one_char dquote)). now apply quoted_arg.
Qed.
Lemma squoted : forall n, plain_name_text n = true -> arg_text (String "'" (n ++ "'")) (PStr n).
Proof. intros n H. now apply (quoted_arg "'"). Qed.
Lemma strip_ok : forall a s r, strip_prefix a s = Some r -> s = (a ++ r)%string.
Proof.
  induction a as [|c a IH]; intros s r H; [ now injection H as -> | ].
  destruct s as [|d s]; [ discriminate H | ]. cbn [strip_prefix] in H.
  destruct (Ascii.eqb_spec c d) as [->|]; [ | discriminate H ]. cbn [append]. f_equal. now apply IH.
Qed.

Lemma inline_operand : forall d, inline d = true -> operand d = true.
Proof. destruct d; cbn [inline operand]; intro H; first [ exact H | reflexivity | discriminate H ]. Qed.
Lemma operand_arg : forall d, df_ok d -> operand d = true ->
  exists ls, Forall line_ok ls /\ preface (render_df d) = map line_text ls /\ fst (df_prog d) = map line_bind ls /\
    arg_text (primary (render_df d)) (snd (df_prog d)).
Proof.
  intros d (ls & ft & F & T & B & K & _ & Op) O. destruct (Op O) as [Pf Pp]. exists ls.
  split; [ exact F | ]. split; [ exact Pf | ]. split; [ exact B | ]. rewrite Pp; (destruct K as [K|[X K]]; [ now apply frame_arg | rewrite K; now apply name_arg ]).
Qed.
Lemma inline_arg : forall d, df_ok d -> inline d = true ->
  fst (df_prog d) = [] /\ arg_text (code_to_string (render_df d)) (snd (df_prog d)).
Proof.
  intros d (ls & ft & F & T & B & K & In_ & _) I. destruct (In_ I) as [-> Fr]. split; [ exact B | ].
  rewrite T. now apply frame_arg.
Qed.

Lemma no_prefaces : forall l, forallb plain_rt l = true ->
  List.concat (map preface (map render_rexpr l)) = [] /\ List.concat (map (fun x => fst (rt_prog x)) l) = [].
Proof.
  induction l as [|r l IH]; intro H; [ split; reflexivity | ]. cbn [forallb] in H. apply andb_prop in H as [Hr H].
  destruct (IH H) as [A B]. destruct (no_preface r Hr) as [C D]. cbn [map List.concat]. rewrite A, B, C, D. split; reflexivity.
Qed.
Lemma no_prefaces_kw : forall l, forallb (fun kv => py_ident (fst kv) && plain_rt (snd kv)) l = true ->
  List.concat (map (fun kv => preface (snd kv)) (map (fun kv : string * RuntimeExpr => (fst kv, render_rexpr (snd kv))) l)) = [] /\
  List.concat (map (fun kv : string * RuntimeExpr => fst (rt_prog (snd kv))) l) = [].
Proof.
  induction l as [|[k r] l IH]; intro H; [ split; reflexivity | ]. cbn [forallb fst snd] in H.
  apply andb_prop in H as [Hr H]. apply andb_prop in Hr as [_ Hr].
  destruct (IH H) as [A B]. destruct (no_preface r Hr) as [C D]. cbn [map List.concat fst snd]. rewrite A, B, C, D. split; reflexivity.
Qed.

Ltac meth s m a IH P :=
  eapply (method_ok s _ m a); [ exact IH | exact P | reflexivity | | cbn [render_df append]; rewrite ?append_assoc_s; cbn [append]; rewrite ?append_assoc_s; reflexivity
    | reflexivity | reflexivity | reflexivity ].

Lemma frames_ok : forall d, plain_df d = true -> df_ok d.
Proof.
  apply (df_induct (fun d => plain_df d = true -> df_ok d) (fun r => True)); try (intros; exact I).
  - (* spark.table *)
    intros n H. cbn [plain_df] in H. exists [], ("spark.table('" ++ n ++ "')")%string.
    assert (FT : frame_text ("spark.table('" ++ n ++ "')")%string (py_table n)).
    { replace ("spark.table('" ++ n ++ "')")%string
        with ("spark" ++ "." ++ "table" ++ "(" ++ String "'" (n ++ "'") ++ ")")%string
        by (cbn [append]; now rewrite !append_assoc_s).
      apply name_method; [ reflexivity | reflexivity | ]. apply At_last. now apply squoted. }
    split; [ constructor | ]. split; [ reflexivity | ]. split; [ reflexivity | ]. split; [ left; exact FT | ].
    split; [ split; [ reflexivity | exact FT ] | ]. split; reflexivity.
  - (* spark.range *)
    intros code H. cbn [plain_df] in H. destruct (raw_count code) as [n|] eqn:E; [ | discriminate H ].
    exists [], code.
    assert (FT : frame_text code (raw_tree code)).
    { unfold raw_tree. rewrite E. unfold raw_count in E.
      destruct (strip_prefix "spark.range(0, " code) as [r|] eqn:Es; [ | discriminate E ].
      apply strip_ok in Es. subst code.
      destruct (String.eqb_spec r (substring 0 (String.length r - 4) r ++ ", 1)")%string) as [Er|]; [ | discriminate E ].
      injection E as En. rewrite En in Er. subst r. clear En.
      apply (name_method "spark" "range" ("0" ++ ", " ++ n ++ ", " ++ "1" ++ ")") [PNum "0"; code_tree n; PNum "1"]);
        [ reflexivity | reflexivity | ].
      apply At_pos; [ now apply (code_arg "0") | cbn [In]; tauto | ].
      apply At_pos; [ now apply code_arg | cbn [In]; tauto | ].
      apply At_last. now apply (code_arg "1"). }
    split; [ constructor | ]. split; [ reflexivity | ]. split; [ reflexivity | ]. split; [ left; exact FT | ].
    split; [ split; [ reflexivity | exact FT ] | ]. split; reflexivity.
  - (* runtime commands *)
    intros name src f args kw IHs _ _ H. cbn [plain_df] in H.
    apply andb_prop in H as [H D]. apply andb_prop in H as [H Pk]. apply andb_prop in H as [H Pa].
    apply andb_prop in H as [H Pf]. apply andb_prop in H as [Pn Ps].
    assert (S : exists ls, Forall line_ok ls /\
      match src with Some d => preface (render_df d) | None => [] end = map line_text ls /\
      fst (match src with Some d => df_prog d | None => ([], PName "None") end) = map line_bind ls /\
      arg_text (match src with Some d => primary (render_df d) | None => "None" end)
               (snd (match src with Some d => df_prog d | None => ([], PName "None") end))).
    { destruct src as [s|].
      - apply andb_prop in Ps as [Po Ps]. apply operand_arg; [ exact (IHs s eq_refl Ps) | exact Po ].
      - exists []. split; [ constructor | ]. split; [ reflexivity | ]. split; [ reflexivity | ]. now apply (code_arg "None"). }
    destruct S as (ls & F & Ep & Eb & A).
    destruct (no_prefaces args Pa) as [N1 N2]. destruct (no_prefaces_kw kw Pk) as [N3 N4].
    set (sa := match src with Some d => primary (render_df d) | None => "None"%string end) in *.
    set (st := snd (match src with Some d => df_prog d | None => ([], PName "None") end)) in *.
    set (call := ("commands." ++ f ++ "(" ++
                      join ", " (sa :: map primary (map render_rexpr args)
                                   ++ map (fun kv => kwarg (fst kv) (primary (snd kv)))
                                        (map (fun kv => (fst kv, render_rexpr (snd kv))) kw))
                      ++ ")")%string).
    set (tree := PCall (PAttr (PName "commands") f) (st :: map (fun x => snd (rt_prog x)) args)
                              (map (fun kv => (fst kv, snd (rt_prog (snd kv)))) kw)).
    assert (R : render_df (DRuntime name src f args kw) = mkCode (map line_text (ls ++ [(name, call, tree)])) name).
    { cbn [render_df]. rewrite N1, N3. rewrite map_app. cbn [map]. unfold line_text at 2. cbn [fst snd].
      fold sa. cbn [app].
      replace (match match src with Some d => Some (render_df d) | None => None end with
               | Some c => preface c | None => [] end)
        with (match src with Some d => preface (render_df d) | None => [] end) by (destruct src; reflexivity).
      replace (match match src with Some d => Some (render_df d) | None => None end with
               | Some c => primary c | None => "None"%string end) with sa by (unfold sa; destruct src; reflexivity).
      rewrite Ep. reflexivity. }
    assert (B : df_prog (DRuntime name src f args kw) = (map line_bind (ls ++ [(name, call, tree)]), PName name)).
    { cbn [df_prog]. rewrite N2, N4. cbn [app]. rewrite map_app, <- Eb. unfold tree, st. destruct src; reflexivity. }
    assert (AC : arg_text call tree).
    { apply frame_arg. unfold call.
      change ("commands." ++ f ++ "(" ++ ?x)%string with ("commands" ++ "." ++ f ++ "(" ++ x)%string.
      apply name_method; [ reflexivity | exact Pf | ].
      replace (map (fun kv => kwarg (fst kv) (primary (snd kv))) (map (fun kv => (fst kv, render_rexpr (snd kv))) kw))
        with (map kw_text (map (fun kv => (fst kv, primary (render_rexpr (snd kv)))) kw))
        by (rewrite !map_map; reflexivity).
      change (sa :: map primary (map render_rexpr args) ++ ?k) with ((sa :: map primary (map render_rexpr args)) ++ k).
      apply join_args.
      - constructor; [ exact A | ]. clear - Pa. induction args as [|x l IH]; [ constructor | ].
        cbn [forallb] in Pa. apply andb_prop in Pa as [Px Pa]. cbn [map]. constructor; [ now apply rt_arg | auto ].
      - clear - Pk. induction kw as [|[y x] l IH]; [ constructor | ].
        cbn [forallb fst snd] in Pk. apply andb_prop in Pk as [Px Pl]. apply andb_prop in Px as [Py Px].
        cbn [map fst snd]. constructor; [ split; [ reflexivity | split; [ exact Py | now apply rt_arg ] ] | auto ].
      - rewrite map_map. cbn [fst]. exact D. }
    exists (ls ++ [(name, call, tree)]), name. rewrite R, B. cbn [fst snd preface primary inline].
    split; [ apply Forall_app; split; [ exact F | constructor; [ split; assumption | constructor ] ] | ].
    split; [ apply code_lines | ]. split; [ reflexivity | ]. split; [ right; split; [ exact Pn | reflexivity ] | ].
    split; [ discriminate | ]. intros _. split; reflexivity.
  - (* the steps with one source *)
    intros d s E IH H.
    destruct d as [ n | n o f a k | n | d n | d l | d e | d l | d l | d n c | d o n | d l | d o | d n | d n | d o c t | d n | d m l ];
      try contradiction E; subst d; cbn [plain_df] in H.
    + (* named *)
      apply andb_prop in H as [H Pn]. apply andb_prop in H as [O Ps].
      destruct (operand_arg s (IH Ps) O) as (ls & F & Ep & Eb & A).
      exists (ls ++ [(n, primary (render_df s), snd (df_prog s))]), n.
      cbn [render_df df_prog fst snd preface primary inline]. rewrite Ep, Eb.
      split; [ apply Forall_app; split; [ exact F | constructor; [ split; assumption | constructor ] ] | ].
      change (n ++ " = " ++ primary (render_df s))%string
        with (line_text (n, primary (render_df s), snd (df_prog s))).
      split; [ rewrite <- code_lines, map_app; reflexivity | ].
      split; [ rewrite map_app; reflexivity | ]. split; [ right; split; [ exact Pn | reflexivity ] | ].
      split; [ discriminate | ]. intros _. split; [ rewrite map_app; reflexivity | reflexivity ].
    + apply andb_prop in H as [H Pc]. apply andb_prop in H as [Ps N].
      meth s "select"%string (join ", " (map render_col l) ++ ",)")%string IH Ps.
      apply join_comma; [ cbn [In]; tauto | now apply cols_args | destruct l; discriminate ].
    + apply andb_prop in H as [Ps Pe].
      meth s "where"%string (render_pexpr e ++ "," ++ ")")%string IH Ps.
      apply At_pos; [ now apply pexpr_arg | cbn [In]; tauto | apply At_end ].
    + apply andb_prop in H as [Ps Pc].
      meth s "groupBy"%string (("[" ++ sconcat (map (fun c => render_con c ++ ", ") l) ++ "]") ++ ")")%string IH Ps.
      apply At_last. apply (list_arg "["); [ cbn [In]; tauto | ].
      clear - Pc. induction l as [|c l IH]; [ apply It_end; cbn [In]; tauto | ].
      cbn [forallb] in Pc. apply andb_prop in Pc as [Px Pc]. cbn [map].
      unfold sconcat in *. cbn [fold_right]. rewrite !append_assoc_s.
      apply It_cons; [ now apply con_arg | now apply IH ].
    + apply andb_prop in H as [H Pc]. apply andb_prop in H as [Ps N].
      meth s "agg"%string (join ", " (map render_col l) ++ ",)")%string IH Ps.
      apply join_comma; [ cbn [In]; tauto | now apply cols_args | destruct l; discriminate ].
    + apply andb_prop in H as [H Pc]. apply andb_prop in H as [Ps Pn].
      meth s "withColumn"%string (String "'" (n ++ "'") ++ ", " ++ render_col c ++ "," ++ ")")%string IH Ps.
      * apply At_pos; [ now apply squoted | cbn [In]; tauto | ].
        apply At_pos; [ now apply col_arg | cbn [In]; tauto | apply At_end ].
    + apply andb_prop in H as [H Pn]. apply andb_prop in H as [Ps Po].
      meth s "withColumnRenamed"%string (String "'" (o ++ "'") ++ ", " ++ String "'" (n ++ "'") ++ "," ++ ")")%string IH Ps.
      * apply At_pos; [ now apply squoted | cbn [In]; tauto | ].
        apply At_pos; [ now apply squoted | cbn [In]; tauto | apply At_end ].
    + apply andb_prop in H as [H Pc]. apply andb_prop in H as [Ps N].
      meth s "orderBy"%string (join ", " (map render_col l) ++ ",)")%string IH Ps.
      apply join_comma; [ cbn [In]; tauto | now apply cols_args | destruct l; discriminate ].
    + meth s "limit"%string (dec n ++ "," ++ ")")%string IH H.
      apply At_pos; [ apply int_arg | cbn [In]; tauto | apply At_end ].
    + meth s "tail"%string (dec n ++ ")")%string IH H. apply At_last, int_arg.
    + apply andb_prop in H as [Ps Pn].
      meth s "alias"%string (String "'" (n ++ "'") ++ "," ++ ")")%string IH Ps.
      apply At_pos; [ now apply squoted | cbn [In]; tauto | apply At_end ].
    + apply andb_prop in H as [H Pl]. apply andb_prop in H as [H N]. apply andb_prop in H as [Ps Pm].
      eapply (method_ok s _ m (join "," (map render_pexpr l) ++ ",)")%string); [ exact IH | exact Ps | exact Pm | | reflexivity
        | reflexivity | reflexivity | reflexivity ].
      apply join_comma; [ cbn [In]; tauto | now apply pexprs_args | destruct l; discriminate ].
  - (* unionByName *)
    intros s o IHs IHo H. cbn [plain_df] in H. apply andb_prop in H as [H I]. apply andb_prop in H as [Ps Po].
    destruct (inline_arg o (IHo Po) I) as [E A].
    meth s "unionByName"%string (code_to_string (render_df o) ++ ", " ++ "allowMissingColumns" ++ "=" ++ "True" ++ "," ++ ")")%string IHs Ps.
    apply At_pos; [ exact A | cbn [In]; tauto | ].
    apply At_kw; [ reflexivity | now apply (code_arg "True") | cbn [In]; tauto | apply At_end | reflexivity ].
  - (* join *)
    intros s o c t IHs IHo H. cbn [plain_df] in H. apply andb_prop in H as [H Pt]. apply andb_prop in H as [H Pc].
    apply andb_prop in H as [H I]. apply andb_prop in H as [Ps Po].
    destruct (inline_arg o (IHo Po) I) as [E A].
    meth s "join"%string (code_to_string (render_df o) ++ ", " ++ render_pexpr c ++ ", " ++ String "'" (t ++ "'") ++ "," ++ ")")%string IHs Ps.
    + apply At_pos; [ exact A | cbn [In]; tauto | ].
      apply At_pos; [ now apply pexpr_arg | cbn [In]; tauto | ].
      apply At_pos; [ now apply squoted | cbn [In]; tauto | apply At_end ].
Qed.

(** A plain data frame is read by Python as its intended program *)
Lemma frame_program : forall d, plain_df d = true ->
  python_program (code_to_string (render_df d)) (fst (df_prog d)) (snd (df_prog d)).
Proof.
  intros d H. destruct (frames_ok d H) as (ls & ft & F & T & B & K & _ & _).
  assert (A : arg_text ft (snd (df_prog d)))
    by (destruct K as [K|[X ->]]; [ now apply frame_arg | now apply name_arg ]).
  destruct (lines_program ls ft _ F A) as (ts & E & n & N). exists ts.
  rewrite T. split; [ now apply lx_ended_lex | ]. exists n. now rewrite B.
Qed.
Lemma read_program_iff : forall d, plain_df d = true -> forall a t,
  python_program (code_to_string (render_df d)) a t <-> (a, t) = df_prog d.
Proof.
  intros d H a t. split; intro P.
  - destruct (python_program_unique _ _ _ _ _ P (frame_program d H)) as [-> ->]. symmetry. apply surjective_pairing.
  - pose proof (frame_program d H) as F. rewrite <- P in F. exact F.
Qed.
Lemma read_col_iff : forall c, plain_col c = true -> forall t, python_reads (render_col c) t <-> t = col_tree c.
Proof.
  intros c H t. split; intro P.
  - exact (python_reads_unique _ _ _ P (render_col_read c H)).
  - subst t. now apply render_col_read.
Qed.
