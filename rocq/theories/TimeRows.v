(** Facts: strftime on rows. *)
From Coq Require Import String Ascii List ZArith Bool.
Import ListNotations.
From Verif Require Import Str SplAst PyAst Functions Transpile Commands CmdParser Api PipeFacts SpecPy SpecCol SpecSpark SpecRows FrameFacts RowFacts ValueFacts
  SpecCommands CommandFacts RunFacts SpecResult ResultFacts SpecEffect EffectFacts SpecTime TimeFacts.
Open Scope list_scope.

Lemma plain_app : forall q a b, plain_between q (a ++ b)%string = plain_between q a && plain_between q b.
Proof. intros q a b. unfold plain_between. induction a as [|c a IH]; [ reflexivity | ]. cbn [append sforall]. now rewrite IH, andb_assoc. Qed.
Lemma conv_plain : forall l g, plain_between dquote (format_text l) = true -> rmap sconcat (rtraverse converted l) = Ok g -> plain_between dquote g = true.
Proof.
  intro l. unfold rtraverse. induction l as [|i l IH]; intros g P E; [ injection E as <-; reflexivity | ].
  unfold format_text in P. cbn [map sconcat rsequence] in *. rewrite plain_app in P. apply andb_true_iff in P. destruct P as [Pi Pl].
  destruct (converted i) as [a| |] eqn:C; try discriminate E. cbn [rbind] in E. destruct (rsequence (map converted l)) as [b| |]; try discriminate E.
  cbn in E. injection E as <-. rewrite plain_app, (IH (sconcat b) Pl eq_refl), andb_true_r.
  destruct i as [c|d|]; cbn in C; [ injection C as <-; exact Pi | | injection C as <-; reflexivity ].
  assert (K : forallb (fun x => match snd x with Some r => plain_between dquote r | None => true end) CONVS = true) by (vm_compute; reflexivity).
  unfold conv_in in C. destruct (find (fun x => String.eqb d (fst x)) CONVS) as [[n [r|]]|] eqn:Q; cbn in C; try discriminate C. injection C as <-.
  apply find_some in Q. destruct Q as [Q _]. rewrite forallb_forall in K. exact (K _ Q).
Qed.
Lemma strftime_call : forall a b, eval_fn_bare "strftime" [a; b] =
  ft_es "strftime" [a; b] (fun d f => let? g := convert_time_format f in Ok (c_func "date_format" [d; pylit_str g])).
Proof. reflexivity. Qed.
Lemma arg_lit : forall s r, arg_str (ELeaf (LConstant (KStr s)), r) = Ok s.
Proof. reflexivity. Qed.
Lemma strftime_col : forall e fmt y c g, to_spark_expr Disallow e = Ok y -> pe_unaliased y = PCol c -> convert_time_format fmt = Ok g ->
  to_spark_expr Disallow (ECall "strftime" [e; ELeaf (LConstant (KStr fmt))]) = Ok (PCol (ft_out "strftime" (c_func "date_format" [PCol c; pylit_str g]))).
Proof.
  intros e fmt y c g Ey Uc Eg. cbn [to_spark_expr map]. unfold eval_fn. rewrite strftime_call. unfold ft_es, arg_expr. cbn [snd]. rewrite Ey. cbn [rmap rbind].
  rewrite Uc. rewrite (arg_lit fmt). unfold rbind at 1. unfold rbind at 1. rewrite Eg. reflexivity.
Qed.
Section Strftime.
  Variable env : Env.
  Variable sp : Spark.
  Variable db : string -> option Table.
  Hypothesis Rt : env_rt env = Disallow.
  Hypothesis Sets : walks_sets env.
  Notation covered := (covered sp db).
  Notation gives := (gives env sp db).
  Definition formats_as (v : Val) (t : Time) : Prop :=
    forall pattern text, spark_format t pattern = Some text -> sp_fn sp "date_format" [AVal v; ALit (SStr pattern)] = SStr text.
  Lemma strftime_gives : forall p rows x e l (text : Row -> string), covered p rows -> plain_name_text x = true -> plain_expr true e = true ->
    Forall shown_alike l -> units_apart l -> percents_apart l -> plain_between dquote (format_text l) = true ->
    (forall r, In r rows -> exists v t, ev sp r e = Some v /\ formats_as v t /\ spl_format t l = Some (text r)) ->
    gives (p ++ [CEval [(x, ECall "strftime" [e; ELeaf (LConstant (KStr (format_text l)))])]])
      (OFrame None (map (fun r => set_cell x (SStr (text r)) r) rows)).
  Proof.
    intros p rows x e l text C Px Pe F U P Q H. destruct (convert_shown l F U P) as (g & Eg & Hg).
    assert (Pg : plain_between dquote g = true).
    { apply (conv_plain l g Q). rewrite <- (convert_items l); [ exact Eg | | exact P ].
      now apply shown_known. }
    destruct (expr_ok Disallow true (fun _ => eq_refl) e Pe) as (y & Ey & c & Uc & (Fc & Pc & Hc)).
    set (col := c_func "date_format" [PCol c; pylit_str g]).
    apply (command_obj env sp db Rt Sets p rows _ (fun s => DWithColumn (d_or_default s) x col)); [ exact C | | ].
    - intros s st. cbn [transform_command]. rewrite Rt. cbn [select_rt t_eval_go]. unfold eval_column.
      rewrite (strftime_col e (format_text l) y c g Ey Uc Eg). reflexivity.
    - intros cmds s D. eapply (with_column_sem sp db cmds [] [] true _ rows _ _ (fun sp' r => option_map (fun v => sp_fn sp' "date_format" [AVal v; ALit (SStr g)]) (ev sp' r e)));
        [ exact D | exact Px | | ].
      + split; [ exact I | split ].
        * cbn [col c_func plain_col forallb plain_pexpr pylit_str]. rewrite (quoted_plain _ Pg). cbn [plain_col]. rewrite Pc. reflexivity.
        * intros sp' row v E. destruct (ev sp' row e) as [w|] eqn:Ew; [ | discriminate E ]. cbn in E. injection E as <-.
          specialize (Hc sp' row w Ew). cbn [col c_func col_tree map pexpr_tree pylit_str]. rewrite (quoted_between _ Pg).
          change (contains "." "date_format") with false. cbv iota. change (PCall (PAttr (PName "F") "date_format") ?a []) with (py_F "date_format" a).
          rewrite (cv_fn sp' row "date_format" _ [AVal w; ALit (SStr g)]); [ reflexivity | reflexivity | ].
          repeat constructor. unfold arg_of. cbn [pexpr_tree]. rewrite Hc. cbn [option_map]. unfold py_arg. now rewrite flat_not_literal.
      + rewrite <- all_some_total. f_equal. apply map_ext_in. intros r Hr. destruct (H r Hr) as (v & t & Ev & Fm & St). rewrite Ev. cbn [option_map].
        destruct (Hg t) as (s' & Es & Eg'). rewrite St in Es. injection Es as <-. now rewrite (Fm _ _ Eg').
  Qed.
End Strftime.
