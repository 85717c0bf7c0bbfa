(** Facts: what the calls of the runtime library compute. *)
From Coq Require Import Lia.
From Verif Require Import Str SplAst PyAst Functions Transpile Render Commands PipeFacts SpecPy SpecCol SpecFrame
  FrameFacts ProgramFacts SpecSpark SpecRows SpecCommands RowFacts ValueFacts SearchFacts CommandFacts SpecCall CallFacts RunFacts SpecRuntime.
From Verif Require Runtime.
Import Runtime (PV(..), LibExpr(..), lv, lib, arg_tree, eval_call, trees, obind, swap, value_of, library, runs, lookup_in, expr_tree, to_expr, py_of,
  lib_function, is_command, as_expr, as_column, named_exprs, others, search_params, search_condition, with_columns,
  by_columns, column_name, stats_functions_of, stats_aggs, table_lookup).
Open Scope list_scope.
Open Scope string_scope.

(** ** Values of columns *)
(** A column, or (where a column is not needed) an Expr that stands for one *)
Definition stands (col : bool) (v : PV) (u : Py) : Prop := v = VObj u \/ col = false /\ v = VExpr (ERaw (VObj u)).
Definition lsem (col : bool) (c : ColumnLike) (f : Meaning) : Prop :=
  flat c /\ plain_col c = true /\ exists v u, lv (col_tree c) = Some v /\ stands col v u /\ lit_val u = None /\ not_name u /\
    forall sp row w, f sp row = Some w -> cv sp row u = Some w.
Lemma stands_arg : forall col v u, stands col v u -> arg_tree v = Some u.
Proof. intros col v u [-> | [_ ->]]; reflexivity. Qed.
Lemma lsem_weaken : forall col c f, lsem col c f -> lsem false c f.
Proof.
  intros col c f (F & P & v & u & L & S & N & M & H). split; [ exact F | split; [ exact P | ] ]. exists v, u. split; [ exact L | ].
  split; [ | auto ]. destruct S as [S | [_ S]]; [ now left | now right ].
Qed.
Lemma lsem_lib : forall c f, lsem true c f -> exists u, lib (col_tree c) = Some u /\ lit_val u = None /\ not_name u /\
  forall sp row w, f sp row = Some w -> cv sp row u = Some w.
Proof.
  intros c f (_ & _ & v & u & L & [-> | [X _]] & N & M & H); [ | discriminate X ]. exists u. split; [ | auto ].
  unfold lib. now rewrite L.
Qed.
Lemma lsem_ext : forall col c (f g : Meaning), lsem col c f -> (forall sp row v, g sp row = Some v -> f sp row = Some v) -> lsem col c g.
Proof. intros col c f g (F & P & v & u & L & S & N & M & H) G. split; [ exact F | split; [ exact P | ] ]. exists v, u. repeat split; auto. Qed.
(** A column without calls stands for itself *)
Lemma lsem_self : forall c f, sem_col c f -> lv (col_tree c) = Some (VObj (col_tree c)) -> lsem true c f.
Proof.
  intros c f (F & P & H) L. split; [ exact F | split; [ exact P | ] ]. exists (VObj (col_tree c)), (col_tree c).
  split; [ exact L | ]. split; [ now left | ]. split; [ now apply flat_not_literal | ]. split; [ apply col_not_name | exact H ].
Qed.
Lemma lib_code : forall code, lib (code_tree code) = Some (code_tree code).
Proof.
  intro code. unfold lib, code_tree. destruct code as [|c s]; [ reflexivity | ].
  destruct (py_quote c); [ reflexivity | ]. destruct (py_digit c); [ reflexivity | ]. destruct (Ascii.eqb c "-"); [ reflexivity | ].
  destruct (raw_start (String c s)); [ reflexivity | ]. cbn [lv obind]. unfold value_of. now destruct (lit_val (PName (String c s))).
Qed.
Lemma lv_bin : forall op a b u w, lib a = Some u -> lib b = Some w -> lv (PBin op a b) = Some (VObj (PBin op u w)).
Proof. intros op a b u w A B. cbn [lv]. unfold lib in A, B. now rewrite A, B. Qed.
Lemma lib_obj : forall t u, lv t = Some (VObj u) -> lib t = Some u.
Proof. intros t u H. unfold lib. now rewrite H. Qed.

Lemma lsem_bin : forall c d f g op, str_in op (["AND"; "OR"]%string ++ spl_comparisons ++ spl_arithmetic)%list = true ->
  lsem true c f -> lsem true d g ->
  lsem true (CBinaryOp (simple_op op) (PCol c) (PCol d))
      (fun sp row => match f sp row, g sp row with Some a, Some b => apply_op sp op a b | _, _ => None end).
Proof.
  intros c d f g op O C D. split; [ exact I | split ].
  - cbn [plain_col plain_pexpr]. now rewrite (op_plain op O), (proj1 (proj2 C)), (proj1 (proj2 D)).
  - destruct (lsem_lib _ _ C) as (u & L & N & M & H). destruct (lsem_lib _ _ D) as (w & L' & N' & M' & H').
    exists (VObj (PBin (simple_op op) u w)), (PBin (simple_op op) u w).
    split; [ cbn [col_tree pexpr_tree]; now apply lv_bin | ]. split; [ now left | split; [ reflexivity | split; [ exact I | ] ] ].
    intros sp row v E. destruct (f sp row) as [a|] eqn:E1; [ | discriminate ]. destruct (g sp row) as [b|] eqn:E2; [ | discriminate ].
    rewrite (cv_bin sp row _ _ _ a b); auto. now apply bin_apply.
Qed.
Lemma lsem_not : forall c f, lsem true c f ->
  lsem true (CUnaryNot (PCol c)) (fun sp row => match f sp row with Some v => negate v | None => None end).
Proof.
  intros c f C. split; [ exact I | split; [ exact (proj1 (proj2 C)) | ] ].
  destruct (lsem_lib _ _ C) as (u & L & N & M & H). exists (VObj (PUn "~" u)), (PUn "~" u).
  assert (Z : lit_val (PUn "~" u) = None) by (destruct u; reflexivity).
  split.
  - cbn [col_tree pexpr_tree lv]. unfold lib in L. rewrite L. cbn [option_map]. unfold value_of. now rewrite Z.
  - split; [ now left | split; [ exact Z | split; [ exact I | ] ] ].
    intros sp row v E. destruct (f sp row) as [a|] eqn:Ea; [ | discriminate ]. rewrite (cv_not sp row _ a); auto.
Qed.
Lemma lv_F : forall f args us, all_some (map lib args) = Some us -> lv (py_F f args) = Some (VObj (py_F f us)).
Proof.
  intros f args us H. unfold py_F. cbn [lv lib_function]. change (is_command (PAttr (PName "F") f)) with false. cbv iota.
  cbn [value_of lit_val option_map obind py_of].
  change (fun u => obind (lv u) py_of) with lib. rewrite H. reflexivity.
Qed.
Lemma lv_F1 : forall f t, lib t = Some t -> lv (py_F f [t]) = Some (VObj (py_F f [t])).
Proof. intros f t H. apply lv_F. cbn [map all_some]. now rewrite H. Qed.
Lemma lsem_name : forall n, plain_name_text n = true -> lsem true (CNamed n) (fun _ row => Some (cell n row)).
Proof. intros n P. apply lsem_self; [ split; [ exact I | split; [ exact P | intros sp row v E; exact E ]] | reflexivity ]. Qed.
Lemma lsem_lit : forall code v, plain_code code = true -> lit_val (code_tree code) = Some v -> lsem true (CLiteral code) (fun _ _ => Some v).
Proof.
  intros code v P L. apply lsem_self; [ now apply sem_col_lit | ]. cbn [col_tree]. apply lv_F1, lib_code.
Qed.
Lemma lsem_like : forall n p, plain_name_text n = true -> plain_pattern p = true ->
  lsem true (c_method (pcol n) "like" [pylit_str (wildcard_to_like p)]) (fun _ row => Some (wild_val (cell n row) p)).
Proof.
  intros n p Pn Pp. apply lsem_self; [ now apply sem_like | ].
  cbn [c_method col_tree pexpr_tree pe_unaliased pe_unaliased_with_name cl_unaliased_with_name pcol fst map pylit_str].
  rewrite quoted_between by now apply between_smap, pattern_chars. reflexivity.
Qed.
(** Membership *)
Lemma self_lib : forall c, lv (col_tree c) = Some (VObj (col_tree c)) -> lib (col_tree c) = Some (col_tree c).
Proof. intros c. apply lib_obj. Qed.
Lemma in_item_self : forall f k c, field_in_check f k = Ok c -> lv (col_tree c) = Some (VObj (col_tree c)).
Proof.
  intros f k c H. unfold field_in_check in H. destruct k as [l|?|?|?|?|?|?|?|?|?]; try discriminate H. destruct l as [k|?|?|?]; try discriminate H.
  destruct k; try discriminate H; injection H as <-.
  all: try (cbn [c_binary col_tree pexpr_tree pe_unaliased pe_unaliased_with_name cl_unaliased_with_name pcol fst];
            apply lv_bin; [ reflexivity | apply lib_code ]).
  cbn [c_method col_tree pexpr_tree pe_unaliased pe_unaliased_with_name cl_unaliased_with_name pcol fst map pylit_str].
  destruct (quoted_some (wildcard_to_like s)) as [v ->]. reflexivity.
Qed.
Lemma in_fold_self : forall f l cs acc, rtraverse (field_in_check f) l = Ok cs -> lv (col_tree acc) = Some (VObj (col_tree acc)) ->
  let c := fold_left (fun acc x => CBinaryOp "|" (PCol acc) (PCol x)) cs acc in lv (col_tree c) = Some (VObj (col_tree c)).
Proof.
  intros f l. induction l as [|k l IH]; intros cs acc H A.
  - injection H as <-. exact A.
  - rewrite rtraverse_cons in H. apply rbind_inv in H. destruct H as (c & E & H). apply rbind_inv in H. destruct H as (cs' & E' & H).
    injection H as <-. cbn [fold_left]. apply IH; [ exact E' | ]. cbn [col_tree pexpr_tree]. apply lv_bin; apply self_lib; [ exact A | ].
    now apply in_item_self in E.
Qed.
Lemma lsem_in : forall f l, plain_name_text f = true -> l <> [] -> forallb plain_in_value l = true ->
  exists c, field_in_to_spark f l = Ok (PCol c) /\ lsem true c (in_meaning f l).
Proof.
  intros f l Pf N Pl. destruct (sem_in f l Pf N Pl) as (x & E & c & U & S). destruct (in_fixed f l x N E) as (c' & -> & [Fc _]).
  rewrite (flat_pe c' Fc) in U. injection U as <-. exists c'. split; [ exact E | ]. apply lsem_self; [ exact S | ].
  destruct l as [|k l]; [ congruence | ]. unfold field_in_to_spark in E. rewrite rtraverse_cons in E.
  destruct (field_in_check f k) as [c| | ] eqn:Ec; try discriminate E. cbn [rbind] in E.
  destruct (rtraverse (field_in_check f) l) as [ds| | ] eqn:Es; try discriminate E. cbn [rbind join_as_binaries] in E.
  injection E as <-. eapply in_fold_self; [ exact Es | ]. now apply in_item_self in Ec.
Qed.

(** ** Calls of functions.eval *)
Definition eval_path (n : string) : Prop :=
  let f := ("functions.eval." ++ runtime_eval_name n)%string in
  String.eqb n "cidrmatch" = false /\ contains "." f = true /\
  py_path f = PAttr (PAttr (PName "functions") "eval") (runtime_eval_name n) /\
  match split_on "." f with x :: l => py_ident x && forallb py_ident l | [] => false end = true.
(** The library's function n of one column is PySpark's function g *)
Definition lib_entry1 (n g : string) : Prop :=
  eval_path n /\ fn_name g = true /\ str_in n broken_functions = false /\
  (lookup_in (runtime_eval_name n) Runtime.lib_unary = Some g /\ str_in n column_functions = false \/
   lookup_in (runtime_eval_name n) Runtime.lib_unary = None /\ lookup_in (runtime_eval_name n) Runtime.lib_unary_plain = Some g).
Definition lib_entry2 (n g : string) : Prop :=
  str_in n broken_functions = true \/
  eval_path n /\ fn_name g = true /\ str_in n column_functions = false /\ lookup_in (runtime_eval_name n) Runtime.lib_unary = None /\
  lookup_in (runtime_eval_name n) Runtime.lib_unary_plain = None /\ lookup_in (runtime_eval_name n) Runtime.lib_binary = Some g.
Lemma lib_entries1 : forall n g, lookup_name n value_functions = Some g -> lib_entry1 n g.
Proof. apply entries. repeat (apply Forall_cons; [ vm_compute; repeat split; auto; fail | ]). apply Forall_nil. Qed.
Lemma lib_entries2 : forall n g, lookup_name n two_value_functions = Some g -> lib_entry2 n g.
Proof. apply entries. repeat (apply Forall_cons; [ vm_compute; first [ left; reflexivity | right; repeat split; auto; fail ] | ]). apply Forall_nil. Qed.

(** What the arguments of a call are, given what they mean *)
Definition arg_sem (v : PV) (u : Py) (f : Meaning) : Prop :=
  arg_tree v = Some u /\ lit_val u = None /\ not_name u /\ forall sp row w, f sp row = Some w -> cv sp row u = Some w.
Inductive args_sem : list PV -> list Py -> list Expr -> Prop :=
| args_nil : args_sem [] [] []
| args_cons : forall v u e vs us es, arg_sem v u (ev_of e) -> args_sem vs us es -> args_sem (v :: vs) (u :: us) (e :: es).
Lemma args_trees : forall vs us es, args_sem vs us es -> trees vs = Some us.
Proof. unfold trees. induction 1 as [|v u e vs us es (A & _) _ IH]; [ reflexivity | ]. cbn [map all_some]. now rewrite A, IH. Qed.
Lemma args_given : forall sp row vs us es ws, args_sem vs us es -> all_some (map (ev sp row) es) = Some ws ->
  Forall2 (fun u w => lit_val u = None /\ not_name u /\ cv sp row u = Some w) us ws.
Proof.
  intros sp row vs us es ws H. revert ws. induction H as [|v u e vs us es (A & N & M & H) _ IH]; intros ws E.
  - injection E as <-. constructor.
  - cbn [map all_some] in E. destruct (ev sp row e) as [w|] eqn:Ew; [ | discriminate ].
    destruct (all_some (map (ev sp row) es)) as [ws'|]; [ | discriminate ]. injection E as <-. constructor; [ | now apply IH ].
    repeat split; auto.
Qed.
Lemma given_args : forall sp row us ws, Forall2 (fun u w => lit_val u = None /\ not_name u /\ cv sp row u = Some w) us ws ->
  Forall2 (arg_of sp row) us (map AVal ws).
Proof.
  induction 1 as [|u w us ws (N & _ & H) _ IH]; cbn [map]; constructor; [ | exact IH ].
  unfold arg_of. rewrite H. cbn [option_map]. unfold py_arg. now rewrite N.
Qed.
Lemma fn_name_not : forall g, fn_name g = true -> str_in g ["col"; "lit"; "expr"; "when"]%string = false.
Proof. intros g N. unfold fn_name in N. apply andb_true_iff in N. destruct N as [N _]. apply andb_true_iff in N. now apply negb_true_iff. Qed.

Definition lib_translated (col : bool) (e : Expr) : Prop := exists c, to_spark_expr Allow e = Ok (PCol c) /\ lsem col c (ev_of e).
Lemma lib_args : forall args, Forall (lib_translated false) args ->
  exists cs, map_args (map (fun a => (a, to_spark_expr Allow a)) args) = Ok (map PCol cs) /\ forallb plain_pexpr (map PCol cs) = true /\
    exists vs us, all_some (map lv (map pexpr_tree (map PCol cs))) = Some vs /\ args_sem vs us args.
Proof.
  intros args H. unfold map_args. induction H as [|e l (c & E & F & P & v & u & L & S & N & M & V) _ (cs & E2 & P2 & vs & us & L2 & A)].
  - exists []. split; [ reflexivity | split; [ reflexivity | ] ]. exists [], []. split; [ reflexivity | constructor ].
  - exists (c :: cs). split; [ | split ].
    + cbn [map]. rewrite rtraverse_cons. unfold arg_expr at 1. cbn [snd]. rewrite E. cbn [rmap rbind].
      rewrite (flat_pe c F). match goal with |- rbind ?r _ = _ => replace r with (Ok (map PCol cs)) by (symmetry; exact E2) end. reflexivity.
    + cbn [map forallb plain_pexpr]. now rewrite P.
    + exists (v :: vs), (u :: us). split.
      * cbn [map pexpr_tree all_some]. rewrite L, L2. reflexivity.
      * constructor; [ | exact A ]. split; [ | auto ]. now apply stands_arg in S.
Qed.
Lemma lib_call_sem : forall col n args, eval_path n -> Forall (lib_translated false) args ->
  (forall vs us, args_sem vs us args -> exists v u, eval_call (runtime_eval_name n) vs = Some v /\ stands col v u /\
     lit_val u = None /\ not_name u /\
     forall sp row w, ev sp row (ECall n args) = Some w -> cv sp row u = Some w) ->
  lib_translated col (ECall n args).
Proof.
  intros col n args (NC & D & PP & PI) F H. destruct (lib_args args F) as (cs & M & P & vs & us & L & A).
  destruct (H vs us A) as (v & u & E & S & N & K & V).
  unfold lib_translated. cbn [to_spark_expr eval_fn]. unfold eval_fn_runtime. rewrite NC, M. cbn [rbind rmap ror_else].
  eexists. split; [ reflexivity | ]. split; [ exact I | split ].
  - cbn [plain_col]. rewrite D, P. rewrite andb_true_r. exact PI.
  - exists v, u. split; [ | repeat split; auto ]. cbn [col_tree]. rewrite D, PP. cbn [lv lib_function].
    change (String.eqb "functions" "functions") with true. cbv iota. rewrite L. exact E.
Qed.
Lemma stands_expr : forall u, stands false (VExpr (ERaw (VObj u))) u. Proof. intro u. right. now split. Qed.
Lemma stands_col : forall col u, stands col (VObj u) u. Proof. intros col u. now left. Qed.

Lemma lib_call_ok : forall (col : bool) n args, arity_ok n (length args) = true ->
  (if col then str_in n column_functions else negb (str_in n broken_functions)) = true ->
  Forall (lib_translated false) args -> lib_translated col (ECall n args).
Proof.
  intros col n args A B F. pose proof (not_relative n args (or_introl A)) as NR. unfold arity_ok in A.
  destruct (String.eqb n "if") eqn:N1.
  { apply String.eqb_eq in N1. subst n. destruct col; [ discriminate B | ]. destruct args as [|a [|b [|c [|]]]]; try discriminate A.
    apply lib_call_sem; [ now vm_compute | exact F | ]. intros vs us X. pose proof (args_trees _ _ _ X) as T.
    inversion X as [|v1 u1 ? ? us1 ? A1 X1]; subst. inversion X1 as [|v2 u2 ? ? us2 ? A2 X2]; subst.
    inversion X2 as [|v3 u3 ? ? us3 ? A3 X3]; subst. inversion X3; subst.
    change (runtime_eval_name "if") with "if_". unfold eval_call. cbn [lookup_in Runtime.lib_unary Runtime.lib_unary_plain Runtime.lib_binary Runtime.lib_constants].
    repeat (match goal with |- context [String.eqb ?x ?y] => let b := eval vm_compute in (String.eqb x y) in change (String.eqb x y) with b end; cbv iota).
    rewrite T. eexists _, _. split; [ reflexivity | split; [ apply stands_expr | split; [ reflexivity | split; [ exact I | ] ] ] ].
    intros sp row w E. rewrite ev_call in E by exact NR. cbn [map all_some] in E.
    destruct (ev sp row a) as [x|] eqn:Ea; [ | discriminate ]. destruct (ev sp row b) as [y|] eqn:Eb; [ | discriminate ].
    destruct (ev sp row c) as [z|] eqn:Ec; [ | discriminate ]. cbn [option_map] in E.
    unfold apply_fn in E. change (String.eqb "if" "if") with true in E. cbv beta iota in E.
    destruct (truth x) as [t|] eqn:Tx; [ | discriminate ]. injection E as <-.
    destruct A1 as (_ & _ & _ & A1), A2 as (_ & _ & _ & A2), A3 as (_ & _ & _ & A3).
    pose proof (cvx_when sp row _ _ x y t (A1 sp row x Ea) (A2 sp row y Eb) Tx) as W.
    destruct (branch_of x y) as [w ch] eqn:Bx.
    rewrite (cv_otherwise sp row _ _ w ch z); [ | exact I | exact W | | now apply A3 ].
    - unfold branch_of in Bx. destruct (is_true x); injection Bx as <- <-; reflexivity.
    - unfold branch_of in Bx. destruct (is_true x); injection Bx as <- <-; discriminate. }
  destruct (str_in n ["case"; "validate"]) eqn:N2.
  { exfalso. cbn [str_in existsb] in N2. repeat (apply orb_true_iff in N2; destruct N2 as [N2|N2]); try discriminate N2;
      apply String.eqb_eq in N2; subst n; destruct col; discriminate B. }
  destruct (String.eqb n "coalesce") eqn:N3.
  { apply String.eqb_eq in N3. subst n. destruct col; [ discriminate B | ].
    apply lib_call_sem; [ now vm_compute | exact F | ]. intros vs us X. pose proof (args_trees _ _ _ X) as T.
    change (runtime_eval_name "coalesce") with "coalesce". unfold eval_call. cbn [lookup_in Runtime.lib_unary Runtime.lib_unary_plain Runtime.lib_binary Runtime.lib_constants].
    repeat (match goal with |- context [String.eqb ?x ?y] => let b := eval vm_compute in (String.eqb x y) in change (String.eqb x y) with b end; cbv iota).
    rewrite T. eexists _, _. split; [ reflexivity | split; [ apply stands_expr | split; [ reflexivity | split; [ exact I | ] ] ] ].
    intros sp row w E. rewrite ev_call in E by exact NR. destruct (all_some (map (ev sp row) args)) as [ws|] eqn:Ew; [ | discriminate ].
    rewrite (cv_fn sp row "coalesce" us (map AVal ws)), named_vals; [ | reflexivity | apply given_args; eapply args_given; eassumption ].
    unfold fn_val. change (String.eqb "coalesce" "coalesce") with true. cbv beta iota. rewrite find_first. exact E. }
  destruct (str_in n ["true"; "false"; "null"]) eqn:N4.
  { apply Nat.eqb_eq in A. destruct args; [ | discriminate A ].
    cbn [str_in existsb] in N4. repeat (apply orb_true_iff in N4; destruct N4 as [N4|N4]); try discriminate N4;
      apply String.eqb_eq in N4; subst n; (destruct col; [ discriminate B | ]);
      (apply lib_call_sem; [ now vm_compute | exact F | ]); intros vs us X; inversion X; subst;
      eexists _, _; (split; [ reflexivity | split; [ apply stands_expr | split; [ reflexivity | split; [ exact I | ] ] ] ]);
      intros sp row w E; exact E. }
  assert (AF : forall sp l, apply_fn sp n l =
     match lookup_name n value_functions, l with
         | Some g, [a] => fn_val sp g [AVal a]
         | _, _ =>
             match lookup_name n two_value_functions, l with
             | Some g, [a; b] => fn_val sp g [AVal a; AVal b]
             | _, _ => more_fn sp n l
             end
         end).
  { intros sp l. unfold apply_fn. cbn [str_in existsb] in N2, N4.
    apply orb_false_iff in N2. destruct N2 as [N2a N2b]. apply orb_false_iff in N2b. destruct N2b as [N2b _].
    apply orb_false_iff in N4. destruct N4 as [N4a N4b]. apply orb_false_iff in N4b. destruct N4b as [N4b N4c].
    apply orb_false_iff in N4c. destruct N4c as [N4c _]. now rewrite N1, N2a, N2b, N3, N4a, N4b, N4c. }
  destruct (lookup_name n value_functions) as [g|] eqn:E1.
  - destruct (lib_entries1 n g E1) as (EP & FN & BR & LU). apply Nat.eqb_eq in A. destruct args as [|a [|]]; try discriminate A.
    apply lib_call_sem; [ exact EP | exact F | ]. intros vs us X. pose proof (args_trees _ _ _ X) as T.
    pose proof (fun sp row ws => args_given sp row _ _ _ ws X) as G.
    inversion X as [|v1 u1 ? ? us1 ? A1 X1]; subst. inversion X1; subst. clear X X1.
    assert (K : forall sp row w, ev sp row (ECall n [a]) = Some w -> cv sp row (py_F g [u1]) = Some w).
    { intros sp row w E. rewrite ev_call in E by exact NR. destruct (all_some (map (ev sp row) [a])) as [ws|] eqn:Ew; [ | discriminate ].
      rewrite (cv_fn sp row g [u1] (map AVal ws)), named_vals; [ | now apply fn_name_not | now apply given_args, G ].
      rewrite AF in E. cbn [map all_some] in Ew. destruct (ev sp row a); [ | discriminate ]. injection Ew as <-. exact E. }
    unfold eval_call. destruct LU as [[-> C]|[-> ->]].
    + destruct col; [ rewrite C in B; discriminate B | ]. rewrite T. exists (VExpr (ERaw (VObj (py_F g [u1])))), (py_F g [u1]).
      repeat split; [ apply stands_expr | exact K ].
    + rewrite T. exists (VObj (py_F g [u1])), (py_F g [u1]). repeat split; [ apply stands_col | exact K ].
  - destruct (lookup_name n two_value_functions) as [g|] eqn:E2; [ | discriminate A ].
    destruct (lib_entries2 n g E2) as [BR|(EP & FN & C & L1 & L2 & L3)].
    { exfalso. destruct col; [ | rewrite BR in B; discriminate B ].
      cbn [str_in existsb broken_functions] in BR. repeat (apply orb_true_iff in BR; destruct BR as [BR|BR]); try discriminate BR;
        apply String.eqb_eq in BR; subst n; discriminate B. }
    apply Nat.eqb_eq in A. destruct args as [|a [|b [|]]]; try discriminate A.
    destruct col; [ rewrite C in B; discriminate B | ].
    apply lib_call_sem; [ exact EP | exact F | ]. intros vs us X. pose proof (args_trees _ _ _ X) as T.
    pose proof (fun sp row ws => args_given sp row _ _ _ ws X) as G.
    inversion X as [|v1 u1 ? ? us1 ? A1 X1]; subst. inversion X1 as [|v2 u2 ? ? us2 ? A2 X2]; subst. inversion X2; subst. clear X X1 X2.
    unfold eval_call. rewrite L1, L2, L3, T. exists (VExpr (ERaw (VObj (py_F g [u1; u2])))), (py_F g [u1; u2]).
    repeat split; [ apply stands_expr | ].
    intros sp row w E. rewrite ev_call in E by exact NR. destruct (all_some (map (ev sp row) [a; b])) as [ws|] eqn:Ew; [ | discriminate ].
    rewrite (cv_fn sp row g [u1; u2] (map AVal ws)), named_vals; [ | now apply fn_name_not | now apply given_args, G ].
    rewrite AF in E. cbn [map all_some] in Ew. destruct (ev sp row a); [ | discriminate ]. destruct (ev sp row b); [ | discriminate ].
    injection Ew as <-. exact E.
Qed.

Lemma lsem_stands : forall col c f, lsem true c f -> lsem col c f.
Proof. intros [] c f H; [ exact H | now apply lsem_weaken in H ]. Qed.
Lemma lib_expr_ok : forall e, plain_expr true e = true -> forall col, lib_value col e = true -> lib_translated col e.
Proof.
  intro e. induction e as [l o r IHl IHr|o r IH|n args F|e n IH|e He] using expr_induct; intros P col B.
  - cbn [lib_value] in B. apply andb_true_iff in B. destruct B as [Bl Br].
    assert (C : (exists p, r = ELeaf (LConstant (KWildcard p))) \/
        (forall p, r <> ELeaf (LConstant (KWildcard p)))).
    { destruct r as [[[]|?|?|?]|?|?|?|?|?|?|?|?|?]; try (right; intros q; discriminate). left. eauto. }
    destruct C as [[p ->]|C].
    + cbn [plain_expr] in P. destruct l as [[[]|?|?|?]|?|?|?|?|?|?|?|?|?]; try discriminate P.
      apply andb_true_iff in P. destruct P as [P O]. apply andb_true_iff in P. destruct P as [Pn Pp].
      pose proof (lsem_like s p Pn Pp) as SL.
      unfold lib_translated. cbn [str_in existsb] in O.
      repeat (apply orb_true_iff in O; destruct O as [O|O]); try discriminate O; apply String.eqb_eq in O; subst o.
      * eexists. split; [ reflexivity | ]. apply lsem_stands. eapply lsem_ext; [ exact SL | ]. intros sp row v E. exact E.
      * eexists. split; [ reflexivity | ]. apply lsem_stands. eapply lsem_ext; [ exact SL | ]. intros sp row v E. exact E.
      * eexists. split; [ reflexivity | ]. apply lsem_stands. eapply lsem_ext; [ apply lsem_not; exact SL | ]. intros sp row v E. exact E.
    + assert (P' : plain_expr true l && plain_expr true r && str_in o (["AND"; "OR"]%string ++ spl_comparisons ++ spl_arithmetic)%list = true).
      { cbn [plain_expr] in P. destruct r as [[[]|?|?|?]|?|?|?|?|?|?|?|?|?]; try exact P. exfalso. eapply C. reflexivity. }
      apply andb_true_iff in P'. destruct P' as [P' O]. apply andb_true_iff in P'. destruct P' as [Pl Pr].
      destruct (IHl Pl true Bl) as (x & Ex & Sx). destruct (IHr Pr true Br) as (y & Ey & Sy).
      exists (CBinaryOp (simple_op o) (PCol x) (PCol y)). split.
      * cbn [to_spark_expr]. rewrite (cidr_none true) by (now left).
        rewrite Ex, Ey. cbn [rbind]. unfold pbin, c_binary. rewrite (flat_pe x (proj1 Sx)), (flat_pe y (proj1 Sy)).
        destruct r as [[[]|?|?|?]|?|?|?|?|?|?|?|?|?]; try reflexivity. exfalso. eapply C. reflexivity.
      * apply lsem_stands. eapply lsem_ext; [ apply (lsem_bin x y _ _ o O Sx Sy) | ]. intros sp row v E. unfold ev_of in *. cbn [ev] in E.
        destruct r as [[[]|?|?|?]|?|?|?|?|?|?|?|?|?]; try exact E. exfalso. eapply C. reflexivity.
  - cbn [plain_expr] in P. apply andb_true_iff in P. destruct P as [O P]. apply String.eqb_eq in O. subst o.
    cbn [lib_value] in B. destruct (IH P true B) as (x & Ex & Sx). exists (CUnaryNot (PCol x)). split.
    + cbn [to_spark_expr]. rewrite Ex. cbn [rbind rmap]. unfold pnot, c_not. now rewrite (flat_pe x (proj1 Sx)).
    + apply lsem_stands. eapply lsem_ext; [ apply lsem_not, Sx | ]. intros sp row v E. exact E.
  - cbn [plain_expr andb] in P. apply orb_true_iff in P. destruct P as [P|P].
    2: { destruct (snap_args _ _ _ P) as (a & s & -> & -> & _). cbn [lib_value] in B. destruct col; discriminate B. }
    apply andb_true_iff in P. destruct P as [P Pa]. cbn [lib_value] in B. apply andb_true_iff in B. destruct B as [B Ba].
    apply lib_call_ok; [ | exact B | ].
    { apply orb_true_iff in P. destruct P as [P|P]; [ exact P | ]. exfalso. apply further_in in P.
      destruct col; [ | apply negb_true_iff in B; unfold broken_functions in B; rewrite str_in_app in B; apply orb_false_iff in B; destruct B as [_ B]; rewrite P in B; discriminate B ].
      cbn [str_in existsb column_functions] in B. name_cases B; discriminate P. }
    rewrite forallb_forall in Pa, Ba. rewrite Forall_forall in F |- *.
    intros a Ha. apply F; auto.
  - discriminate P.
  - destruct e as [l|?|?|?|?|f l|?|?|?|?]; try contradiction; try discriminate P.
    + cbn [plain_expr] in P. unfold lib_translated. destruct l as [k|?|?|?]; try discriminate P.
      destruct k as [ |b|z|t|s|?|?|s|s|?|s]; try discriminate P; cbn [to_spark_expr leaf_to_spark].
      * eexists. split; [ reflexivity | ]. apply lsem_stands. eapply lsem_ext; [ apply (lsem_lit (dec z) (SInt z)); [ apply dec_plain | apply lit_dec ] | ].
        intros sp row v E. exact E.
      * destruct (number_code t P) as (P1 & w & L & N).
        eexists. split; [ reflexivity | ]. apply lsem_stands. eapply lsem_ext; [ apply (lsem_lit t w); assumption | ].
        intros sp row v E. unfold ev_of in E. cbn [ev const_val] in E. now rewrite L in E.
      * eexists. split; [ reflexivity | ]. apply lsem_stands. eapply lsem_ext; [ apply (lsem_lit _ (SStr s)); [ now apply squoted_stands | now rewrite squoted_tree ] | ].
        intros sp row v E. exact E.
      * eexists. split; [ reflexivity | ]. apply lsem_stands. eapply lsem_ext; [ apply (lsem_name s P) | ]. intros sp row v E. exact E.
    + cbn [plain_expr] in P. apply andb_true_iff in P. destruct P as [Pf Pl]. destruct l as [|k l]; [ discriminate | ].
      destruct (lsem_in f (k :: l) Pf) as (x & E & Sx); [ discriminate | exact Pl | ].
      exists x. split; [ exact E | ]. apply lsem_stands. exact Sx.
Qed.
