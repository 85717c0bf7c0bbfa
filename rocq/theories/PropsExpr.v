(** Properties of parse() on expressions: statements only; proofs are in ExprFacts.v,
    LogicFacts.v and EvalFacts.v, the specification of written expressions in SpecExpr.v. *)
From Verif Require Import Str SplAst Nom Lexer Parser CmdParser.
From Verif Require Import SpecText SpecExpr SpecWhere NameFacts ExprFacts LogicFacts EvalFacts WhereFacts.
Open Scope string_scope.

(** ** C07: a written expression is read as the tree it displays.  Every assignment of
    an eval command, of any depth and with any placement of additional parentheses and
    blanks, denotes exactly its tree. *)
Theorem C07_eval_reads_what_is_written : forall assignments : list (string * (Tree * string)),
  assignments <> [] ->
  Forall (fun a => field_name (fst a) /\ wf (fst (snd a)) /\ writes 9 (fst (snd a)) (snd (snd a))) assignments ->
  parse ("eval " ++ commas (map (fun a => fst a ++ "=" ++ snd (snd a)) assignments))
  = Some (Ok [CEval (map (fun a => (fst a, meaning (fst (snd a)))) assignments)]).
Proof. exact parse_eval. Qed.
Print Assumptions C07_eval_reads_what_is_written.
(** The same for the search command *)
Theorem C07_search_reads_what_is_written : forall tree text,
  wf tree -> writes 9 tree text -> parse ("search " ++ text) = Some (Ok [CSearch (meaning tree)]).
Proof. exact parse_search1. Qed.
Print Assumptions C07_search_reads_what_is_written.
(** Every tree can be written: parentheses around all compound operands will do. *)
Theorem C07_every_tree_can_be_written : forall tree, writes 9 tree (show tree).
Proof. exact (fun t => proj1 (show_writes t)). Qed.
Print Assumptions C07_every_tree_can_be_written.

Example C07_applies :
  let t := TBin OMul (TBin OAdd (TField "alert{}.cvss-score") (TInt (-2))) (TCall "len" [TBin OConcat (TField "b") (TStr "c d")]) in
  wf t /\ show t = "(alert{}.cvss-score + -2) * len(b . " ++ in_quotes "c d" ++ ")" /\
  parse ("eval x=" ++ show t) = Some (Ok [CEval [("x", meaning t)]]).
Proof.
  cbn zeta. split; [ | split; vm_compute; reflexivity ].
  cbn [wf]; repeat match goal with |- _ /\ _ => split end; try exact I; try (now apply field_by); try (now apply ident_by);
    try (now apply plain_string_by); try (now apply same_word_by);
    try (unfold int64_nonmin; vm_compute; split; congruence).
Qed.

(** ** C08: chains of operators of one level. *)
(** What the code does: a chain t op1 u1 op2 u2 ... of any length is grouped from the
    right. *)
Theorem C08_chains_group_from_the_right : forall name t l level,
  field_name name -> wf t -> Forall (fun ou => wf (snd ou)) l ->
  3 <= level <= 9 -> Forall (fun ou => binds (fst ou) = level) l ->
  parse ("eval " ++ name ++ "=" ++ show_chain t l) = Some (Ok [CEval [(name, meaning (from_right t l))]]).
Proof. exact parse_chain. Qed.
Print Assumptions C08_chains_group_from_the_right.
Example C08_applies :
  let t := TInt 10 in let l := [(OSub, TInt 3); (OAdd, TField "n"); (OSub, TInt 2)] in
  wf t /\ Forall (fun ou => wf (snd ou)) l /\ Forall (fun ou => binds (fst ou) = 4) l
  /\ show_chain t l = "10 - 3 + n - 2".
Proof.
  cbn zeta. split; [ unfold int64_nonmin; vm_compute; split; congruence | ]. split; [ | split; [ | reflexivity ] ].
  - repeat (apply Forall_cons || apply Forall_nil); cbn [wf snd]; try (now apply field_by); try (now apply ident_by);
      try (unfold int64_nonmin; vm_compute; split; congruence).
  - repeat (apply Forall_cons || apply Forall_nil); reflexivity.
Qed.
(** So the property fails: there is a chain of subtractions whose value, computed from
    the tree that parse() yields, is not the value of the chain grouped from the left. *)
Theorem C08_subtraction_groups_to_the_left_refuted :
  exists t l e v v', Forall (fun ou => fst ou = OSub) l /\
    parse ("eval x=" ++ show_chain t l) = Some (Ok [CEval [("x", e)]]) /\
    arith e = Some v /\ arith (meaning (from_left t l)) = Some v' /\ v <> v'.
Proof.
  exists (TInt 10), [(OSub, TInt 3); (OSub, TInt 2)]. eexists. exists 9%Z, 5%Z.
  split; [ repeat constructor | ]. split; [ vm_compute; reflexivity | ].
  split; [ reflexivity | ]. split; [ reflexivity | discriminate ].
Qed.
Print Assumptions C08_subtraction_groups_to_the_left_refuted.

(** ** C09: AND and OR. *)
(** In where, AND binds tighter than OR, NOT tighter than both: conditions of any size
    and nesting are read as written, in any layout and letter case. *)
Theorem C09_where_and_binds_tighter : forall (c : Cond) s,
  cond_wf c -> cond_spells c s -> parse ("where " ++ s) = Some (Ok [CWhere (cond_meaning c)]).
Proof. exact parse_where. Qed.
Print Assumptions C09_where_and_binds_tighter.
(** Every condition can be written: with single blanks, AND and OR. *)
Theorem C09_every_condition_can_be_written : forall c : Cond, cond_wf c -> cond_spells c (cond_text c).
Proof. exact cond_written. Qed.
Print Assumptions C09_every_condition_can_be_written.
Example C09_applies :
  let c := [[TmCmp "a" CEq (VInt 1); TmNot (TmCmp "b" CGe (VInt 2))];
            [TmParen [[TmCmp "c" CEq (VStr "x y")]; [TmCmp "d" CNe (VInt (-4))]]; TmCmp "e" CEq (VWord "web-1.local")];
            [TmCall "isnull" [TField "g"]; TmCmpCall "h" CLt "len" [TBin OAdd (TField "k") (TInt 1)]]] in
  cond_wf c /\
  cond_text c = "a = 1 AND NOT b >= 2 OR (c = " ++ in_quotes "x y" ++ " OR d != -4) AND e = web-1.local OR isnull(g) AND h < len(k + 1)".
Proof.
  cbn zeta. split; [ | vm_compute; reflexivity ].
  unfold cond_wf; cbn [term_wf value_wf]; repeat match goal with |- _ /\ _ => split end; try exact I; try discriminate;
    try (now apply field_by); try (now apply ident_by); try (now apply plain_string_by); try (now apply no_not_by);
    try (unfold int64_nonmin; vm_compute; split; congruence).
  1: intros (k & Hk & Hs); apply same_word_lower in Hs; repeat (destruct Hk as [<-|Hk]; [ discriminate | ]); destruct Hk.
  all: cbn [wf]; repeat match goal with |- _ /\ _ => split end; try exact I; try (now apply field_by); try (now apply ident_by);
    try (unfold int64_nonmin; vm_compute; split; congruence); intro H; apply same_word_lower in H; discriminate.
Qed.
(** A condition written without care *)
Example C09_spelled :
  let c := [[TmCmp "a" CEq (VInt 1); TmNot (TmParen [[TmCmp "b" CGe (VInt 2)]])];
            [TmParen [[TmIn "c" [VStr "x y"; VInt 3]]; [TmCmp "d" CNe (VInt (-4))]]; TmCmp "e" CLt (VInt 5)]] in
  cond_wf c /\ cond_spells c ("a=1 and not(b >=2 )Or ( c in( " ++ in_quotes "x y" ++ " 3 )   or d!=-4) e<5").
Proof.
  cbn zeta. split.
  - unfold cond_wf; cbn [term_wf]; repeat match goal with |- _ /\ _ => split end; try exact I; try discriminate;
      try (now apply field_by); try (now apply ident_by); try (now apply no_not_by); repeat (apply Forall_cons || apply Forall_nil);
      repeat match goal with |- _ /\ _ => split end; try (now apply plain_string_by); try (intro X; exact X);
      try (cbn [value_wf]; unfold int64_nonmin; vm_compute; split; congruence).
  - change ("a=1 and not(b >=2 )Or ( c in( " ++ in_quotes "x y" ++ " 3 )   or d!=-4) e<5") with
      (((("a" ++ "" ++ "=" ++ "" ++ "1") ++ (" " ++ "and" ++ " ") ++ ("not" ++ "" ++ ("(" ++ "" ++ ("b" ++ " " ++ ">=" ++ "" ++ "2") ++ " " ++ ")")))
        ++ ("" ++ "Or" ++ " ") ++
        (("(" ++ " " ++ (("c" ++ " " ++ "in" ++ "" ++ "(" ++ " " ++ (in_quotes "x y" ++ " " ++ "3") ++ " " ++ ")") ++ ("   " ++ "or" ++ " ") ++
             ("d" ++ "" ++ "!=" ++ "" ++ "-4")) ++ "" ++ ")") ++ " " ++ ("e" ++ "" ++ "<" ++ "" ++ "5")))).
    assert (B : forall n, blanks (String.concat "" (repeat " " (S n)))).
    { intro n. split; [ destruct n; discriminate | ]. induction n as [|n IH]; [ split; [ now left | exact I ] | split; [ now left | exact IH ] ]. }
    pose proof (B 0 : blanks " ") as B1. pose proof (B 2 : blanks "   ") as B3.
    assert (N : forall f, lower f = f -> ~ In f time_modifiers -> ~ is_time_modifier f).
    { intros f L H (k & Hk & S). apply same_word_lower in S. apply H. rewrite <- L, S.
      repeat (destruct Hk as [<-|Hk]; [ cbn; tauto | ]). destruct Hk. }
    Ltac tight N f o v := apply (T_cmp f o v "" ""); [ exact I | exact I | right; apply N; [ reflexivity | cbn; intuition discriminate ] ].
    apply C_or.
    + apply G_and.
      * tight N "a" CEq (VInt 1).
      * exists " ", "and", " ". split; [ now left | ]. split; [ now apply same_word_lower | ]. split; [ now left | reflexivity ].
      * apply G_one, T_not; [ now apply same_word_lower | right; split; [ exact I | reflexivity ] | ].
        apply T_paren; [ exact I | apply B1 | ]. apply C_one, G_one, (T_cmp "b" CGe (VInt 2) " " ""); [ apply B1 | exact I | now left ].
    + exists "", "Or", " ". split; [ right; split; [ exact I | ] | split; [ now apply same_word_lower | split; [ now left | reflexivity ] ] ].
      exists "a=1 and not(b >=2 ". reflexivity.
    + apply C_one, G_beside.
      * apply T_paren; [ apply B1 | exact I | ]. apply C_or.
        -- apply G_one, T_in; try exact I; try apply B1; [ now apply same_word_lower | ].
           apply L_more; [ reflexivity | left; apply B1 | now apply L_one ].
        -- exists "   ", "or", " ". split; [ now left | ]. split; [ now apply same_word_lower | ]. split; [ now left | reflexivity ].
        -- apply C_one, G_one. tight N "d" CNe (VInt (-4)).
      * exact B1.
      * intros (x & y & E & S). apply same_word_lower in S. destruct x as [|c x]; [ discriminate | ]. injection E as <- E. discriminate.
      * apply G_one. tight N "e" CLt (VInt 5).
Qed.
(** In eval it is the other way round: a OR b AND c is read as (a OR b) AND c. *)
Theorem C09_eval_and_binds_tighter_refuted :
  exists a b c e, Forall plain_ident [a; b; c] /\
    parse ("eval x=" ++ a ++ " OR " ++ b ++ " AND " ++ c) = Some (Ok [CEval [("x", e)]]) /\
    e = meaning (TBin OAnd (TBin OOr (TField a) (TField b)) (TField c)) /\
    e <> meaning (TBin OOr (TField a) (TBin OAnd (TField b) (TField c))).
Proof.
  exists "a", "b", "c". eexists.
  split; [ repeat (apply Forall_cons || apply Forall_nil); now apply ident_by | ].
  split; [ vm_compute; reflexivity | ]. split; [ reflexivity | discriminate ].
Qed.
Print Assumptions C09_eval_and_binds_tighter_refuted.

(** ** C51: two string literals in one condition stay two literals. *)
Theorem C51_string_literals_end_at_their_quote_refuted :
  let empty := in_quotes "" in
  exists e, parse ("where x=" ++ empty ++ " OR y=" ++ empty) = Some (Ok [CWhere e]) /\
    e = EBinary (ELeaf (LConstant (KField "x"))) "=" (ELeaf (LConstant (KStr (in_quotes " OR y=")))) .
Proof. exact (ex_intro _ _ (conj eq_refl eq_refl)). Qed.
Print Assumptions C51_string_literals_end_at_their_quote_refuted.

(** ** C52: a command with arguments it does not accept is an error. *)
Theorem C52_malformed_command_is_error_refuted :
  (exists e, parse "makeresults count=x" = Some (Ok [CSearch e])) /\
  (exists e, parse "tail 99999999999999999999" = Some (Ok [CSearch e])).
Proof. exact (conj (ex_intro _ _ eq_refl) (ex_intro _ _ eq_refl)). Qed.
Print Assumptions C52_malformed_command_is_error_refuted.

(** ** C53: a quoted string denotes the text between its quotes. *)
(** Proved for strings not starting with white space, as they are written ([plain_string], see
    C07); with leading white space it fails: the white space is dropped. *)
Theorem C53_quoted_string_is_exact_partial : forall s rest,
  plain_string s -> constant (in_quotes s ++ rest) = POk rest (KStr s) /\ literal (in_quotes s ++ rest) = POk rest (KStr s).
Proof. exact (fun s rest H => conj (constant_string s rest H) (literal_string s rest H)). Qed.
Print Assumptions C53_quoted_string_is_exact_partial.
Example C53_applies : plain_string "error: 5 %" /\ plain_string "\d+ \""".
Proof. split; now apply plain_string_by. Qed.
(** A backslash before a quote stays in the value (which Python removes again, see C24). *)
Theorem C53_escapes_are_kept_refuted : exists s, parse ("eval x=" ++ in_quotes (escape s)) = Some (Ok [CEval [("x", ELeaf (LConstant (KStr (escape s))))]]) /\
  escape s <> s.
Proof. exists "say """. split; [ vm_compute; reflexivity | discriminate ]. Qed.
Print Assumptions C53_escapes_are_kept_refuted.
Theorem C53_quoted_string_is_exact_refuted : exists s, s <> "" /\
  parse ("eval x=" ++ in_quotes s) <> Some (Ok [CEval [("x", ELeaf (LConstant (KStr s)))]]) /\
  parse ("eval x=" ++ in_quotes s) = Some (Ok [CEval [("x", ELeaf (LConstant (KStr "a")))]]).
Proof. exists "  a". split; [ discriminate | split; vm_compute; [ discriminate | reflexivity ] ]. Qed.
Print Assumptions C53_quoted_string_is_exact_refuted.

(** ** C54: a name that merely starts with a keyword is a name. *)
(** In where, a field whose name starts with NOT is negated under a shortened name; in
    search, a field whose name starts with AND loses these letters. *)
Theorem C54_keyword_prefix_is_part_of_name_refuted :
  plain_ident "notable" /\ plain_ident "android" /\
  parse "where notable=1"
  = Some (Ok [CWhere (EUnary "NOT" (EBinary (ELeaf (LConstant (KField "able"))) "=" (ELeaf (LConstant (KInt 1)))))]) /\
  parse "index=a android=1"
  = Some (Ok [CSearch (EBinary (EBinary (ELeaf (LConstant (KField "index"))) "=" (ELeaf (LConstant (KField "a"))))
                       "and" (EBinary (ELeaf (LConstant (KField "roid"))) "=" (ELeaf (LConstant (KInt 1)))))]).
Proof. exact (conj (ident_by "notable" eq_refl) (conj (ident_by "android" eq_refl) (conj eq_refl eq_refl))). Qed.
Print Assumptions C54_keyword_prefix_is_part_of_name_refuted.
(** It holds of eval, where NOT has to be followed by a blank or a parenthesis: C07 covers
    all names. *)

(** ** C84: white space around an operator.  After a closing parenthesis or quote, around
    comparisons and +, and after -, *, /, AND and OR it may be left out or put in freely. *)
Theorem C84_blanks_do_not_matter_partial : forall name left right left_text right_text o b1 b2,
  field_name name -> wf left -> wf right ->
  writes (pred (binds o)) left left_text -> writes (binds o) right right_text -> tight left_text o b1 b2 ->
  parse ("eval " ++ name ++ "=" ++ left_text ++ b1 ++ op_text o ++ b2 ++ right_text)
  = parse ("eval " ++ name ++ "=" ++ left_text ++ " " ++ op_text o ++ " " ++ right_text).
Proof. exact blanks_do_not_matter. Qed.
Print Assumptions C84_blanks_do_not_matter_partial.
Example C84_ex : tight "a" OAdd "" "" /\ tight "a" OLe "" " " /\ tight "a" ODiv " " "" /\ tight "(a+b)" OMul "" "" /\ tight "(a=1)" OOr "" ""
  /\ writes 2 (TBin OAdd (TField "a") (TField "b")) "(a+b)" /\ writes 4 (TInt 5) (decimal 5)
  /\ parse "eval x=a+5" = parse "eval x=a + 5"
  /\ parse "eval x=a+5" = Some (Ok [CEval [("x", EBinary (ELeaf (LConstant (KField "a"))) "+" (ELeaf (LConstant (KInt 5))))]])
  /\ parse "eval x=(a+b)*len(c)-5" = parse "eval x=(a + b) * len(c) - 5" /\ parse "eval x=(a=1)OR(b=2)" = parse "eval x=(a=1) OR (b=2)".
Proof.
  split; [ | split; [ | split; [ | split; [ | split; [ | split; [ | split; [ | split; [ | split; [ | split ] ] ] ] ] ] ] ] ].
  - split; [ exact I | split; [ exact I | split; [ discriminate | auto ] ] ].
  - split; [ exact I | split; [ cbn; unfold white; cbn; tauto | split; [ discriminate | auto ] ] ].
  - split; [ cbn; unfold white; cbn; tauto | split; [ exact I | split; [ discriminate | left; discriminate ] ] ].
  - split; [ exact I | split; [ exact I | split; [ discriminate | do 3 right; exists "(a+b"; now left ] ] ].
  - split; [ exact I | split; [ exact I | split; [ discriminate | do 3 right; exists "(a=1"; now left ] ] ].
  - apply (W_paren _ "a+b"). do 5 (apply W_up; [ lia | ]). apply (W_tight OAdd (TField "a") (TField "b") "a" "b" "" "").
    + split; [ exact I | split; [ exact I | split; [ discriminate | auto ] ] ].
    + apply W_up; [ lia | apply W_field ].
    + apply W_up; [ lia | apply W_up; [ lia | apply W_field ] ].
  - apply W_up; [ lia | apply W_up; [ lia | apply W_int ] ].
  - vm_compute. reflexivity.
  - vm_compute. reflexivity.
  - vm_compute. reflexivity.
  - vm_compute. reflexivity.
Qed.
(** False in general: without white space a name swallows a minus sign or slash and what
    follows, so that a difference or quotient is read as one column; and the dot that joins
    texts is not read without white space after it. *)
Theorem C84_operators_in_names_refuted :
  (forall name a o b, field_name name -> field_word a -> o = OSub \/ o = ODiv -> all_chars word_char b ->
    parse ("eval " ++ name ++ "=" ++ a ++ op_text o ++ b)
    = Some (Ok [CEval [(name, ELeaf (LConstant (KField (a ++ op_text o ++ b))))]]))
  /\ parse "eval mb=bytes/1024" = Some (Ok [CEval [("mb", ELeaf (LConstant (KField "bytes/1024")))]])
  /\ parse "eval x=10-3" = Some (Ok [CEval [("x", ELeaf (LConstant (KField "10-3")))]])
  /\ parse "eval x=a*b" = Some (Ok [CEval [("x", ELeaf (LConstant (KWildcard "a*b")))]])
  /\ parse "eval x=a- b" = Some Err
  /\ parse ("eval x=" ++ in_quotes "a" ++ "." ++ in_quotes "b") = Some Err /\ parse "eval x=len(a).b" = Some Err.
Proof. split; [ exact operators_in_names | repeat split; vm_compute; reflexivity ]. Qed.
Print Assumptions C84_operators_in_names_refuted.
