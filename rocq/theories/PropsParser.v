(** Properties of parse(): statements only; proofs are in the Parser*.v files. *)
From Coq Require Import DecimalString.
From Verif Require Import Str SplAst Nom Lexer Parser CmdParser ParserFacts ParserTotal ParserFuel.
From Verif Require Import SpecText LexFacts TokenFacts NameFacts.

(** ** C01: parse() terminates with a pipeline or a ValueError.
    [None] would be exhausted recursion fuel, [Some Panic] a Rust panic.  The model
    gives parse() a recursion depth of one more than the length of the text; the
    second theorem says that this bound is not a cut-off: any more depth gives the
    same answer. *)
Theorem C01_parse_terminates : forall text : string,
  parse text = Some Err \/ exists p : Pipeline, parse text = Some (Ok p).
Proof. exact parse_outcome. Qed.
Print Assumptions C01_parse_terminates.

Theorem C01_depth_bounded_by_length : forall depth (text : string),
  String.length text < depth -> parse_with depth text = parse text.
Proof. exact parse_fuel. Qed.
Print Assumptions C01_depth_bounded_by_length.

Example C01_both_outcomes_occur :
  parse "index=main ((((x=1))))" <> Some Err /\ parse "eval x=((((1" = Some Err.
Proof. split; vm_compute; [ discriminate | reflexivity ]. Qed.

(** ** C02: a successful parse accounts for the whole text. *)
Theorem C02_nothing_left_over : forall depth text rest (p : Pipeline),
  pipeline (level depth) text = POk rest p -> rest = ""%string.
Proof. intros depth. exact (pipeline_consumes_all (level depth)). Qed.
Print Assumptions C02_nothing_left_over.

(** Every rule of the grammar hands on a suffix of its own input. *)
Theorem C02_rules_consume_prefixes : forall depth text rest,
  (forall c, command (level depth) text = POk rest c -> exists used, text = (used ++ rest)%string) /\
  (forall p, sub_search (level depth) text = POk rest p -> exists used, text = (used ++ rest)%string) /\
  (forall e, expr (level depth) text = POk rest e -> exists used, text = (used ++ rest)%string) /\
  (forall e, logical_expression (level depth) text = POk rest e ->
             exists used, text = (used ++ rest)%string) /\
  (forall k, constant text = POk rest k -> exists used, text = (used ++ rest)%string).
Proof.
  exact (fun depth text rest =>
           conj (command_suffix depth text rest) (conj (sub_search_suffix depth text rest)
          (conj (expr_suffix depth text rest) (conj (logical_expression_suffix depth text rest)
                (constant_suffix text rest))))).
Qed.
Print Assumptions C02_rules_consume_prefixes.

(** The message 'Failed to fully parse input' of parse() is unreachable. *)
Theorem C02_leftover_branch_dead : forall text c rest (p : Pipeline),
  pipeline (level (S (String.length text))) text <> POk (String c rest) p.
Proof. exact parse_never_leftover. Qed.
Print Assumptions C02_leftover_branch_dead.

Example C02_applies : exists p, pipeline (level 40) "index=main | head 5" = POk "" p.
Proof. eexists. vm_compute. reflexivity. Qed.
Example C02_rule_applies :
  expr (level 40) "a + 1, b=2" = POk ", b=2" (EBinary (efield "a") "+" (eint 1)).
Proof. vm_compute. reflexivity. Qed.

(** ** C03: leading white space and one leading pipe do not matter. *)
Theorem C03_leading_white_space : forall blanks query,
  all_chars white blanks -> parse (blanks ++ query) = parse query.
Proof. exact parse_ws. Qed.
Print Assumptions C03_leading_white_space.

Theorem C03_leading_pipe : forall query,
  (forall blanks tail, query = (blanks ++ String "|" tail)%string -> ~ all_chars white blanks) ->
  parse ("|" ++ query) = parse query.
Proof. exact parse_pipe_spec. Qed.
Print Assumptions C03_leading_pipe.

Example C03_white_applies : all_chars white (" " ++ nl)%string.
Proof. unfold white. cbn. intuition. Qed.
Example C03_pipe_applies : parse "| head 5" = parse "head 5" /\ parse "head 5" <> Some Err.
Proof. split; [ reflexivity | vm_compute; discriminate ]. Qed.
(** The side condition is needed: a second pipe changes the outcome. *)
Example C03_two_pipes : parse "||head 5" = Some Err.
Proof. reflexivity. Qed.

(** ** C04: integer literals.
    [p_int] reads integer arguments (head 5, limit=5, spans); [constant] reads operands
    of expressions.  The digits are an arbitrary digit sequence (leading zeros
    included), its value is the standard library's [Z.of_uint]. *)
Theorem C04_integer_argument : forall sgn digits rest,
  digits <> Decimal.Nil -> next_is (fun c => ~ digit c) rest ->
  p_int (sign_text sgn ++ NilEmpty.string_of_uint digits ++ rest)
  = if (Z.of_uint digits <=? 2 ^ 63 - 1)%Z
    then POk rest (signed sgn (Z.of_uint digits)) else PErr.
Proof. exact p_int_uint. Qed.
Print Assumptions C04_integer_argument.

Theorem C04_decimal_read_exactly : forall z rest,
  int64_nonmin z -> next_is (fun c => ~ digit c) rest -> p_int (decimal z ++ rest) = POk rest z.
Proof. exact p_int_decimal_ok. Qed.
Print Assumptions C04_decimal_read_exactly.

(** As an operand: what follows must not be a character that can continue a word. *)
Theorem C04_operand_read_exactly : forall z rest,
  int64_nonmin z -> next_is (fun c => ~ word_char c) rest ->
  constant (decimal z ++ rest) = POk rest (KInt z).
Proof. exact constant_decimal_ok. Qed.
Print Assumptions C04_operand_read_exactly.

(** The second half of C04 is false for operands: every integer that does not fit is
    taken for a field of that name. *)
Theorem C04_operand_overflow_becomes_field : forall z rest,
  ~ int64_nonmin z -> next_is (fun c => ~ word_char c) rest ->
  constant (decimal z ++ rest) = POk rest (KField (decimal z)).
Proof. exact constant_decimal_overflow. Qed.
Print Assumptions C04_operand_overflow_becomes_field.
Theorem C04_overflow_rejected_refuted : exists query,
  query = "eval x=99999999999999999999"%string /\
  parse query = Some (Ok [CEval [("x"%string, efield "99999999999999999999")]]).
Proof. eexists. split; [ reflexivity | vm_compute; reflexivity ]. Qed.
Print Assumptions C04_overflow_rejected_refuted.

Example C04_applies :
  int64_nonmin (-9223372036854775807)%Z /\ decimal (-9223372036854775807) = "-9223372036854775807"%string /\
  constant "-9223372036854775807, b" = POk ", b" (KInt (-9223372036854775807)).
Proof. repeat split; vm_compute; congruence. Qed.
Example C04_overflow_applies : ~ int64_nonmin (9223372036854775808)%Z.
Proof. unfold int64_nonmin. intros [_ H]. vm_compute in H. congruence. Qed.

(** ** C05: reserved words are never bare names. *)
Theorem C05_no_reserved_names :
  (forall text rest t, token text = POk rest t -> ~ is_reserved t) /\
  (forall text rest f, field text = POk rest f ->
     next_is (fun c => ~ (nat_of_ascii c = 34 \/ nat_of_ascii c = 39)) text -> ~ is_reserved f) /\
  (forall text rest options, command_options text = POk rest options ->
     Forall (fun kv => ~ is_reserved (fst kv)) options) /\
  (forall depth text rest e, call (level depth) text = POk rest e ->
     exists name args, e = ECall name args /\ ~ is_reserved name).
Proof.
  exact (conj (token_of_ok _) (conj field_not_reserved (conj option_keys
        (fun depth => call_name (level depth))))).
Qed.
Print Assumptions C05_no_reserved_names.
Example C05_applies : field "stat_s" = POk "" "stat_s"%string /\ field "StAtS" = PErr /\
  is_reserved "StAtS" /\ field "'stats'" = POk "" "stats"%string.
Proof.
  repeat split; try (vm_compute; reflexivity).
  exists "STATS"%string. split; [ | apply same_word_lower; reflexivity ].
  unfold spl_reserved. cbn [In]. tauto.
Qed.

(** ** C06: the letter case of a command keyword is irrelevant.  If a text starting
    with some letters is read as a command other than search, changing the case of
    these letters changes neither the command nor what is left for the next one. *)
Theorem C06_keyword_case : forall depth keyword keyword' args rest c,
  same_word keyword keyword' -> all_chars letter keyword ->
  command (level depth) (keyword ++ args) = POk rest c -> (forall e, c <> CSearch e) ->
  command (level depth) (keyword' ++ args) = POk rest c.
Proof. exact command_keyword_case_spec. Qed.
Print Assumptions C06_keyword_case.
(** An explicit search keyword, too. *)
Theorem C06_search_keyword_case : forall depth keyword keyword' args,
  same_word keyword "search" -> same_word keyword' "search" -> next_is white args ->
  command (level depth) (keyword ++ args) = command (level depth) (keyword' ++ args).
Proof. exact search_keyword_case. Qed.
Print Assumptions C06_search_keyword_case.
Example C06_applies : command (level 9) "HeAd 5" = POk "" (CHead (eint 5) false false).
Proof. vm_compute. reflexivity. Qed.
Example C06_search_applies : next_is white " x=1" /\ command (level 9) "SeaRch x=1" <> PErr.
Proof. split; [ unfold white; cbn; tauto | vm_compute; discriminate ]. Qed.

(** ** C10: options. *)
Theorem C10_last_occurrence_wins : forall before key value after,
  ~ In key (map fst after) ->
  let options := (before ++ (key, value) :: after)%list in
  (forall default, get_int options key default
     = match value with KInt z => Ok z | _ => Err end) /\
  (forall default, get_string options key default
     = match value with KStr s => Ok s | KField s => Ok s | _ => Err end) /\
  (get_span_option options key
     = match value with KTimeSpan t => Ok (Some t) | _ => Err end) /\
  (forall default, get_boolean options key default
     = match value with
       | KBool b => Ok b
       | KField w => match find (fun p => String.eqb w (fst p))
                             [("true", true); ("t", true); ("false", false); ("f", false)]%string with
                     | Some (_, b) => Ok b
                     | None => Err
                     end
       | _ => Err
       end).
Proof. exact options_last. Qed.
Print Assumptions C10_last_occurrence_wins.

Theorem C10_default_when_absent : forall (options : Options) key,
  ~ In key (map fst options) ->
  (forall d, get_int options key d = Ok d) /\
  (forall d, get_string options key d = Ok d) /\
  (forall d, get_boolean options key d = Ok d) /\
  get_int_option options key = Ok None /\ get_string_option options key = Ok None /\
  get_span_option options key = Ok None.
Proof. exact options_absent. Qed.
Print Assumptions C10_default_when_absent.

(** Options with different names may be given in any order. *)
Theorem C10_order_irrelevant : forall o1 o2 : Options,
  (forall k, filter (fun kv => String.eqb (fst kv) k) o1
             = filter (fun kv => String.eqb (fst kv) k) o2) ->
  addtotals_options o1 = addtotals_options o2 /\ bin_options o1 = bin_options o2 /\
  collect_options o1 = collect_options o2 /\ datamodel_options o1 = datamodel_options o2 /\
  dedup_options o1 = dedup_options o2 /\ format_options o1 = format_options o2 /\
  inputlookup_options o1 = inputlookup_options o2 /\ join_options o1 = join_options o2 /\
  makeresults_options o1 = makeresults_options o2 /\ toprare_options o1 = toprare_options o2 /\
  rex_options o1 = rex_options o2 /\ stats_options o1 = stats_options o2 /\
  streamstats_options o1 = streamstats_options o2 /\ tstats_options o1 = tstats_options o2.
Proof. exact options_order. Qed.
Print Assumptions C10_order_irrelevant.

Example C10_applies :
  join_options [("max", KInt 1); ("type", KField "left"); ("max", KInt 7)]%string
  = Ok (mkJoin "left" false true true 7 []).
Proof. vm_compute. reflexivity. Qed.
Example C10_wrong_type : join_options [("max", KField "x")]%string = Err.
Proof. vm_compute. reflexivity. Qed.
Example C10_order_applies : forall k,
  filter (fun kv => String.eqb (fst kv) k) [("max", KInt 1); ("type", KField "left")]%string
  = filter (fun kv => String.eqb (fst kv) k) [("type", KField "left"); ("max", KInt 1)]%string.
Proof.
  intro k. cbn [filter fst].
  destruct (String.eqb_spec "max" k) as [<-|]; [ reflexivity | ].
  destruct (String.eqb_spec "type" k); reflexivity.
Qed.
(** But parse() as a whole does not report a wrong option type as an error: the text
    is then read as an implicit search. *)
Theorem C10_wrong_type_is_error_refuted : exists query,
  query = "makeresults count=x"%string /\
  parse query = Some (Ok [CSearch (EBinary (efield "makeresults") "AND"
                                     (EBinary (efield "count") "=" (efield "x")))]).
Proof. eexists. split; [ reflexivity | vm_compute; reflexivity ]. Qed.
Print Assumptions C10_wrong_type_is_error_refuted.

(** ** C11: a quoted search is the search its escaped text denotes. *)
Theorem C11_quoted_search_unescaped : forall query p,
  parse query = Some (Ok p) ->
  parse ("map search=" ++ in_quotes (escape query)) = Some (Ok [CMap p 10%Z]).
Proof. exact map_command_reads. Qed.
Print Assumptions C11_quoted_search_unescaped.
Example C11_applies :
  parse (("index=a x=" ++ in_quotes "b c")%string) <> Some Err /\
  escape (("x=" ++ in_quotes "b")%string)
  = ("x=" ++ String backslash (dq ++ "b" ++ String backslash dq))%string.
Proof. split; [ vm_compute; discriminate | reflexivity ]. Qed.
