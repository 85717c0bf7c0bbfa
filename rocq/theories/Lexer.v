(** The non-recursive part of the grammar: /repo/src/spl/parser.rs 59-725 and
    /repo/src/spl/operators.rs. *)
From Verif Require Import Str SplAst Nom.

(** parser.rs 59-88 *)
Definition ws {A} (p : Parser A) : Parser A := delimited multispace0 p multispace0.
Definition ws_left {A} (p : Parser A) : Parser A := preceded multispace0 p.
Definition ws_right {A} (p : Parser A) : Parser A := terminated p multispace0.
Definition parenthesized {A} (p : Parser A) : Parser A :=
  delimited (ws_right (tag "(")) p (ws_left (tag ")")).

(** parser.rs 112-137 *)
Definition comma_sep : Parser string := ws (tag ",").
Definition comma_or_space_sep : Parser string := ws (tag ",") <|> multispace1.
Definition comma_separated_list0 {A} (p : Parser A) := separated_list0 comma_sep p.
Definition comma_separated_list1 {A} (p : Parser A) := separated_list1 comma_sep p.
Definition space_separated_list1 {A} (p : Parser A) := separated_list1 multispace1 p.
Definition comma_or_space_separated_list0 {A} (p : Parser A) := separated_list0 comma_or_space_sep p.
Definition comma_or_space_separated_list1 {A} (p : Parser A) := separated_list1 comma_or_space_sep p.

(** ** Time spans, parser.rs 139-240 *)
Fixpoint alt_tags (l : list string) : Parser string :=
  match l with
  | nil => p_fail
  | t :: nil => tag_no_case t
  | t :: l' => tag_no_case t <|> alt_tags l'
  end.
Definition unit_normalizer (name : string) (l : list string) : Parser string :=
  p_map (fun _ => name) (alt_tags l).
(** 165-191 *)
Definition time_unit : Parser string :=
      unit_normalizer "months" ["months"; "month"; "mon"]%string
  <|> unit_normalizer "days" ["days"; "day"; "d"]%string
  <|> unit_normalizer "hours" ["hours"; "hour"; "hrs"; "hr"; "h"]%string
  <|> unit_normalizer "minutes" ["minutes"; "minute"; "mins"; "min"; "m"]%string
  <|> unit_normalizer "weeks" ["weeks"; "week"; "w7"; "w0"; "w"]%string
  <|> unit_normalizer "seconds" ["seconds"; "second"; "secs"; "sec"; "s"]%string.

(** The value of a string of decimal digits. *)
Fixpoint digits_value (acc : Z) (s : string) : Z :=
  match s with
  | EmptyString => acc
  | String c s' => digits_value (acc * 10 + Z.of_N (code c - 48))%Z s'
  end.
(** str::parse::<i64> and ::<u16> of a non-empty string of digits *)
Definition parse_i64 (d : string) : res Z :=
  let v := digits_value 0 d in if (v <=? i64_max)%Z then Ok v else Err.
Definition parse_u16 (d : string) : res Z :=
  let v := digits_value 0 d in if (v <? 65536)%Z then Ok v else Err.

Definition p_sign : Parser (option string) := opt (tag "+" <|> tag "-").
Definition is_minus (o : option string) : bool :=
  match o with Some t => String.eqb t "-" | None => false end.
(** parser.rs 583-594; the product cannot overflow *)
Definition p_int : Parser Z :=
  P: sign <- p_sign;
  P: v <- unwrapped (p_map parse_i64 digit1);
  p_ret (if is_minus sign then - v else v)%Z.

Fixpoint strip_leading_zeros (s : string) : string :=
  match s with
  | String c ((String _ _) as s') => if Ascii.eqb c "0"%char then strip_leading_zeros s' else s
  | _ => s
  end.
Fixpoint strip_trailing_zeros (s : string) : string :=
  match s with
  | EmptyString => EmptyString
  | String c s' =>
      match strip_trailing_zeros s' with
      | EmptyString => if Ascii.eqb c "0"%char then EmptyString else String c EmptyString
      | t => String c t
      end
  end.
(** Display of the double written sign whole.frac.  Simplification: exact for up
    to 15 significant digits; the rounding of longer literals is not modelled. *)
Definition double_text (minus : bool) (whole frac : string) : string :=
  let w := strip_leading_zeros whole in
  let f := strip_trailing_zeros frac in
  ((if minus then "-" else "") ++ w ++ (if String.eqb f "" then "" else "." ++ f))%string.
(** parser.rs 602-614; the unwrap of parse::<f64> cannot fail on digits.digits *)
Definition p_double : Parser string :=
  P: sign <- p_sign;
  P: wf <- separated_pair digit1 (tag ".") digit1;
  p_ret (double_text (is_minus sign) (fst wf) (snd wf)).

(** 196-213 *)
Definition time_span : Parser TimeSpan :=
  P: n <- p_int; P: u <- time_unit; p_ret (mkTimeSpan n u).
Definition time_span_one : Parser TimeSpan :=
  P: sign <- opt (tag "-"); P: u <- time_unit;
  p_ret (mkTimeSpan (match sign with Some _ => -1 | None => 1 end)%Z u).
(** 219-240 *)
Definition relative_time_fmt : Parser SnapTime :=
  P: sp <- opt (time_span <|> time_span_one);
  P: _ <- tag "@";
  P: u <- time_unit;
  P: o <- opt time_span;
  p_ret (mkSnapTime sp u o).
Definition relative_time : Parser SnapTime :=
  relative_time_fmt <|> delimited (tag dq) relative_time_fmt (tag dq).

(** ** Tokens and names *)
(** parser.rs 346-408 *)
Definition reserved_words : list string :=
  [ "AFTER"; "AND"; "APPLY"; "AS"; "ASC"; "BEFORE"; "BETWEEN"; "BIN"; "BRANCH"; "BY"; "DEDUP";
    "DISTINCT"; "EVENTSTATS"; "EXISTS"; "EXPORT"; "FIT"; "FROM"; "FUNCTION"; "GROUP"; "GROUPBY";
    "HAVING"; "HEAD"; "HISTPERC"; "IMPORT"; "IN"; "INNER"; "INTO"; "IS"; "JOIN"; "LIKE"; "LIMIT";
    "LOOKUP"; "NOT"; "OFFSET"; "ON"; "ONCHANGE"; "OR"; "ORDER"; "ORDERBY"; "OUTER"; "OUTPUTNEW";
    "RENAME"; "RESET"; "RETURN"; "REX"; "SEARCH"; "SELECT"; "SORT"; "STATS"; "STREAMSTATS";
    "THRU"; "THROUGH"; "TIMECHART"; "TIMEWRAP"; "UNION"; "WHERE"; "WHILE"; "XOR" ]%string.
Definition is_not_reserved_word (s : string) : bool :=
  negb (existsb (String.eqb (upper s)) reserved_words).

Definition bs : string := String backslash EmptyString.
(** A backslash and the character after it; tag, then take(1usize) or anychar *)
Definition escaped_char : Parser string := recognize (pair_ (tag bs) anychar).

(** 410-430 *)
Definition token_of (specials : string) : Parser string :=
  verify (recognize (many1 (recognize (one_of specials) <|> alphanumeric1 <|> escaped_char)))
         is_not_reserved_word.
Definition token : Parser string := token_of "_*:/-%{}@".
Definition token_with_extras : Parser string := token_of ("_*:/-%{}@" ++ bs ++ "$.")%string.

(** 433-446 *)
Definition p_bool : Parser bool :=
  terminated
    (    p_map (fun _ => true) (tag_no_case "true")
     <|> p_map (fun _ => true) (tag_no_case "t")
     <|> p_map (fun _ => false) (tag_no_case "false")
     <|> p_map (fun _ => false) (tag_no_case "f"))
    (peek (eof <|> multispace1 <|> recognize (one_of "().:"))).

(** 449-478 *)
Definition quoted_content (q : ascii) : Parser string :=
  ws (recognize (many0 (escaped_char <|> recognize (none_of (String q bs))))).
Definition double_quoted : Parser string :=
      delimited (tag dq) (recognize (P: _ <- tag dq; P: _ <- quoted_content dquote; tag dq)) (tag dq)
  <|> delimited (tag dq) (quoted_content dquote) (tag dq).
Definition single_quoted : Parser string :=
  delimited (tag sq) (quoted_content squote) (tag sq).

(** 481-488 *)
Definition wildcard : Parser string :=
  verify (double_quoted <|> token_with_extras) (has_char "*"%char).

(** 492-502 *)
Definition double_quoted_alt : Parser string :=
  delimited (tag dq)
    (ws (recognize (many0 (tag (bs ++ dq)%string <|> tag (bs ++ bs)%string
                           <|> recognize (none_of (dq ++ bs)%string)))))
    (tag dq).

(** 505-540 *)
Definition token_not_t_f : Parser string :=
  verify token (fun v => negb (String.eqb v "t") && negb (String.eqb v "f")).
Definition field_fmt : Parser string :=
  recognize (separated_list1 (tag ".") (token_not_t_f <|> double_quoted)).
Definition field : Parser string := field_fmt <|> single_quoted.
Definition p_string : Parser string :=
  double_quoted <|> recognize (many1 (token <|> tag "." <|> tag ":")).
Definition variable : Parser string := delimited (tag "$") token_not_t_f (tag "$").

(** 544-577 *)
Definition byte : Parser string :=
  recognize (verify digit1 (fun s => Nat.leb (String.length s) 3)).
Definition ipv4_addr : Parser string :=
  recognize (P: _ <- byte; P: _ <- tag "."; P: _ <- byte; P: _ <- tag "."; P: _ <- byte;
             P: _ <- tag "."; byte).
Definition ipv4_cidr : Parser string := recognize (separated_pair ipv4_addr (ws (tag "/")) byte).

(** Rust's Ipv6Addr parser (core::net::parser), on the texts the grammar offers it:
    groups of digits and colons.  [ipv6_groups limit first s] reads up to limit
    groups of one to four hexadecimal digits separated by single colons and yields
    how many it read and the rest. *)
Definition is_hex (c : ascii) : bool := is_digit c || between 97 102 c || between 65 70 c.
Definition ipv6_group (s : string) : option string :=
  let (d, r) := span is_hex s in
  if Nat.leb 1 (String.length d) && Nat.leb (String.length d) 4 then Some r else None.
Fixpoint ipv6_groups (limit : nat) (first : bool) (s : string) : nat * string :=
  match limit with
  | O => (O, s)
  | S l =>
      let s' := if first then Some s else strip_prefix ":" s in
      match s' with
      | None => (O, s)
      | Some s' =>
          match ipv6_group s' with
          | Some r => let (n, r') := ipv6_groups l false r in (S n, r')
          | None => (O, s)
          end
      end
  end.
Definition is_ipv6 (s : string) : bool :=
  let (n, r) := ipv6_groups 8 true s in
  if Nat.eqb n 8 then String.eqb r ""
  else match strip_prefix "::" r with
       | Some r' => let (_, r'') := ipv6_groups (7 - n) true r' in String.eqb r'' ""
       | None => false
       end.
Definition ipv6_addr : Parser string :=
  verify (recognize (separated_list1 (tag ":") (opt (unwrapped (p_map parse_u16 digit1))))) is_ipv6.

(** ** Constants, parser.rs 618-656: the text of one literal is cut out first and
    then has to be matched completely by one of the alternatives. *)
Definition literal_text : Parser string :=
  recognize (double_quoted <|> single_quoted <|> token_with_extras).
Definition literal_value : Parser Constant :=
      p_map KIPv4CIDR (all_consuming ipv4_cidr)
  <|> p_map KStr (all_consuming ipv4_addr)
  <|> p_map KStr (all_consuming ipv6_addr)
  <|> p_map KWildcard (all_consuming wildcard)
  <|> p_map KStr (all_consuming double_quoted)
  <|> p_map KVariable (all_consuming variable)
  <|> p_map KSnapTime (all_consuming relative_time)
  <|> p_map KTimeSpan (all_consuming time_span)
  <|> p_map KDouble (all_consuming p_double)
  <|> p_map KInt (all_consuming p_int)
  <|> p_map KBool (all_consuming p_bool)
  <|> p_map KStr (all_consuming p_string).
Definition literal : Parser Constant := map_parser literal_text literal_value.
Definition constant_value : Parser Constant :=
      p_map KIPv4CIDR (all_consuming ipv4_cidr)
  <|> p_map KStr (all_consuming ipv4_addr)
  <|> p_map KStr (all_consuming ipv6_addr)
  <|> p_map KSnapTime (all_consuming relative_time)
  <|> p_map KTimeSpan (all_consuming time_span)
  <|> p_map KWildcard (all_consuming wildcard)
  <|> p_map KStr (all_consuming double_quoted)
  <|> p_map KVariable (all_consuming variable)
  <|> p_map KDouble (all_consuming p_double)
  <|> p_map KInt (all_consuming p_int)
  <|> p_map KField (all_consuming field)
  <|> p_map KBool (all_consuming p_bool).
Definition constant : Parser Constant := map_parser literal_text constant_value.

(** 660-682 *)
Definition field_and_value : Parser (string * string) :=
  separated_pair token (ws (tag "=")) (double_quoted <|> token).
Definition field_and_constant : Parser (string * Constant) :=
  separated_pair token (ws (tag "=")) constant.
(** 712-725 *)
Definition command_options : Parser (list (string * Constant)) := many0 (ws field_and_constant).
Definition field_list0 : Parser (list string) := comma_or_space_separated_list0 field.
Definition field_list1 : Parser (list string) := comma_or_space_separated_list1 field.

(** ** Operators, src/spl/operators.rs; a pattern yields the text it matched *)
Definition op_and : Parser string := tag_no_case "AND" <|> tag " ".
Definition op_or : Parser string := tag_no_case "OR".
Definition op_not : Parser string := tag_no_case "NOT".
Definition op_concat : Parser string := delimited multispace0 (tag ".") multispace1.
Definition op_equals : Parser string := tag "=" <|> tag "::".

(** parser.rs 743-767: yields the SYMBOL, not the matched text *)
Definition comparison_operator : Parser string :=
      p_map (fun _ => "<="%string) (tag_no_case "<=")
  <|> p_map (fun _ => "<"%string) (tag_no_case "<")
  <|> p_map (fun _ => ">="%string) (tag_no_case ">=")
  <|> p_map (fun _ => ">"%string) (tag_no_case ">")
  <|> p_map (fun _ => "=="%string) (tag_no_case "==")
  <|> p_map (fun _ => "="%string) op_equals
  <|> p_map (fun _ => "!="%string) (tag_no_case "!=").

(** ** Other non-recursive rules *)
(** 878-893 *)
Definition field_in : Parser Expr :=
  P: fc <- separated_pair field (ws (tag_no_case "IN"))
             (parenthesized (comma_or_space_separated_list0 constant));
  p_ret (EFieldIn (fst fc) (map econst (snd fc))).
(** 909-919 *)
Definition term_call : Parser Expr :=
  P: t <- preceded (tag_no_case "TERM")
            (parenthesized (take_while (fun c => negb (Ascii.eqb c ")"%char))));
  p_ret (ECall "TERM" [efield t]).
(** 1124-1132 *)
Definition aliased_field : Parser (string * string) :=
  separated_pair field (ws (tag_no_case "AS")) (token <|> double_quoted).

(** 1388-1427 *)
Definition search_modifier : Parser Expr :=
  let m (t : string) (c : string -> SearchModifier) : Parser Expr :=
    p_map (fun s => ESearchModifier (c s)) (preceded (tag_no_case t) p_string) in
      m "sourcetype=" SMSourceType
  <|> m "host=" SMHost
  <|> m "hosttag=" SMHostTag
  <|> m "eventtype=" SMEventType
  <|> m "eventtypetag=" SMEventTypeTag
  <|> p_map (fun s => ESearchModifier (SMSavedSplunk s))
        (preceded (tag_no_case "savedsearch=" <|> tag_no_case "savedsplunk=") p_string)
  <|> m "source=" SMSource
  <|> m "splunk_server=" SMSplunkServer.

(** 1431-1475 *)
Definition time_modifier : Parser TimeModifier :=
      p_map TMStartTime (preceded (tag_no_case "starttime=") double_quoted)
  <|> p_map TMEndTime (preceded (tag_no_case "endtime=") double_quoted)
  <|> p_map TMEarliest (preceded (tag_no_case "earliest=") relative_time)
  <|> p_map TMLatest (preceded (tag_no_case "latest=") relative_time).
Definition time_format : Parser string :=
  p_map (fun o => match o with Some f => f | None => "%m/%d/%Y:%H:%M:%S."%string end)
        (opt (preceded (tag_no_case "timeformat=") double_quoted)).
Definition time_opts : Parser (list Expr) :=
  P: fmt <- time_format;
  P: mods <- space_separated_list1 time_modifier;
  p_ret (map (ETimeModifier fmt) mods).

(** 1281-1296: left fold; None only for the empty list *)
Definition combine_all_expressions (l : list Expr) (symbol : string) : option Expr :=
  match l with
  | nil => None
  | e :: l' => Some (fold_left (fun acc x => EBinary acc symbol x) l' e)
  end.
(** .unwrap() of an option inside a parser *)
Definition p_unwrap {A} (o : option A) : Parser A :=
  fun s => match o with Some a => POk s a | None => PPanic end.

(** src/commands/stats_utils.rs 87-106 *)
Definition maybe_spanned_field : Parser MaybeSpannedField :=
      p_map (fun fs => mkMSF (fst fs) (Some (snd fs)))
        (separated_pair field multispace1 (preceded (ws (tag_no_case "span=")) time_span))
  <|> p_map (fun f => mkMSF f None) field.
Definition maybe_spanned_field_list1 : Parser (list MaybeSpannedField) :=
  comma_or_space_separated_list1 maybe_spanned_field.
