(** Specification of written pipelines: which texts are ways to write which commands.
    Names, numbers, strings and expressions are those of SpecText and SpecExpr. *)
From Coq Require Import String Ascii List ZArith.
Import ListNotations.
From Verif Require Import SplAst SpecText SpecExpr.
From Verif Require Export SpecWhere.
Open Scope string_scope.

(** IN and a parenthesis *)
Definition starts_in (s : string) : Prop :=
  exists a b y, s = a ++ b ++ y /\ same_word a "IN" /\ spaces b /\ match y with String c _ => c = "("%char | EmptyString => True end.
(** A search term beside others: it does not begin like an operator, so that the term
    before it ends *)
Definition search_item (e : Expr) (s : string) : Prop :=
  exists t, wf t /\ writes 9 t s /\ e = meaning t /\
    match s with
    | String c _ => letter c \/ digit c \/ In c ["_"%char; "("%char; ascii_of_nat 34]
    | EmptyString => False
    end /\ ~ starts_word "AND" s /\ ~ starts_word "OR" s /\ ~ starts_in s.
Definition command_names : list string :=
  ["addtotals"; "bin"; "bucket"; "collect"; "convert"; "datamodel"; "dedup"; "eval"; "eventstats"; "fields"; "fillnull";
   "format"; "head"; "inputlookup"; "join"; "lookup"; "makeresults"; "map"; "multisearch"; "mvcombine"; "mvexpand"; "rare";
   "regex"; "rename"; "return"; "rex"; "search"; "sort"; "spath"; "stats"; "streamstats"; "table"; "tail"; "top"; "tstats"; "where"].
(** The first word is not the name of a command *)
Definition no_command (s : string) : Prop :=
  forall k a b, In k command_names -> s = a ++ b -> same_word a k -> match b with String c _ => ~ white c | EmptyString => False end.
Definition name_item (f s : string) : Prop := field_name f /\ s = f.
(** name = expression *)
Definition assign_item (a : string * Expr) (s : string) : Prop :=
  exists f t u b1 b2, field_name f /\ wf t /\ writes 9 t u /\ spaces b1 /\ spaces b2 /\
    a = (f, meaning t) /\ s = f ++ b1 ++ "=" ++ b2 ++ u.
(** A new name: a word, or a quoted text *)
Definition new_name (n s : string) : Prop := plain_ident n /\ s = n \/ plain_string n /\ s = in_quotes n.
(** old AS new *)
Definition rename_item (a : Expr * string) (s : string) : Prop :=
  exists f n u b1 b2 w, field_name f /\ new_name n u /\ blanks b1 /\ blanks b2 /\ same_word w "as" /\
    a = (ELeaf (LConstant (KField f)), n) /\ s = f ++ b1 ++ w ++ b2 ++ u.
(** A sort key: a name or a call such as num(x), with an optional sign *)
Definition sort_item (a : option string * Expr) (s : string) : Prop :=
  exists sign t, (match t with TField _ | TCall _ _ => True | _ => False end) /\ wf t /\
    (sign = "" /\ fst a = None \/ (sign = "+" \/ sign = "-") /\ fst a = Some sign) /\
    snd a = meaning t /\ s = sign ++ show t.
(** An aggregation: a call, or a word such as count, with an optional new name *)
Definition agg_item (e : Expr) (s : string) : Prop :=
  exists n args u, plain_ident n /\
    (args = [] /\ u = n \/
     exists ts, Forall wf ts /\ args = map meaning ts /\ u = n ++ "(" ++ commas (map show ts) ++ ")") /\
    (e = ECall n args /\ s = u \/
     exists new b1 b2 w, plain_ident new /\ blanks b1 /\ blanks b2 /\ same_word w "as" /\
       e = EAlias (ECall n args) new /\ s = u ++ b1 ++ w ++ b2 ++ new).
(** ** Options: key=value pairs *)
Definition listed0 {A} (sep : string -> Prop) (item : A -> string -> Prop) (l : list A) (s : string) : Prop :=
  l = [] /\ s = "" \/ listed sep item l s.
(** Two parts, each possibly missing, with white space between them *)
Definition beside (a b s : string) : Prop :=
  a = "" /\ s = b \/ b = "" /\ s = a \/ a <> "" /\ b <> "" /\ exists k, blanks k /\ s = a ++ k ++ b.
(** A field after BY, with an optional span: span= and a number with a unit of time *)
Definition by_item (f : MaybeSpannedField) (s : string) : Prop :=
  exists n, field_name n /\
    (f = mkMSF n None /\ s = n \/
     exists b w b' k u unit, blanks b /\ same_word w "span=" /\ spaces b' /\ (0 <= k < 2 ^ 63)%Z /\ In (u, unit) time_words /\
       f = mkMSF n (Some (mkTimeSpan k unit)) /\ s = n ++ b ++ w ++ b' ++ decimal k ++ u).
(** A value: a word, one of the truth values t and f, a number, a quoted text, or a number
    with a unit of time *)
Inductive value_item : Constant -> string -> Prop :=
| V_word : forall w, field_name w -> value_item (KField w) w
| V_true : value_item (KBool true) "t"
| V_false : value_item (KBool false) "f"
| V_number : forall n, int64_nonmin n -> value_item (KInt n) (decimal n)
| V_text : forall x, plain_string x -> value_item (KStr x) (in_quotes x)
| V_time : forall n w u, (0 <= n < 2 ^ 63)%Z -> In (w, u) time_words -> value_item (KTimeSpan (mkTimeSpan n u)) (decimal n ++ w).
Definition option_item (kv : string * Constant) (s : string) : Prop :=
  exists b1 b2 u, plain_ident (fst kv) /\ value_item (snd kv) u /\ spaces b1 /\ spaces b2 /\ s = fst kv ++ b1 ++ "=" ++ b2 ++ u.
(** The last value given for a key counts *)
Definition given (o : list (string * Constant)) (key : string) (v : Constant) : Prop :=
  exists a b, o = (a ++ [(key, v)] ++ b)%list /\ ~ In key (map fst b).
Definition absent (o : list (string * Constant)) (key : string) : Prop := ~ In key (map fst o).
(** The option key, with d for an option that is not given, is the truth value, number or text x *)
Definition flag (o : list (string * Constant)) (key : string) (d x : bool) : Prop :=
  absent o key /\ x = d \/ given o key (KBool x) \/ given o key (KField (if x then "true" else "false")).
Definition number (o : list (string * Constant)) (key : string) (d x : Z) : Prop :=
  absent o key /\ x = d \/ given o key (KInt x).
Definition text (o : list (string * Constant)) (key d x : string) : Prop :=
  absent o key /\ x = d \/ given o key (KField x) \/ given o key (KStr x).
Definition maybe_number (o : list (string * Constant)) (key : string) (x : option Z) : Prop :=
  absent o key /\ x = None \/ exists n, x = Some n /\ given o key (KInt n).
Definition maybe_text (o : list (string * Constant)) (key : string) (x : option string) : Prop :=
  absent o key /\ x = None \/ exists w, x = Some w /\ (given o key (KField w) \/ given o key (KStr w)).
Definition maybe_time (o : list (string * Constant)) (key : string) (x : option TimeSpan) : Prop :=
  absent o key /\ x = None \/ exists t, x = Some t /\ given o key (KTimeSpan t).
(** The options of each command and their defaults *)
Definition join_says (o : list (string * Constant)) (fs : list string) (j : JoinOpts) : Prop :=
  exists type usetime earlier overwrite max, text o "type" "inner" type /\ flag o "usetime" false usetime /\
    flag o "earlier" true earlier /\ flag o "overwrite" true overwrite /\ number o "max" 1%Z max /\
    j = mkJoin type usetime earlier overwrite max fs.
Definition stats_says (o : list (string * Constant)) (c : StatsOpts) : Prop :=
  exists partitions allnum delim, number o "partitions" 1%Z partitions /\ (0 <= partitions < 2 ^ 63)%Z /\ flag o "allnum" false allnum /\
    text o "delim" " " delim /\ c = mkStatsOpts partitions allnum delim false.
Definition addtotals_says (o : list (string * Constant)) (fs : list string) (c : AddTotals) : Prop :=
  exists row col fieldname labelfield label, flag o "row" true row /\ flag o "col" false col /\
    text o "fieldname" "Total" fieldname /\ maybe_text o "labelfield" labelfield /\ text o "label" "Total" label /\
    c = mkAddTotals fs row col fieldname labelfield label.
Definition bin_says (o : list (string * Constant)) (c : BinOpts) : Prop :=
  exists span minspan bins start end_ aligntime, maybe_time o "span" span /\ maybe_time o "minspan" minspan /\
    maybe_number o "bins" bins /\ maybe_number o "start" start /\ maybe_number o "end" end_ /\
    maybe_text o "aligntime" aligntime /\ c = mkBinOpts span minspan bins start end_ aligntime.
Definition collect_says (o : list (string * Constant)) (fs : list string) (c : Collect) : Prop :=
  exists index addtime file host marker format preview spool source sourcetype testmode,
    (given o "index" (KField index) \/ given o "index" (KStr index)) /\ flag o "addtime" true addtime /\
    maybe_text o "file" file /\ maybe_text o "host" host /\ maybe_text o "marker" marker /\
    text o "output_format" "raw" format /\ flag o "run_in_preview" false preview /\ flag o "spool" true spool /\
    maybe_text o "source" source /\ maybe_text o "sourcetype" sourcetype /\ flag o "testmode" false testmode /\
    c = mkCollect index fs addtime file host marker format preview spool source sourcetype testmode.
Definition makeresults_says (o : list (string * Constant)) (c : MakeResults) : Prop :=
  exists count annotate server group, number o "count" 1%Z count /\ flag o "annotate" false annotate /\
    text o "splunk_server" "local" server /\ maybe_text o "splunk_server_group" group /\
    c = mkMakeResults count annotate server group.
(** The word limit is reserved: it cannot be the key of an option *)
Definition toprare_says (o : list (string * Constant)) (n : option Z) (fs : list string) (by_ : option (list string)) (c : TopRare) : Prop :=
  exists countfield other percentfield showcount showperc useother, text o "countfield" "count" countfield /\
    text o "otherstr" "OTHER" other /\ text o "percentfield" "percent" percentfield /\
    flag o "showcount" true showcount /\ flag o "showperc" true showperc /\ flag o "useother" false useother /\
    c = mkTopRare fs (match n with Some k => k | None => 10%Z end) by_ countfield other percentfield showcount showperc useother.
Definition rex_says (o : list (string * Constant)) (pattern : string) (c : Rex) : Prop :=
  exists mode field maxmatch offset,
    (absent o "mode" /\ mode = None \/ mode = Some "sed" /\ exists w, same_word w "sed" /\ (given o "mode" (KField w) \/ given o "mode" (KStr w))) /\
    text o "field" "_raw" field /\ number o "max_match" 1%Z maxmatch /\ maybe_text o "offset_field" offset /\
    c = mkRex field maxmatch offset mode pattern.
Definition inputlookup_says (o : list (string * Constant)) (table : string) (c : InputLookupOpts) : Prop :=
  exists append strict start max, flag o "append" false append /\ flag o "strict" false strict /\ number o "start" 0%Z start /\
    number o "max" 1000000000%Z max /\ c = mkInputLookup append strict start max table.
Definition datamodel_says (o : list (string * Constant)) (name dataset mode : option string) (c : DataModel) : Prop :=
  exists strict old summaries, flag o "strict_fields" false strict /\ flag o "allow_old_summaries" false old /\
    flag o "summariesonly" true summaries /\ c = mkDataModel name dataset mode strict old summaries.
(** How the keywords of datamodel are written: in small letters, since anything else is a name *)
Definition mode_words : list string := ["search"; "flat"; "acceleration_search"].
Definition format_says (o : list (string * Constant)) (d : list string) (c : Format) : Prop :=
  exists mvsep maxresults a1 a2 a3 a4 a5 a6, text o "mvsep" "OR" mvsep /\ number o "maxresults" 0%Z maxresults /\
    d = [a1; a2; a3; a4; a5; a6] /\ c = mkFormat mvsep maxresults a1 a2 a3 a4 a5 a6.

(** ** Further parts of commands *)
(** word AS new *)
Definition as_part (new : option string) (s : string) : Prop :=
  new = None /\ s = "" \/
  exists n b1 w b2, plain_ident n /\ blanks b1 /\ same_word w "as" /\ blanks b2 /\ new = Some n /\ s = b1 ++ w ++ b2 ++ n.
Definition field_or_alias (f : string) (new : option string) : FieldOrAlias :=
  match new with None => FAField f | Some n => FAAlias (ELeaf (LConstant (KField f))) n end.
Definition conversion_item (c : FieldConversion) (s : string) : Prop :=
  exists b1 b2 u, plain_ident (fc_func c) /\ ~ starts_word "AS" (fc_func c) /\ field_name (fc_field c) /\ spaces b1 /\ spaces b2 /\
    as_part (fc_alias c) u /\ s = fc_func c ++ "(" ++ b1 ++ fc_field c ++ b2 ++ ")" ++ u.
(** The field of a lookup, with an optional new name; not the word OUTPUT, and no word that
    begins with AS, which would be taken for the new name of the field before it *)
Definition lookup_item (f : FieldLike) (s : string) : Prop :=
  exists n, field_name n /\ ~ same_word n "output" /\ ~ starts_word "AS" n /\
    (f = FLField n /\ s = n \/
     exists new b1 w b2, plain_ident new /\ ~ same_word new "output" /\ blanks b1 /\ same_word w "as" /\ blanks b2 /\
       f = FLAliasedField n new /\ s = n ++ b1 ++ w ++ b2 ++ new).
(** A sign and a name *)
Definition signed_item (a : option string * Expr) (s : string) : Prop :=
  exists sign n, field_name n /\ (sign = "" /\ fst a = None \/ (sign = "+" \/ sign = "-") /\ fst a = Some sign) /\
    snd a = ELeaf (LConstant (KField n)) /\ s = sign ++ n.
(** BY and names *)
Definition by_part {A} (item : A -> string -> Prop) (fs : list A) (s : string) : Prop :=
  exists b1 w b2 u, blanks b1 /\ same_word w "by" /\ blanks b2 /\ listed gap item fs u /\ s = b1 ++ w ++ b2 ++ u.
Definition maybe_by {A} (item : A -> string -> Prop) (by_ : option (list A)) (s : string) : Prop :=
  by_ = None /\ s = "" \/ exists fs, by_ = Some fs /\ by_part item fs s.
(** Quoted text taken as it stands: a backslash and the character after it belong together *)
Inductive raw : string -> Prop :=
| R_nil : raw ""
| R_char : forall c s, nat_of_ascii c <> 34 -> nat_of_ascii c <> 92 -> raw s -> raw (String c s)
| R_escaped : forall c s, raw s -> raw (String (ascii_of_nat 92) (String c s)).
Definition raw_item (x s : string) : Prop :=
  raw x /\ match x with EmptyString => False | String c _ => ~ white c end /\ s = in_quotes x.
(** A truth value after keeplast= or null= *)
Definition truth_word (x : bool) (s : string) : Prop :=
  if x then same_word s "t" \/ same_word s "true" else same_word s "f" \/ same_word s "false".
Definition count_text (n : Z) (s : string) : Prop := (0 <= n < 2 ^ 63)%Z /\ s = decimal n.
Definition maybe_count (n : option Z) (s : string) : Prop :=
  n = None /\ s = "" \/ exists k, n = Some k /\ count_text k s.
(** limit=n, or only n *)
Definition limit_text (n : Z) (s : string) : Prop :=
  count_text n s \/ exists w b u, same_word w "limit=" /\ spaces b /\ count_text n u /\ s = w ++ b ++ u.
(** How many rows sort keeps: 10000 if nothing is written *)
Definition sort_count (n : Z) (s : string) : Prop := n = 10000%Z /\ s = "" \/ exists u b, limit_text n u /\ blanks b /\ s = u ++ b.
Definition desc_part (d : bool) (s : string) : Prop :=
  d = false /\ s = "" \/ exists b w, blanks b /\ same_word w "desc" /\ d = true /\ s = b ++ w.
(** key=truth value, followed by white space: a truth value must not touch a vertical bar *)
Definition flag_part (key : string) (x : bool) (s : string) : Prop :=
  x = false /\ s = "" \/
  exists w b1 v b2, same_word w key /\ spaces b1 /\ truth_word x v /\ blanks b2 /\ s = w ++ b1 ++ v ++ b2.
(** What head counts to: a number, or a condition that begins with a name or a parenthesis *)
Definition head_part (e : Expr) (s : string) : Prop :=
  (exists n, limit_text n s /\ e = ELeaf (LConstant (KInt n))) \/
  (exists t, wf t /\ writes 9 t s /\ e = meaning t /\
     match s with String c _ => letter c \/ c = "_"%char \/ c = "("%char | EmptyString => False end /\ ~ starts_word "limit=" s).
Definition fill_value (v s : string) : Prop :=
  plain_ident v /\ s = v \/ (exists n, (0 <= n < 2 ^ 63)%Z /\ v = decimal n /\ s = v) \/ plain_string v /\ s = in_quotes v.
(** The path of spath: a name or a quoted text, with or without path= in front *)
Definition keyword_path (p s : string) : Prop := field_name p /\ s = p \/ plain_string p /\ s = in_quotes p.
Definition path_part (p s : string) : Prop := keyword_path p s \/ exists w u, same_word w "path" /\ keyword_path p u /\ s = w ++ "=" ++ u.
(** key=name and white space *)
Definition key_part (key : string) (x : option string) (s : string) : Prop :=
  x = None /\ s = "" \/ exists n w b, field_name n /\ same_word w key /\ blanks b /\ x = Some n /\ s = w ++ "=" ++ n ++ b.
(** x=y, $x or x *)
Definition return_item (f : FieldOrAlias) (s : string) : Prop :=
  exists n, field_name n /\ f = FAField n /\ s = n.
Definition return_dollar (f : FieldOrAlias) (s : string) : Prop :=
  exists n, field_name n /\ f = FAField n /\ s = "$" ++ n.
Definition return_named (f : FieldOrAlias) (s : string) : Prop :=
  exists n v b1 b2, plain_ident n /\ plain_ident v /\ spaces b1 /\ spaces b2 /\
    f = FAAlias (ELeaf (LConstant (KField v))) n /\ s = n ++ b1 ++ "=" ++ b2 ++ v.

Definition tstats_says (o : list (string * Constant)) (c : TStatsOpts) : Prop :=
  exists prestats local append summaries buckets old chunk fill, flag o "prestats" false prestats /\ flag o "local" false local /\
    flag o "append" false append /\ flag o "summariesonly" false summaries /\ flag o "include_reduced_buckets" false buckets /\
    flag o "allow_old_summaries" false old /\ number o "chunk_size" 10000000%Z chunk /\ maybe_text o "fillnull_value" fill /\
    c = mkTStatsOpts prestats local append summaries buckets old chunk fill.
(** A name with dots, such as Web.Proxy *)
Definition dotted_item (n s : string) : Prop := field_name n /\ s = n.
(** An aggregation of tstats: f(x), with no white space before the parenthesis closes, or the
    word count; with an optional new name *)
Definition tstats_item (e : Expr) (s : string) : Prop :=
  exists f args h new u,
    (plain_ident f /\ (exists x, field_name x /\ args = [ELeaf (LConstant (KField x))] /\ h = f ++ "(" ++ x ++ ")") \/
     f = "count" /\ args = [] /\ same_word h "count") /\
    as_part new u /\ e = (match new with None => ECall f args | Some n => EAlias (ECall f args) n end) /\ s = h ++ u.
(** Aggregations with white space between them.  A word after a mere count would be taken for the
    field that is counted, so that the next aggregation must then be a call. *)
Inductive tstats_list : list Expr -> string -> Prop :=
| TL_one : forall e s, tstats_item e s -> tstats_list [e] s
| TL_more : forall e s b l t, tstats_item e s -> blanks b -> tstats_list l t ->
    (same_word s "count" -> exists f y, plain_ident f /\ t = f ++ "(" ++ y) -> tstats_list (e :: l) (s ++ b ++ t).
(** FROM datamodel=name, with WHERE nodename=name *)
Definition from_part (model node : option string) (s : string) : Prop :=
  model = None /\ node = None /\ s = "" \/
  exists b1 w1 b2 w2 b3 d u, blanks b1 /\ same_word w1 "from" /\ blanks b2 /\ same_word w2 "datamodel=" /\ spaces b3 /\
    dotted_item d d /\ model = Some d /\ s = b1 ++ w1 ++ b2 ++ w2 ++ b3 ++ d ++ u /\
    (node = None /\ u = "" \/
     exists b4 w4 b5 w5 n, blanks b4 /\ same_word w4 "where" /\ blanks b5 /\ same_word w5 "nodename=" /\ dotted_item n n /\
       node = Some n /\ u = b4 ++ w4 ++ b5 ++ w5 ++ n).
(** WHERE and a condition; one that begins with nodename= would be taken for the end of FROM *)
Definition where_part (e : option Expr) (s : string) : Prop :=
  e = None /\ s = "" \/
  exists b1 w b2 c u, blanks b1 /\ same_word w "where" /\ blanks b2 /\ cond_wf c /\ cond_spells c u /\ ~ starts_word "nodename=" u /\
    e = Some (cond_meaning c) /\ s = b1 ++ w ++ b2 ++ u.

(** [spells c s]: the text s is a way to write the command c.  The name of the command
    may be in any letter case and is followed by white space; the name search may be
    left out. *)
Inductive body : string -> Command -> string -> Prop :=
| B_search : forall t s, wf t -> writes 9 t s -> body "search" (CSearch (meaning t)) s
| B_search_terms : forall l s, listed gap search_item l s -> body "search" (CSearch (joined_meaning "AND" l)) s
| B_where : forall c s, cond_wf c -> cond_spells c s -> body "where" (CWhere (cond_meaning c)) s
| B_eval : forall l s, listed (around ",") assign_item l s -> body "eval" (CEval l) s
| B_head : forall e s keep u null v t, head_part e s -> flag_part "keeplast=" keep u -> flag_part "null=" null v -> beside s (u ++ v) t ->
    body "head" (CHead e keep null) t
| B_datamodel : forall o a ns s mode u t' t c, listed0 blanks option_item o a -> listed0 blanks name_item ns s -> length ns <= 2 ->
    Forall (fun n => ~ In n mode_words) ns -> (mode = None /\ u = "" \/ In u mode_words /\ mode = Some u) -> beside s u t' -> beside a t' t ->
    datamodel_says o (nth_error ns 0) (nth_error ns 1) mode c -> body "datamodel" (CDataModel c) t
| B_format : forall o a d s t c, listed0 blanks option_item o a ->
    (d = ["("; "("; "AND"; ")"; "OR"; ")"] /\ s = "" \/ length d = 6 /\ listed spaces (fun x u => plain_string x /\ u = in_quotes x) d s) ->
    beside a s t -> format_says o d c -> body "format" (CFormat c) t
| B_tail : forall n, (0 <= n < 2 ^ 63)%Z -> body "tail" (CTail n) (decimal n)
| B_table : forall fs s, listed gap name_item fs s -> body "table" (CTable fs) s
| B_fields : forall fs s, listed gap name_item fs s -> body "fields" (CFields false fs) s
| B_fields_plus : forall fs s b, listed gap name_item fs s -> spaces b -> body "fields" (CFields false fs) ("+" ++ b ++ s)
| B_fields_minus : forall fs s b, listed gap name_item fs s -> spaces b -> body "fields" (CFields true fs) ("-" ++ b ++ s)
| B_rename : forall l s, listed (around ",") rename_item l s -> body "rename" (CRename l) s
| B_sort : forall n a l s d u, sort_count n a -> listed (around ",") sort_item l s -> desc_part d u -> body "sort" (CSort l n d) (a ++ s ++ u)
| B_stats : forall o a l s by_ u t c, listed0 blanks option_item o a -> listed (around ",") agg_item l s -> maybe_by by_item by_ u ->
    beside a (s ++ u) t -> stats_says o c -> body "stats" (CStats c l by_) t
| B_mvexpand : forall f, field_name f -> body "mvexpand" (CMvExpand f None) f
| B_mvexpand_limit : forall f b w b1 b2 n, field_name f -> blanks b -> same_word w "limit" -> spaces b1 -> spaces b2 -> (0 <= n < 2 ^ 63)%Z ->
    body "mvexpand" (CMvExpand f (Some n)) (f ++ b ++ w ++ b1 ++ "=" ++ b2 ++ decimal n)
| B_addtotals : forall o a fs s t c, listed0 blanks option_item o a -> listed0 blanks name_item fs s -> beside a s t ->
    addtotals_says o fs c -> body "addtotals" (CAddTotals c) t
| B_makeresults : forall o s c, listed0 blanks option_item o s -> makeresults_says o c -> body "makeresults" (CMakeResults c) s
| B_collect : forall o a fs s t c, listed0 blanks option_item o a -> listed0 gap name_item fs s -> beside a s t ->
    collect_says o fs c -> body "collect" (CCollect c) t
| B_convert : forall o a l s t f, listed0 blanks option_item o a -> listed0 blanks conversion_item l s -> beside a s t ->
    text o "timeformat" "%m/%d/%Y %H:%M:%S" f -> body "convert" (CConvert f l) t
| B_dedup : forall n a o b fs s d u t keepevents keepempty consecutive,
    maybe_count n a -> listed0 blanks option_item o b -> listed blanks name_item fs s -> Forall (fun f => ~ same_word f "sortby") fs ->
    (d = [(Some "+", ELeaf (LConstant (KField "_no")))] /\ u = "" \/
     exists b1 w b2 v, blanks b1 /\ same_word w "sortby" /\ blanks b2 /\ listed blanks signed_item d v /\ u = b1 ++ w ++ b2 ++ v) ->
    (exists t', beside b (s ++ u) t' /\ beside a t' t) ->
    flag o "keepevents" false keepevents -> flag o "keepempty" false keepempty -> flag o "consecutive" false consecutive ->
    body "dedup" (CDedup (match n with Some k => k | None => 1%Z end) fs keepevents keepempty consecutive d 0%Z false) t
| B_eventstats : forall o a l s by_ u t allnum, listed0 blanks option_item o a -> listed (around ",") agg_item l s -> maybe_by name_item by_ u ->
    beside a (s ++ u) t -> flag o "allnum" false allnum ->
    body "eventstats" (CEventStats allnum l (match by_ with Some fs => fs | None => [] end)) t
| B_streamstats : forall o a l s by_ u t current window, listed0 blanks option_item o a -> listed (around ",") agg_item l s -> maybe_by by_item by_ u ->
    beside a (s ++ u) t -> flag o "current" true current -> number o "window" 0%Z window ->
    body "streamstats" (CStreamStats l (match by_ with Some fs => fs | None => [] end) current window) t
| B_fillnull : forall v s, listed blanks name_item v s -> body "fillnull" (CFillNull "0" (Some v)) s
| B_fillnull_value : forall v u, fill_value v u -> body "fillnull" (CFillNull v None) ("value=" ++ u)
| B_fillnull_both : forall v u b fs s, fill_value v u -> blanks b -> listed blanks name_item fs s ->
    body "fillnull" (CFillNull v (Some fs)) ("value=" ++ u ++ b ++ s)
| B_fillnull_bare : body "fillnull" (CFillNull "0" None) ""
| B_top : forall n a o b fs s by_ u t c, maybe_count n a -> listed0 blanks option_item o b -> listed gap name_item fs s ->
    maybe_by name_item by_ u -> (exists t', beside b (s ++ u) t' /\ beside a t' t) -> toprare_says o n fs by_ c -> body "top" (CTop c) t
| B_rare : forall n a o b fs s by_ u t c, maybe_count n a -> listed0 blanks option_item o b -> listed gap name_item fs s ->
    maybe_by name_item by_ u -> (exists t', beside b (s ++ u) t' /\ beside a t' t) -> toprare_says o n fs by_ c -> body "rare" (CRare c) t
| B_regex : forall x s, raw_item x s -> body "regex" (CRegex None x) s
| B_regex_field : forall f b1 op b2 x s, field_name f -> spaces b1 -> spaces b2 -> op = "=" \/ op = "!=" -> raw_item x s ->
    body "regex" (CRegex (Some (f, op)) x) (f ++ b1 ++ op ++ b2 ++ s)
| B_rex : forall o a x s t c, listed0 blanks option_item o a -> raw_item x s -> beside a s t -> rex_says o x c -> body "rex" (CRex c) t
| B_mvcombine : forall f, field_name f -> body "mvcombine" (CMvCombine None f) f
| B_mvcombine_delim : forall w b1 b2 d b3 f, same_word w "delim" -> spaces b1 -> spaces b2 -> spaces b3 -> plain_string d -> field_name f ->
    body "mvcombine" (CMvCombine (Some d) f) (w ++ b1 ++ "=" ++ b2 ++ in_quotes d ++ b3 ++ f)
| B_lookup : forall d b fs s out u, plain_ident d -> blanks b -> listed gap lookup_item fs s ->
    (out = None /\ u = "" \/
     exists b1 w b2 gs v, blanks b1 /\ same_word w "output" /\ blanks b2 /\ listed gap lookup_item gs v /\ out = Some (w, gs) /\ u = b1 ++ w ++ b2 ++ v) ->
    body "lookup" (CLookup d fs out) (d ++ b ++ s ++ u)
| B_inputlookup : forall o a d t c, listed0 blanks option_item o a -> plain_ident d -> beside a d t -> inputlookup_says o d c ->
    body "inputlookup" (CInputLookup c None) t
| B_inputlookup_where : forall o a d b1 w b2 e s t c, listed0 blanks option_item o a -> plain_ident d -> blanks b1 -> same_word w "where" -> blanks b2 ->
    wf e -> writes 9 e s -> beside a (d ++ b1 ++ w ++ b2 ++ s) t -> inputlookup_says o d c ->
    body "inputlookup" (CInputLookup c (Some (meaning e))) t
| B_bin : forall o a f new u t c, listed0 blanks option_item o a -> field_name f -> as_part new u -> beside a (f ++ u) t -> bin_says o c ->
    body "bin" (CBin (field_or_alias f new) c) t
| B_bucket : forall o a f new u t c, listed0 blanks option_item o a -> field_name f -> as_part new u -> beside a (f ++ u) t -> bin_says o c ->
    body "bucket" (CBin (field_or_alias f new) c) t
| B_spath : forall i a o b p s, key_part "input" i a -> key_part "output" o b -> path_part p s ->
    body "spath" (CSPath (mkSPath p (match i with Some f => f | None => "_raw" end) o)) (a ++ b ++ s)
| B_return : forall n a l s t, maybe_count n a ->
    listed blanks return_item l s \/ listed blanks return_dollar l s \/ listed blanks return_named l s -> beside a s t ->
    body "return" (CReturn (match n with Some k => k | None => 1%Z end) l) t
| B_join : forall o a fs s b1 b2 p t b3 u j, listed0 blanks option_item o a -> listed gap name_item fs s -> spaces b1 -> spaces b2 -> spaces b3 ->
    spells_all p t -> beside a (s ++ b1 ++ "[" ++ b2 ++ t ++ b3 ++ "]") u -> join_says o fs j -> body "join" (CJoin j p) u
| B_multisearch : forall ps s, spells_subs ps s -> length ps >= 2 -> body "multisearch" (CMultiSearch ps) s
| B_tstats : forall o a l s model node f e g by_ u t c, listed0 blanks option_item o a -> tstats_list l s -> from_part model node f ->
    where_part e g -> maybe_by by_item by_ u -> beside a (s ++ f ++ g ++ u) t -> tstats_says o c ->
    body "tstats" (CTStats c l model node e by_ None) t
(* the search is quoted: a backslash stands before each quote and backslash of its text *)
| B_map : forall w b1 b2 lead p t trail k o a n, same_word w "search" -> spaces b1 -> spaces b2 -> spaces lead \/ around "|" lead -> spells_all p t ->
    spaces trail -> listed0 blanks option_item o a -> spaces k -> (a = "" -> k = "") -> number o "maxsearches" 10%Z n ->
    body "map" (CMap p n) (w ++ b1 ++ "=" ++ b2 ++ in_quotes (escape (lead ++ t ++ trail)) ++ k ++ a)
with spells : Command -> string -> Prop :=
| S_command : forall k w b c s, same_word w k -> blanks b -> body k c s -> spells c (w ++ b ++ s)
(* search may be left out *)
| S_search : forall c s, body "search" c s -> no_command s -> spells c s
with spells_all : list Command -> string -> Prop :=
| S_one : forall c s, spells c s -> spells_all [c] s
| S_more : forall c s b p t, spells c s -> around "|" b -> spells_all p t -> spells_all (c :: p) (s ++ b ++ t)
with spells_subs : list (list Command) -> string -> Prop :=
| SS_one : forall p b1 t b2, spaces b1 -> spaces b2 -> spells_all p t -> spells_subs [p] ("[" ++ b1 ++ t ++ b2 ++ "]")
| SS_more : forall p b1 t b2 b ps s, spaces b1 -> spaces b2 -> spells_all p t -> spaces b -> spells_subs ps s ->
    spells_subs (p :: ps) ("[" ++ b1 ++ t ++ b2 ++ "]" ++ b ++ s).

(** A whole text: white space may follow, and a command that needs no arguments may end the
    text with its name. *)
Inductive spells_text : list Command -> string -> Prop :=
| W_all : forall p s trail, spells_all p s -> spaces trail -> spells_text p (s ++ trail)
| W_bare : forall k w c, same_word w k -> body k c "" -> spells_text [c] w
| W_more : forall c s b p t, spells c s -> around "|" b -> spells_text p t -> spells_text (c :: p) (s ++ b ++ t).
