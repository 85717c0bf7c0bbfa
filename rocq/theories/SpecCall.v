(** Specification for the calls of the runtime library that generated code makes: which
    calls Python binds to a function's parameters, and which names a query gives as keywords. *)
From Verif Require Import Str SplAst PyAst Commands.
Open Scope list_scope.
Open Scope string_scope.

(** ** Python's rule for binding a call *)
(** A function's parameters: those that may be given by position or by name, whether any
    number of further positional arguments is taken, those that may only be given by name,
    and whether further names are taken.  The flag of a parameter says whether it has a default. *)
Record Signature := mkSignature {
  sg_params : list (string * bool);
  sg_more : bool;
  sg_only : list (string * bool);
  sg_names : bool }.
(** A call with [n] positional arguments and the keywords [kws]: no keyword twice, not too
    many positional arguments, every keyword has a parameter of its own or is one of the
    further names, and every parameter without a default is given *)
Definition accepts (sg : Signature) (n : nat) (kws : list string) : Prop :=
  NoDup kws /\
  (n <= length (sg_params sg) \/ sg_more sg = true) /\
  (forall k, In k kws ->
     In k (map fst (skipn n (sg_params sg))) \/ In k (map fst (sg_only sg)) \/
     (sg_names sg = true /\ ~ In k (map fst (sg_params sg)))) /\
  (forall p, In p (skipn n (sg_params sg)) \/ In p (sg_only sg) -> snd p = true \/ In (fst p) kws).

(** The functions of the module commands:
    /repo/python/spl_transpiler/runtime/commands/search.py 10-23, eval.py 7, fill_null.py 7-11,
    stats.py 8-13, tstats.py 25-33, data_model.py 11-19 *)
Definition signatures : list (string * Signature) :=
  [ ("search", mkSignature [("df", true)] true
       [ ("index", true); ("source", true); ("source_type", true); ("host", true); ("host_tag", true);
         ("event_type", true); ("event_type_tag", true); ("saved_splunk", true); ("splunk_server", true) ] true);
    ("eval", mkSignature [("df", false)] false [] true);
    ("fill_null", mkSignature [("df", false); ("value", false); ("fields", true)] false [] false);
    ("stats", mkSignature [("df", false)] false [("by", true)] true);
    ("tstats", mkSignature [("df", true)] false
       [ ("fill_null_value", true); ("from_", true); ("where", true); ("by", true) ] true);
    ("data_model", mkSignature
       [ ("data_model_name", false); ("dataset_name", true); ("search_mode", true); ("strict_fields", true);
         ("allow_old_summaries", true); ("summaries_only", true) ] false [] false) ].
Definition binds (f : string) (n : nat) (kws : list string) : Prop :=
  exists sg, In (f, sg) signatures /\ accepts sg n kws.

(** ** The names a command gives as keywords *)
(** The conditions a search condition joins by AND *)
Fixpoint conjuncts (e : Expr) : list Expr :=
  match e with
  | EBinary l op r => if String.eqb op "AND" then conjuncts l ++ conjuncts r else [e]
  | _ => [e]
  end.
(** Fields that describe where events come from, and the parameters of search for them *)
Definition metadata : list (string * string) :=
  [ ("index", "index"); ("source", "source"); ("sourcetype", "source_type"); ("host", "host");
    ("hosttag", "host_tag"); ("eventtype", "event_type"); ("eventtypetag", "event_type_tag");
    ("savedsplunk", "saved_splunk"); ("splunk_server", "splunk_server") ].
Definition is_equality (op : string) : Prop := op = "=" \/ op = "==".
(** The keyword a condition of a search becomes, if it does *)
Inductive keyword_of : Expr -> string -> Prop :=
| K_metadata : forall f k op r, In (f, k) metadata -> keyword_of (EBinary (ELeaf (LConstant (KField f))) op r) k
| K_field : forall f op r, ~ In f (map fst metadata) -> is_equality op ->
    keyword_of (EBinary (ELeaf (LConstant (KField f))) op r) f.
(** The label of an aggregation: its name after AS, else the function's *)
Definition label (e : Expr) : string := match e with EAlias _ n => n | ECall f _ => f | _ => "" end.

(** The names a command hands over as keywords.  Every field of a search that is compared for
    equality, every field of an eval, every label and option of stats and tstats. *)
Definition by_keyword {A} (b : option A) : list string := match b with Some _ => ["by"] | None => [] end.
Inductive keywords : Command -> list string -> Prop :=
| KW_search : forall e l, Forall2 (fun c k => match k with Some n => keyword_of c n | None => forall n, ~ keyword_of c n end)
                            (conjuncts e) l ->
    keywords (CSearch e) (List.concat (map (fun k => match k with Some n => [n] | None => [] end) l))
| KW_eval : forall l, keywords (CEval l) (map fst l)
| KW_fillnull : forall v l, keywords (CFillNull v l) ["value"; "fields"]
| KW_stats : forall o l b, keywords (CStats o l b) (by_keyword b ++ map label l)
| KW_tstats : forall o l dm nn w b bp, keywords (CTStats o l dm nn w b bp)
    (["from_"] ++ match tst_fill_null_value o with Some _ => ["fill_null_value"] | None => [] end
       ++ match w with Some _ => ["where"] | None => [] end ++ by_keyword b ++ map label l).
(** A command whose runtime call binds: it is no datamodel command and no keyword is given
    twice or is df *)
Definition well_named (c : Command) : Prop :=
  (forall d, c <> CDataModel d) /\ forall kws, keywords c kws -> NoDup kws /\ ~ In "df" kws.

(** ** What the call of search carries *)
(** The arguments of commands.search for a list of conditions: each condition is one argument,
    in the order of the query *)
Section Carries.
  (** The column a condition or a value is translated to *)
  Variable column : Expr -> PExpr -> Prop.
  Inductive carries : list Expr -> list RuntimeExpr -> list (string * RuntimeExpr) -> Prop :=
  | Ca_none : carries [] [] []
  | Ca_condition : forall e x l args kw, (forall k, ~ keyword_of e k) -> column e x -> carries l args kw ->
      carries (e :: l) (RExpr x :: args) kw
  | Ca_equal : forall f op r x l args kw, ~ In f (map fst metadata) -> is_equality op -> column r x -> carries l args kw ->
      carries (EBinary (ELeaf (LConstant (KField f))) op r :: l) args ((f, RExpr x) :: kw)
  | Ca_metadata : forall f k op v c l args kw, In (f, k) metadata -> is_equality op -> c = KField v \/ c = KStr v ->
      carries l args kw ->
      carries (EBinary (ELeaf (LConstant (KField f))) op (ELeaf (LConstant c)) :: l) args ((k, RExpr (pylit_str v)) :: kw).
End Carries.
