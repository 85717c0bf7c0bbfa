(** Options of commands.  Specification only. *)
From Verif Require Import Str SplAst.
Open Scope list_scope.

Definition is_field (e : Expr) : bool := match e with ELeaf (LConstant (KField _)) => true | _ => false end.
Definition limits_count (e : Expr) : bool :=
  match e with
  | ELeaf (LConstant (KInt _)) | EBinary _ _ _ => true
  | _ => false
  end.
Definition plain_or_aliased (f : FieldLike) : bool := match f with FLField _ | FLAliasedField _ _ => true | _ => false end.
(** Uses of commands that ask for something the transpiler has no translation for *)
Definition asks_too_much (c : Command) : bool :=
  match c with
  (* rex mode=sed, max_match other than 1 *)
  | CRex c => match rx_mode c with Some m => String.eqb m "sed" | None => false end || negb (rx_max_match c =? 1)%Z
  (* top and rare useother=true *)
  | CTop c | CRare c => tr_use_other c
  (* rename with wildcards *)
  | CRename l => negb (forallb (fun x => is_field (fst x)) l)
  (* join max other than 1, types other than inner, left, outer *)
  | CJoin o _ => negb (jo_max o =? 1)%Z || negb (existsb (String.eqb (jo_type o)) ["inner"; "left"; "outer"]%string)
  (* lookup OUTPUTNEW, wildcards *)
  | CLookup _ fields out =>
      negb (forallb plain_or_aliased fields) ||
      match out with Some (kind, l) => negb (String.eqb (upper kind) "OUTPUT" && forallb plain_or_aliased l) | None => false end
  (* sort by functions *)
  | CSort keys _ _ => negb (forallb (fun k => is_field (snd k)) keys)
  (* head by other conditions *)
  | CHead e _ _ => negb (limits_count e)
  (* regex with other comparisons *)
  | CRegex (Some (_, op)) _ => negb (String.eqb op "=" || String.eqb op "!=")
  (* tstats prestats, local, append, include_reduced_buckets *)
  | CTStats o _ _ _ _ _ _ => tst_prestats o || tst_local o || tst_append o || tst_include_reduced_buckets o
  | _ => false
  end.
(** The two commands differ in one of these options *)
Inductive differs_in_option : Command -> Command -> Prop :=
| ORexOffset : forall field max o o' mode regex,
    differs_in_option (CRex (mkRex field max o mode regex)) (CRex (mkRex field max o' mode regex))
| OHeadNull : forall e last n n', differs_in_option (CHead e last n) (CHead e last n')
| OStats : forall o o' funcs by_, differs_in_option (CStats o funcs by_) (CStats o' funcs by_)
| OTotals : forall fields row row' col col' name label_field label_field' label label',
    differs_in_option (CAddTotals (mkAddTotals fields row col name label_field label)) (CAddTotals (mkAddTotals fields row' col' name label_field' label'))
| OBin : forall f span m m' b b' s s' e e' a a', differs_in_option (CBin f (mkBinOpts span m b s e a)) (CBin f (mkBinOpts span m' b' s' e' a'))
| OJoinOverwrite : forall type_ time earlier w w' max fields p,
    differs_in_option (CJoin (mkJoin type_ time earlier w max fields) p) (CJoin (mkJoin type_ time earlier w' max fields) p)
| OFields : forall minus minus' l, differs_in_option (CFields minus l) (CFields minus' l)
| OTop : forall fields n by_ cf other other' pf show show' perc use,
    differs_in_option (CTop (mkTopRare fields n by_ cf other pf show perc use)) (CTop (mkTopRare fields n by_ cf other' pf show' perc use))
| ORare : forall fields n by_ cf other other' pf show show' perc use,
    differs_in_option (CRare (mkTopRare fields n by_ cf other pf show perc use)) (CRare (mkTopRare fields n by_ cf other' pf show' perc use)).

(** The commands that begin with options, and the options each of them has *)
Definition option_names : list (string * list string) :=
  [("addtotals", ["row"; "col"; "fieldname"; "labelfield"; "label"]);
   ("bin", ["span"; "minspan"; "bins"; "start"; "end"; "aligntime"]);
   ("bucket", ["span"; "minspan"; "bins"; "start"; "end"; "aligntime"]);
   ("collect", ["index"; "addtime"; "file"; "host"; "marker"; "output_format"; "run_in_preview"; "spool"; "source"; "sourcetype"; "testmode"]);
   ("convert", ["timeformat"]);
   ("datamodel", ["strict_fields"; "allow_old_summaries"; "summariesonly"]);
   ("eventstats", ["allnum"]);
   ("format", ["mvsep"; "maxresults"]);
   ("inputlookup", ["append"; "strict"; "start"; "max"]);
   ("join", ["type"; "usetime"; "earlier"; "overwrite"; "max"]);
   ("makeresults", ["count"; "annotate"; "splunk_server"; "splunk_server_group"]);
   ("rex", ["mode"; "field"; "max_match"; "offset_field"]);
   ("stats", ["partitions"; "allnum"; "delim"]);
   ("streamstats", ["current"; "window"]);
   ("tstats", ["prestats"; "local"; "append"; "summariesonly"; "include_reduced_buckets"; "allow_old_summaries"; "chunk_size"; "fillnull_value"])]%string.
