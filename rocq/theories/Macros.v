(** Macro detection, /repo/src/spl/macros.rs, and macro substitution,
    /repo/python/spl_transpiler/macros.py. *)
From Verif Require Import Str SplAst Nom Lexer Parser CmdParser.

Definition backtick : ascii := "`"%char.
Definition bt : string := String backtick EmptyString.

(** macros.rs 11-19 *)
Record MacroCall := mkMacroCall {
  mc_name : string; mc_args : list (option string * string) }.

(** macros.rs 23-51 *)
Definition macro_arg (R : Recs) : Parser (option string * string) :=
  pair_ (opt (terminated token (tag "="))) (recognize (expr R)).
Definition macro_args (R : Recs) : Parser (list (option string * string)) :=
  delimited (ws (tag "(")) (separated_list0 (ws (tag ",")) (macro_arg R)) (ws (tag ")")).
Definition macro_call (R : Recs) : Parser MacroCall :=
  delimited (tag bt)
    (ws (P: name <- ws token;
         P: args <- opt (macro_args R);
         p_ret (mkMacroCall name (or_default [] args))))
    (tag bt).
Definition spl_macros (R : Recs) : Parser (list (string * MacroCall) * string) :=
  all_consuming (pair_ (many0 (pair_ (take_until_char backtick) (macro_call R)))
                       (recognize (many0 (none_of bt)))).

(** lib.rs 28-34 *)
Definition detect_macros (s : string) : option (res (list (string * MacroCall) * string)) :=
  match spl_macros (level (S (String.length s))) s with
  | POk EmptyString r => Some (Ok r)
  | POk _ _ => Some Err
  | PErr => Some Err
  | PPanic => Some Panic
  | PFuel => None
  end.

(** ** macros.py *)
(** 16-18 *)
Record MacroDefinition := mkMacro { md_arguments : list string; md_definition : string }.
(** A loader: None is a KeyError.  The loaders of 26-81 are instances. *)
Definition Macros := string -> option MacroDefinition.
(** 26-35: RegistryMacroLoader over a dict with the given items *)
Fixpoint registry (l : list (string * MacroDefinition)) : Macros :=
  fun name =>
    match l with
    | nil => None
    | (k, d) :: l' =>
        match registry l' name with
        | Some d' => Some d'
        | None => if String.eqb k name then Some d else None
        end
    end.
(** 62-81: CombinedMacroLoader *)
Fixpoint combined (loaders : list Macros) (fallback : option (string -> MacroDefinition)) : Macros :=
  fun name =>
    match loaders with
    | nil => option_map (fun f => f name) fallback
    | m :: ms => match m name with Some d => Some d | None => combined ms fallback name end
    end.

(** dict(pairs): the first position of a key, its last value *)
Fixpoint dict_set {A} (k : string) (v : A) (d : list (string * A)) : list (string * A) :=
  match d with
  | nil => [(k, v)]
  | (k', v') :: d' => if String.eqb k' k then (k, v) :: d' else (k', v') :: dict_set k v d'
  end.
Definition dict_of {A} (l : list (string * A)) : list (string * A) :=
  fold_left (fun d kv => dict_set (fst kv) (snd kv) d) l [].

(** str.strip and rstrip on Latin-1 text *)
Definition py_space (c : ascii) : bool :=
  between 9 13 c || between 28 32 c || between 133 133 c || between 160 160 c.
Fixpoint lstrip_by (f : ascii -> bool) (s : string) : string :=
  match s with
  | String c s' => if f c then lstrip_by f s' else s
  | EmptyString => EmptyString
  end.
Fixpoint rstrip_by (f : ascii -> bool) (s : string) : string :=
  match s with
  | EmptyString => EmptyString
  | String c s' =>
      match rstrip_by f s' with
      | EmptyString => if f c then EmptyString else String c EmptyString
      | t => String c t
      end
  end.
Definition is_pipe (c : ascii) : bool := Ascii.eqb c "|"%char.
(** final_query.rstrip().rstrip(pipe).strip() *)
Definition tidy (s : string) : string :=
  rstrip_by py_space (lstrip_by py_space (rstrip_by is_pipe (rstrip_by py_space s))).

(** re.sub of the pattern dollar name dollar.  For a name of letters, digits and
    underscores, and a value without backslashes, this is literal replacement;
    everything else is Python's regular expression engine, an oracle. *)
Definition plain_name (s : string) : bool := sforall (fun c => is_alnum c || Ascii.eqb c "_"%char) s.
Definition plain_value (s : string) : bool := negb (has_char backslash s).
Definition ReSub := string -> string -> string -> res string.
Definition sub_arg (re_sub : ReSub) (name value text : string) : res string :=
  if plain_name name && plain_value value
  then Ok (replace_all ("$" ++ name ++ "$")%string value text)
  else re_sub name value text.
Fixpoint sub_args (re_sub : ReSub) (args : list (string * string)) (text : string) : res string :=
  match args with
  | nil => Ok text
  | (n, v) :: args' => let? t := sub_arg re_sub n v text in sub_args re_sub args' t
  end.

Definition is_positional (a : option string * string) : bool :=
  match fst a with None => true | Some _ => false end.
(** 95-116: the arguments of a call, as the dict that is substituted *)
Definition bind_args (params : list string) (args : list (option string * string))
  : res (list (string * string)) :=
  if forallb is_positional args then
    if Nat.eqb (List.length params) (List.length args)
    then Ok (dict_of (combine params (map snd args))) else Err
  else if forallb (fun a => negb (is_positional a)) args then
    if Nat.eqb (List.length params) (List.length args)
    then Ok (dict_of (map (fun a => (or_default EmptyString (fst a), snd a)) args)) else Err
  else Err.
(** 87-121 *)
Definition expand_call (re_sub : ReSub) (macros : Macros) (c : MacroCall) : res string :=
  let? d := of_option (macros (mc_name c)) in
  match mc_args c with
  | nil => Ok (md_definition d)
  | args => let? b := bind_args (md_arguments d) args in sub_args re_sub b (md_definition d)
  end.
Fixpoint expand_chunks (re_sub : ReSub) (macros : Macros) (l : list (string * MacroCall))
  : res string :=
  match l with
  | nil => Ok EmptyString
  | (prefix, c) :: l' =>
      let? v := expand_call re_sub macros c in
      let? r := expand_chunks re_sub macros l' in
      Ok (prefix ++ v ++ r)%string
  end.
(** 84-133, one round; None is fuel exhaustion of the grammar *)
Definition substitute_once (re_sub : ReSub) (macros : Macros) (code : string)
  : option (res string) :=
  match detect_macros code with
  | None => None
  | Some r =>
      Some (let? cs := r in
            let? body := expand_chunks re_sub macros (fst cs) in
            Ok (tidy (body ++ snd cs)%string))
  end.
(** 84-142; None when the fuel (rounds) runs out *)
Fixpoint substitute_macros (fuel : nat) (re_sub : ReSub) (macros : Macros) (code : string)
  : option (res string) :=
  match fuel with
  | O => None
  | S f =>
      match substitute_once re_sub macros code with
      | None => None
      | Some (Ok q) => if String.eqb q code then Some (Ok q)
                       else substitute_macros f re_sub macros q
      | Some r => Some r
      end
  end.

(** 145-146 *)
Definition parse_with_macros (fuel : nat) (re_sub : ReSub) (macros : Macros) (code : string)
  : option (res Pipeline) :=
  match substitute_macros fuel re_sub macros code with
  | None => None
  | Some (Ok q) => parse q
  | Some Err => Some Err
  | Some Panic => Some Panic
  end.
