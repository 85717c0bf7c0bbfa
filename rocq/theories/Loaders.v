(** The macro loader objects of /repo/python/spl_transpiler/macros.py (26-81) as objects that
    live in a world with files: registries that are added to, folder loaders that remember what
    they read (functools.cache), and loaders that ask others.  The model of substitution itself
    is in Macros.v. *)
From Verif Require Import Str SplAst Nom Lexer Parser CmdParser Macros.
Open Scope string_scope.
Open Scope list_scope.

(** What loader[item] does: return a definition, raise KeyError, or raise something else *)
Inductive Outcome := Found (d : MacroDefinition) | Missing | Failed.

(** A file with its content, or a directory.  Simplification: no links. *)
Inductive Node := File (content : string) | Dir.
(** The file system: every path with what is there, in the order in which directories list it *)
Definition Files := list (list string * Node).

(** Path.rglob of pathlib, used in 46.  A pattern of one component is matched by entries at any
    depth below the root whose last component matches; the only wildcard macro names can
    contain is the star.  Patterns with several components, other wildcards, double stars, and
    the empty and dot patterns are left to an oracle (None: it raises). *)
Fixpoint star_match (p s : string) : bool :=
  match p with
  | EmptyString => match s with EmptyString => true | _ => false end
  | String c p' =>
      if Ascii.eqb c "*"%char then
        (fix any (s : string) : bool :=
           star_match p' s || match s with EmptyString => false | String _ s' => any s' end) s
      else match s with EmptyString => false | String c' s' => Ascii.eqb c c' && star_match p' s' end
  end.
Fixpoint below (root path : list string) : option (list string) :=
  match root, path with
  | [], _ => Some path
  | r :: root', p :: path' => if (r =? p)%string then below root' path' else None
  | _ :: _, [] => None
  end.
Definition odd_pattern (p : string) : bool :=
  existsb (fun c => has_char c p) ["/"%char; backslash; "?"%char; "["%char]
  || contains "**" p || (p =? "")%string || (p =? ".")%string || (p =? "..")%string.
Definition OddGlob := Files -> list string -> string -> option Files.
Definition rglob (odd : OddGlob) (fs : Files) (root : list string) (p : string) : option Files :=
  if odd_pattern p then odd fs root p
  else Some (filter (fun e => match below root (fst e) with
                              | Some (x :: rest) => star_match p (last rest x)
                              | _ => false
                              end) fs).

(** The objects.  26-35: a dict (last value of a key counts).  38-42: root, suffix and what
    loader and model_validate make of a file's content (57-60; an oracle).  62-67: other loaders,
    which exist already, named by their number, and the fallback (an oracle). *)
Inductive Object :=
| ORegistry (items : list (string * MacroDefinition))
| OFolder (root : list string) (suffix : string) (load : string -> Outcome)
| OCombined (loaders : list nat) (fallback : option (string -> Outcome)).

(** The table of functools.cache (44) has an entry for each loader and item that returned *)
Record World := mkWorld {
  w_files : Files; w_objects : list Object; w_cache : list ((nat * string) * MacroDefinition) }.
Fixpoint cached (c : list ((nat * string) * MacroDefinition)) (id : nat) (item : string) : option MacroDefinition :=
  match c with
  | [] => None
  | ((i, n), d) :: c' => if Nat.eqb i id && (n =? item)%string then Some d else cached c' id item
  end.
Definition remember (w : World) (id : nat) (item : string) (d : MacroDefinition) : World :=
  mkWorld (w_files w) (w_objects w) (((id, item), d) :: w_cache w).

(** 45-60, the body of FolderMacroLoader.__getitem__ *)
Definition read_folder (odd : OddGlob) (fs : Files) (root : list string) (suffix : string) (load : string -> Outcome) (item : string) : Outcome :=
  match rglob odd fs root (item ++ suffix)%string with
  | None => Failed
  | Some (_ :: _ :: _) => Failed
  | Some [] => Missing
  | Some [(_, Dir)] => Missing
  | Some [(_, File content)] => load content
  end.
(** loader[item]: 34-35; 44-60 with the cache; 69-81.  Running out of fuel is Python's
    RecursionError. *)
Fixpoint getitem (odd : OddGlob) (fuel : nat) (w : World) (id : nat) (item : string) : Outcome * World :=
  match fuel with
  | O => (Failed, w)
  | S fuel' =>
      match nth_error (w_objects w) id with
      | None => (Failed, w)
      | Some (ORegistry items) => (match registry items item with Some d => Found d | None => Missing end, w)
      | Some (OFolder root suffix load) =>
          match cached (w_cache w) id item with
          | Some d => (Found d, w)
          | None =>
              match read_folder odd (w_files w) root suffix load item with
              | Found d => (Found d, remember w id item d)
              | o => (o, w)
              end
          end
      | Some (OCombined loaders fallback) =>
          (fix ask (l : list nat) (w : World) : Outcome * World :=
             match l with
             | [] => (match fallback with Some f => f item | None => Missing end, w)
             | i :: l' =>
                 match getitem odd fuel' w i item with
                 | (Missing, w') => ask l' w'
                 | r => r
                 end
             end) loaders w
      end
  end.
Definition lookup (odd : OddGlob) (w : World) (id : nat) (item : string) : Outcome * World :=
  getitem odd (S (List.length (w_objects w))) w id item.

(** What happens in a session: objects are made (numbered in order), definitions registered
    (31-32), files change, loaders are asked *)
Inductive Event :=
| New (o : Object)
| Register (id : nat) (name : string) (d : MacroDefinition)
| FilesBecome (fs : Files)
| Lookup (id : nat) (name : string).
Fixpoint update_at (l : list Object) (id : nat) (f : Object -> Object) : list Object :=
  match l, id with
  | [], _ => []
  | o :: l', O => f o :: l'
  | o :: l', S i => o :: update_at l' i f
  end.
Definition add_item (name : string) (d : MacroDefinition) (o : Object) : Object :=
  match o with ORegistry items => ORegistry (items ++ [(name, d)]) | _ => o end.
Definition step (odd : OddGlob) (w : World) (e : Event) : World :=
  match e with
  | New o => mkWorld (w_files w) (w_objects w ++ [o]) (w_cache w)
  | Register id name d => mkWorld (w_files w) (update_at (w_objects w) id (add_item name d)) (w_cache w)
  | FilesBecome fs => mkWorld fs (w_objects w) (w_cache w)
  | Lookup id name => snd (lookup odd w id name)
  end.
Definition session (odd : OddGlob) (l : list Event) : World := fold_left (step odd) l (mkWorld [] [] []).

(** substitute_macros (84-142) with a loader object: as in Macros.v, with every definition
    asked of the object when its call is met *)
Fixpoint expand_chunks_with (odd : OddGlob) (re_sub : ReSub) (id : nat) (l : list (string * MacroCall)) (w : World) : res string * World :=
  match l with
  | [] => (Ok EmptyString, w)
  | (prefix, c) :: l' =>
      match lookup odd w id (mc_name c) with
      | (Found d, w') =>
          match expand_call re_sub (fun _ => Some d) c with
          | Ok v =>
              match expand_chunks_with odd re_sub id l' w' with
              | (Ok r, w'') => (Ok (prefix ++ v ++ r)%string, w'')
              | r => r
              end
          | Err => (Err, w')
          | Panic => (Panic, w')
          end
      | (_, w') => (Err, w')
      end
  end.
Fixpoint substitute_with (odd : OddGlob) (fuel : nat) (re_sub : ReSub) (id : nat) (code : string) (w : World) : option (res string) * World :=
  match fuel with
  | O => (None, w)
  | S f =>
      match detect_macros code with
      | None => (None, w)
      | Some (Ok cs) =>
          match expand_chunks_with odd re_sub id (fst cs) w with
          | (Ok body, w') =>
              let q := tidy (body ++ snd cs)%string in
              if (q =? code)%string then (Some (Ok q), w') else substitute_with odd f re_sub id q w'
          | (r, w') => (Some r, w')
          end
      | Some Err => (Some Err, w)
      | Some Panic => (Some Panic, w)
      end
  end.
