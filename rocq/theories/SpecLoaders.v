(** Specification of C77 to C80: sessions with macro loaders. *)
From Coq Require Import String Ascii List Arith Bool.
Import ListNotations.
From Verif Require Import Macros Loaders.
Open Scope string_scope.
Open Scope list_scope.

(** The objects a session has made, in order *)
Definition made (h : list Event) : list Object := flat_map (fun e => match e with New o => [o] | _ => [] end) h.
(** A session as Python code can bring it about: only objects made already are used *)
Fixpoint possible (n : nat) (h : list Event) : Prop :=
  match h with
  | [] => True
  | New (OCombined ids _) :: h' => Forall (fun i => i < n) ids /\ possible (S n) h'
  | New _ :: h' => possible (S n) h'
  | Register id _ _ :: h' | Lookup id _ :: h' => id < n /\ possible n h'
  | FilesBecome _ :: h' => possible n h'
  end.
(** What a lookup made after the session does *)
Definition gives (odd : OddGlob) (h : list Event) (id : nat) (name : string) (o : Outcome) : Prop :=
  fst (lookup odd (session odd h) id name) = o.
(** The files there are after a session *)
Definition files_after (h : list Event) : Files :=
  fold_left (fun fs e => match e with FilesBecome fs' => fs' | _ => fs end) h [].

(** What a registry was told about a name, in order: when it was made, then by register *)
Definition given (items : list (string * MacroDefinition)) (id : nat) (name : string) (h : list Event) : list MacroDefinition :=
  map snd (filter (fun kv => (fst kv =? name)%string) items)
  ++ flat_map (fun e => match e with Register i n d => if Nat.eqb i id && (n =? name)%string then [d] else [] | _ => [] end) h.
Definition last_of (l : list MacroDefinition) : Outcome :=
  match rev l with d :: _ => Found d | [] => Missing end.

(** The first outcome that is not a missing key *)
Fixpoint first_of (l : list Outcome) (otherwise : Outcome) : Outcome :=
  match l with
  | [] => otherwise
  | Missing :: l' => first_of l' otherwise
  | o :: _ => o
  end.

(** An entry of the given name, at any depth below a directory *)
Definition called (root : list string) (file : string) (path : list string) : Prop :=
  exists dirs, path = root ++ dirs ++ [file].
(** What reading a macro from the files means: there must be one entry of that name, a file *)
Inductive reads (fs : Files) (root : list string) (file : string) (load : string -> Outcome) : Outcome -> Prop :=
| R_none : (forall p n, In (p, n) fs -> ~ called root file p) -> reads fs root file load Missing
| R_file : forall p c, In (p, File c) fs -> called root file p ->
    (forall p' n, In (p', n) fs -> called root file p' -> p' = p) -> reads fs root file load (load c)
| R_dir : forall p, In (p, Dir) fs -> called root file p ->
    (forall p' n, In (p', n) fs -> called root file p' -> p' = p) -> reads fs root file load Missing
| R_many : forall p p' n n', In (p, n) fs -> In (p', n') fs -> p <> p' -> called root file p -> called root file p' ->
    reads fs root file load Failed.
(** Every path is listed once, always *)
Definition listed_once (h : list Event) : Prop :=
  forall fs, In (FilesBecome fs) h -> NoDup (map fst fs).
(** Names without wildcards and slashes *)
Fixpoint simple_name (s : string) : Prop :=
  match s with
  | EmptyString => True
  | String c s' => ~ In c ["*"%char; "/"%char; "\"%char; "?"%char; "["%char] /\ simple_name s'
  end.
Definition simple_file (p : string) : Prop := simple_name p /\ ~ In p [""; "."; ".."].
