(** The terminal interface, /repo/python/spl_transpiler/live_translator.py, as a machine that
    takes one step for every action of the user and every message that is handled.
    Model only.  Simplified: the tree pane is the syntax tree it shows; the log is the kind of
    failure it reports, not the wording; notifications and layout are left out. *)
From Verif Require Import Str SplAst PyAst Render Functions Transpile Commands CmdParser Format.
Open Scope string_scope.

(** 173-187: what the log can say *)
Inductive Failure := ParseFailed | RenderFailed.
(** 24-139: the widgets.  [to_spl]: TextArea.Changed messages that on_update (37-40) has not handled
    yet; [to_app]: messages SplCode.Changed and Switch.Changed that the app has not handled yet. *)
Record Screen := mkScreen {
  editor : string; to_spl : nat; spl : string;
  use_runtime : bool; add_imports : bool; to_app : nat;
  pane : string; pane_marked : bool;
  tree : option Pipeline; tree_marked : bool;
  report : option Failure; clipboard : string; died : bool }.
(** 118-133: both switches are on at the start *)
Definition first_screen : Screen :=
  mkScreen "" 0 "" true true 0 "" false None false None "" false.

(** What happens: the user types (the editor now holds [text]), toggles a switch (141-145) or copies
    (147-148); or a message is handled.  [order] is the iteration order of the hash sets made
    while the message is handled. *)
Inductive Event :=
| Types (text : string) | TogglesRuntime | TogglesImports | Copies
| SplHandles | AppHandles (order : nat -> list string -> list string).

(** 188-194 *)
Definition with_imports (rt imports : bool) (code : string) : string :=
  if imports then
    join (String "010" "")
      (["from pyspark.sql import functions as F"] ++
       (if rt then ["from spl_transpiler.runtime import commands, functions"] else []) ++ [code])
  else code.
Section App.
Variable fm : Formatter.
Variable groups : string -> res (list (Z * option string)).
(** src/lib.rs 46: allow_runtime given as a boolean *)
Definition runtime_of (b : bool) : Rt := if b then Allow else Disallow.
(** 161-195: update_pyspark_code.  An exception that is not caught ends the app. *)
Definition refresh (order : nat -> list string -> list string) (x : Screen) : Screen :=
  match parse (spl x) with
  | Some Err =>
      mkScreen (editor x) (to_spl x) (spl x) (use_runtime x) (add_imports x) (to_app x)
        (pane x) (pane_marked x) (tree x) true (Some ParseFailed) (clipboard x) (died x)
  | Some (Ok ast) =>
      match render_pyspark_formatted fm true (mkEnv (runtime_of (use_runtime x)) order groups) ast with
      | Ok code =>
          mkScreen (editor x) (to_spl x) (spl x) (use_runtime x) (add_imports x) (to_app x)
            (with_imports (use_runtime x) (add_imports x) code) false (Some ast) false None (clipboard x) (died x)
      | Err =>
          mkScreen (editor x) (to_spl x) (spl x) (use_runtime x) (add_imports x) (to_app x)
            (pane x) true (Some ast) false (Some RenderFailed) (clipboard x) (died x)
      | Panic =>
          mkScreen (editor x) (to_spl x) (spl x) (use_runtime x) (add_imports x) (to_app x)
            (pane x) (pane_marked x) (Some ast) false None (clipboard x) true
      end
  | _ =>
      mkScreen (editor x) (to_spl x) (spl x) (use_runtime x) (add_imports x) (to_app x)
        (pane x) (pane_marked x) (tree x) (tree_marked x) None (clipboard x) true
  end.
Definition step (x : Screen) (e : Event) : Screen :=
  match e with
  | Types text =>
      mkScreen text (S (to_spl x)) (spl x) (use_runtime x) (add_imports x) (to_app x)
        (pane x) (pane_marked x) (tree x) (tree_marked x) (report x) (clipboard x) (died x)
  | TogglesRuntime =>
      mkScreen (editor x) (to_spl x) (spl x) (negb (use_runtime x)) (add_imports x) (S (to_app x))
        (pane x) (pane_marked x) (tree x) (tree_marked x) (report x) (clipboard x) (died x)
  | TogglesImports =>
      mkScreen (editor x) (to_spl x) (spl x) (use_runtime x) (negb (add_imports x)) (S (to_app x))
        (pane x) (pane_marked x) (tree x) (tree_marked x) (report x) (clipboard x) (died x)
  | Copies =>
      mkScreen (editor x) (to_spl x) (spl x) (use_runtime x) (add_imports x) (to_app x)
        (pane x) (pane_marked x) (tree x) (tree_marked x) (report x) (pane x) (died x)
  (* 37-40 *)
  | SplHandles =>
      match to_spl x with
      | O => x
      | S n =>
          mkScreen (editor x) n (editor x) (use_runtime x) (add_imports x) (S (to_app x))
            (pane x) (pane_marked x) (tree x) (tree_marked x) (report x) (clipboard x) (died x)
      end
  (* 155-159 *)
  | AppHandles order =>
      match to_app x with
      | O => x
      | S n =>
          refresh order
            (mkScreen (editor x) (to_spl x) (spl x) (use_runtime x) (add_imports x) n
               (pane x) (pane_marked x) (tree x) (tree_marked x) (report x) (clipboard x) (died x))
      end
  end.
(** The screen after a history *)
Definition screen_after (history : list Event) : Screen := fold_left step history first_screen.
End App.
