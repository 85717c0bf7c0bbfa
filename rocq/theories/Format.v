(** Formatting of the generated code: src/format_python.rs, and render_pyspark and
    convert_spl_to_pyspark with format_code.  Model only. *)
From Verif Require Import Str SplAst PyAst Render Functions Transpile Commands CmdParser Macros.
Open Scope string_scope.

(** What Python code of the installation does: it returns, or raises with a message *)
Inductive Call (A : Type) := Returns (a : A) | Raises (message : string).
Arguments Returns {A}. Arguments Raises {A}.
(** The installation the module runs in.  An oracle: import black, black.FileMode(), and
    the text of black.format_str(code, mode=...) for every code *)
Record Formatter := mkFormatter {
  fm_import : Call unit;
  fm_mode : Call unit;
  fm_format : string -> Call string }.

(** str::trim, for the white space among the ASCII characters.  Simplified: Rust also
    strips other Unicode white space. *)
Definition rust_space (c : ascii) : bool :=
  let n := nat_of_ascii c in (Nat.leb 9 n && Nat.leb n 13) || Nat.eqb n 32.
Definition rust_trim (s : string) : string := rstrip_by rust_space (lstrip_by rust_space s).

(** Errors as the texts they display *)
Inductive Formatting := FOk (code : string) | FErr (message : string).
(** format_python.rs 9-18 *)
Definition black_not_installed : string := "Black is not installed, please install it with `pip install black`.".
(** format_python.rs 22-40 *)
Definition format_python_code (fm : Formatter) (code : string) : Formatting :=
  match fm_import fm with
  | Raises _ => FErr black_not_installed
  | Returns _ =>
      match fm_mode fm with
      | Raises m => FErr m
      | Returns _ =>
          match fm_format fm code with
          | Raises m => FErr m
          | Returns formatted => FOk (rust_trim formatted)
          end
      end
  end.
(** format_python.rs 42-58; the log lines are not modelled *)
Definition safe_format_python_code (fm : Formatter) (code : string) : string :=
  match format_python_code fm code with
  | FOk formatted => formatted
  | FErr e => if contains "Black is not installed" e then code else code
  end.
(** src/lib.rs 36-55 *)
Definition render_pyspark_formatted (fm : Formatter) (format_code : bool) (env : Env) (p : Pipeline) : res string :=
  let? code := render_pyspark env p in
  Ok (if format_code then safe_format_python_code fm code else code).
(** python/spl_transpiler/utils.py 4-9; [None] as in [parse] *)
Definition convert_spl_to_pyspark (fm : Formatter) (format_code : bool) (env : Env) (s : string) : option (res string) :=
  option_map (fun r => rbind r (render_pyspark_formatted fm format_code env)) (parse s).
