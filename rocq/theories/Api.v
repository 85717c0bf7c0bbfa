(** The two calls a user makes, one after the other: parse, then render_pyspark with
    format_code=False (src/lib.rs 18-24 and 39-55).  [None] would be a parser that does not
    end; theorem C01 says it never happens. *)
From Coq Require Import String List.
From Verif Require Import Str SplAst PyAst Render Functions Transpile Commands Nom Lexer Parser CmdParser.
Definition transpile (env : Env) (s : string) : option (res string) :=
  option_map (fun r => rbind r (render_pyspark env)) (parse s).
(** An environment for examples: hash sets are walked in insertion order; no capture groups *)
Definition env0 (rt : Rt) : Env := mkEnv rt (fun _ l => l) (fun _ => Ok nil).
(** The pipeline of a text that parses *)
Definition parsed (s : string) : Pipeline := match parse s with Some (Ok p) => p | _ => nil end.
