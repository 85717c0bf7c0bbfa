(** C58: rendering a parsed query gives code or an error, never a panic *)
From Coq Require Import String List ZArith Permutation.
From Verif Require Import Str SplAst Functions Commands CmdParser Api SpecResult PanicFacts.
Open Scope string_scope.

(** C58.  For every text, every library choice, every order in which hash sets are walked and
    every behaviour of the regular expression reader that does not itself panic: the two calls
    end in an error or in code. *)
Theorem C58_text_gives_code_or_error : forall (env : Env) (text : string),
  walks_sets env -> (forall regex, env_groups env regex <> Panic) ->
  transpile env text = Some Err \/ exists code : string, transpile env text = Some (Ok code).
Proof. exact transpile_no_panic. Qed.
Print Assumptions C58_text_gives_code_or_error.

Theorem C58_render_does_not_panic : forall (env : Env) (text : string) (p : Pipeline),
  walks_sets env -> (forall regex, env_groups env regex <> Panic) ->
  parse text = Some (Ok p) -> render_pyspark env p <> Panic.
Proof. exact render_no_panic. Qed.
Print Assumptions C58_render_does_not_panic.

Example C58_both_outcomes : forall rt,
  (walks_sets (env0 rt) /\ forall regex, env_groups (env0 rt) regex <> Panic) /\
  transpile (env0 Disallow) "index=a | join k [search index=b] | multisearch [search x=1] [search y=2]" <> Some Err /\
  transpile (env0 Disallow) "index=a | dedup x" = Some Err.
Proof. intro rt. split; [ split; [ intros i l; apply Permutation_refl | discriminate ] | ]. vm_compute. split; [ discriminate | reflexivity ]. Qed.
(** The bound to parsed texts matters: a join built by hand with no fields does panic, and the
    parser never yields one. *)
Example C58_not_of_every_tree :
  render_pyspark (env0 Disallow) [CSearch (ELeaf (LConstant (KField "x"))); CJoin (mkJoin "inner" false true true 1 []) [CSearch (ELeaf (LConstant (KField "x")))]] = Panic.
Proof. vm_compute. reflexivity. Qed.
