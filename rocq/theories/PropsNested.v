(** C19: a frame command between two commands that are handed to the library. *)
From Coq Require Import String Ascii List ZArith.
Import ListNotations.
From Verif Require Import Str SplAst PyAst Functions Transpile Render Commands Api SpecPipe SpecAfter NestedFacts.
Open Scope string_scope.
Open Scope list_scope.

(** Whatever comes before, and whatever follows that goes on from there, the text is never a
    list of assignments and an expression: an assignment stands inside the arguments of a call. *)
Theorem C19_frames_between_calls_refuted : forall env p c1 c2 c3 q d,
  handed_over (env_rt env) c1 -> method_command c2 -> handed_over (env_rt env) c3 ->
  (forall c, In c q -> ~ starts_over c) ->
  transform_pipeline env (p ++ c1 :: c2 :: c3 :: q) = Ok (Some d) -> ~ statements (frags d).
Proof. exact call_method_call. Qed.
Print Assumptions C19_frames_between_calls_refuted.
Example C19_between_ex : exists d p c1 c2 c3 q, parsed "search x=1 | eval a=1 | where a>0 | stats count by a | head 5 | eval z=2" = p ++ c1 :: c2 :: c3 :: q
  /\ handed_over Allow c1 /\ method_command c2 /\ handed_over Allow c3 /\ (forall c, In c q -> ~ starts_over c)
  /\ transform_pipeline (env0 Allow) (p ++ c1 :: c2 :: c3 :: q) = Ok (Some d).
Proof.
  eexists _, [_], _, _, _, [_; _]. split; [ vm_compute; reflexivity | ]. split; [ discriminate | ]. split; [ exact I | ]. split; [ discriminate | ].
  split; [ intros c [<-|[<-|[]]] []; fail | vm_compute; reflexivity ].
Qed.
