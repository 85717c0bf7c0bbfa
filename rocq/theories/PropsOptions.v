(** C68: options of commands. *)
From Coq Require Import String List ZArith.
Import ListNotations.
From Verif Require Import Str SplAst PyAst Functions Commands CmdParser Api SpecPipe SpecSpark SpecResult ResultFacts SpecOptions OptionFacts.
Open Scope string_scope.
Open Scope list_scope.

(** C68: a use of a command that asks for something the transpiler has no translation for
    ([asks_too_much]) makes rendering fail, wherever it stands.  Partial: not all such uses. *)
Theorem C68_unsupported_options_raise_partial : forall env p c, occurs c p -> asks_too_much c = true ->
  forall out, render_pyspark env p <> Ok out.
Proof. exact too_much_refused. Qed.
Print Assumptions C68_unsupported_options_raise_partial.
Example C68_ex : forallb (fun t => match parsed t with [_; c] => asks_too_much c | _ => false end)
  [ "index=a | rex field=x mode=sed ""s/a/b/"""; "index=a | rex max_match=2 ""(?<y>a)"""; "index=a | top useother=true x";
    "index=a | join max=2 x [search index=b]"; "index=a | join type=cross x [search index=b]";
    "index=a | sort ip(x)"; "index=a | tstats prestats=true count" ] = true.
Proof. vm_compute. reflexivity. Qed.
Example C68_nested_ex : forall out, render_pyspark (env0 Allow) (parsed "index=a | join x [search index=b | top useother=true x] | head 3") <> Ok out.
Proof.
  assert (E : parsed "index=a | join x [search index=b | top useother=true x] | head 3"
    = ltac:(let v := eval vm_compute in (parsed "index=a | join x [search index=b | top useother=true x] | head 3") in exact v)) by (vm_compute; reflexivity).
  rewrite E. eapply C68_unsupported_options_raise_partial; [ eapply OC_join; [ right; left; reflexivity | apply OC_here; right; left; reflexivity ] | reflexivity ].
Qed.
(** False: these options have no effect on the program, whatever their values. *)
Theorem C68_options_without_effect_refuted : forall env p c c' q, differs_in_option c c' ->
  render_pyspark env (p ++ c :: q) = render_pyspark env (p ++ c' :: q).
Proof. exact options_vanish. Qed.
Print Assumptions C68_options_without_effect_refuted.
Example C68_vanish_ex : Forall (fun t => match parsed (fst t), parsed (snd t) with [c], [c'] => differs_in_option c c' /\ c <> c' | _, _ => False end)
  [ ("head 3 null=true", "head 3"); ("rex offset_field=o ""(?<y>a)""", "rex ""(?<y>a)"""); ("stats allnum=true sum(x)", "stats sum(x)");
    ("fields - x", "fields x"); ("bin span=5m start=0 end=9 x", "bin span=5m x"); ("top showcount=false x", "top x") ].
Proof. repeat (apply Forall_cons; [ vm_compute; split; [ constructor | discriminate ] | ]). apply Forall_nil. Qed.
(** False: rename takes a wildcard for a name; columns that match it keep their names. *)
Theorem C68_rename_wildcard_refuted : forall sp v,
  text_gives (env0 Disallow) sp (only_main [[("xa", v)]]) "rename x* AS y*" (OFrame None [[("xa", v)]]).
Proof.
  intros. eapply text_frame; [ vm_compute; reflexivity
  | eapply frame_gives; [ vm_compute; reflexivity | vm_compute; reflexivity | intro; vm_compute; reflexivity ] ].
Qed.
Print Assumptions C68_rename_wildcard_refuted.
