(** Facts: the name and the arguments of a call of a library function in an expression. *)
From Coq Require Import Ascii String List.
Import ListNotations.
From Verif Require Import Str SplAst PyAst Functions Transpile PipeFacts PipeFacts SpecLacks.
Open Scope string_scope.
Open Scope list_scope.

Lemma name_written : forall f, library_name f (runtime_eval_name f).
Proof.
  intro f. unfold runtime_eval_name. destruct (existsb (String.eqb f) ["if"; "in"; "len"; "sum"; "max"; "min"]) eqn:E.
  - apply existsb_exists in E. destruct E as (g & I & E). apply String.eqb_eq in E. subst g. now apply LN_clash.
  - apply LN_same. intro I. assert (T : existsb (String.eqb f) ["if"; "in"; "len"; "sum"; "max"; "min"] = true).
    { apply existsb_exists. exists f. split; [ exact I | apply String.eqb_refl ]. }
    rewrite T in E. discriminate E.
Qed.
Lemma args_written : forall rt args a, map_args (map (fun e => (e, to_spark_expr rt e)) args) = Ok a ->
  Forall2 (fun e y => exists z, to_spark_expr rt e = Ok z /\ y = pe_unaliased z) args a.
Proof.
  intros rt args. unfold map_args. induction args as [|e args IH]; intros a E; [ injection E as <-; constructor | ].
  cbn [map] in E. rewrite rtraverse_cons in E. apply rbind_inv in E. destruct E as (y & Y & E). apply rbind_inv in E. destruct E as (l & L & E). injection E as <-.
  constructor; [ | now apply IH ]. unfold arg_expr in Y. cbn [snd] in Y. destruct (to_spark_expr rt e) as [z| |]; try discriminate Y. injection Y as <-. eauto.
Qed.
Lemma function_written : forall f args x, f <> "cidrmatch" -> to_spark_expr Require (ECall f args) = Ok x ->
  exists g a, library_name f g /\ x = PCol (CFunctionCall ("functions.eval." ++ g) a) /\
    Forall2 (fun e y => exists z, to_spark_expr Require e = Ok z /\ y = pe_unaliased z) args a.
Proof.
  intros f args x N E. cbn [to_spark_expr eval_fn] in E. unfold eval_fn_runtime in E. apply String.eqb_neq in N. rewrite N in E.
  destruct (map_args (map (fun a => (a, to_spark_expr Require a)) args)) as [a| |] eqn:A; try discriminate E. injection E as <-.
  exists (runtime_eval_name f), a. split; [ apply name_written | ]. split; [ reflexivity | now apply args_written ].
Qed.
