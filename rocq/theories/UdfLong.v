(** Facts: a network written with more than 32 bits has no version 4 address in it. *)
From Coq Require Import String Ascii List ZArith Lia Bool.
Import ListNotations.
From Verif Require Import Str Macros Udfs SpecUdf SpecText UdfFacts.
Open Scope list_scope.
Open Scope string_scope.
Open Scope Z_scope.

Lemma ten_digit : forall c v, digit_value c = Some v -> v < 10 ->
  is_digit c = true /\ Ascii.eqb "." c = false /\ Ascii.eqb "/" c = false.
Proof.
  intros c v H L. destruct c as [[] [] [] [] [] [] [] []]; vm_compute in H; try discriminate H; injection H as <-;
    first [ exfalso; lia | now repeat split ].
Qed.
Lemma ten_digits : forall acc s n, numeral_from 10 acc s n ->
  sforall is_digit s = true /\ has_char "." s = false /\ has_char "/" s = false.
Proof.
  intros acc s n H. induction H as [|acc c v s n D L H (I1 & I2 & I3)]; [ now repeat split | ].
  destruct (ten_digit _ _ D L) as (A & B & C). rewrite !has_cons, I2, I3, B, C. cbn [sforall]. now rewrite A, I1.
Qed.
Lemma int_numeral : forall s n, numeral 10 s n -> int_number 10 s = Some n.
Proof.
  intros s n [E H]. destruct s as [|c s]; [ contradiction | ]. inversion H as [|acc c' v s' n' D G R]; subst. cbn [int_number].
  pose proof (digit_value_of c) as V. rewrite D in V. destruct V as (V & _). rewrite V.
  destruct (Z.ltb_spec v 10); [ | lia ]. apply numeral_read. exact R.
Qed.
Lemma long_no : forall v6 s z t w m n, is_address s z -> is_address t w -> numeral 10 m n -> 32 < n ->
  cidr_match v6 (UStr s) (UStr (t ++ "/" ++ m)) = false.
Proof.
  intros v6 s z t w m n A B N L. destruct (address_read _ _ A) as (R & _ & _), (address_read _ _ B) as (R2 & S & _).
  pose proof (int_numeral _ _ N) as I. destruct N as [E H]. destruct (ten_digits _ _ _ H) as (D1 & D2 & D3).
  unfold cidr_match, address_of, network_of, ip_address, ip_network, network4. cbn [number_of str_of]. rewrite R. cbn [append].
  rewrite (split_app "/"), (split_no "/"), R2 by assumption.
  assert (P : prefix_length m = None).
  { unfold prefix_length, ip4. rewrite D1, I, (split_no ".") by exact D2.
    destruct (Z.leb_spec n 32); [ lia | ]. now destruct (negb _ && true). }
  rewrite P. now destruct (v6_network v6 _).
Qed.
Lemma numeral_bits : forall v6 s z t w m n, is_address s z -> is_address t w -> numeral 10 m n -> 0 <= n <= 32 ->
  cidr_match v6 (UStr s) (UStr (t ++ "/" ++ m)) = true <-> same_bits n z w.
Proof.
  intros v6 s z t w m n A B N L. pose proof (int_numeral _ _ N) as I. destruct N as [E H]. destruct (ten_digits _ _ _ H) as (D1 & D2 & D3).
  apply in_network; try assumption. unfold prefix_length. rewrite D1, I. destruct (Z.leb_spec n 32); [ | lia ].
  destruct (String.eqb_spec m ""); [ contradiction | reflexivity ].
Qed.
