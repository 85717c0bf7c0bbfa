(** Proofs about the user defined functions (Udfs.v) *)
From Coq Require Import String Ascii List ZArith Lia Bool.
Import ListNotations.
From Verif Require Import Str Macros Udfs SpecUdf SpecText.
From Verif Require TokenFacts.
Open Scope list_scope.
Open Scope string_scope.
Open Scope Z_scope.

(** ** Checks over bytes *)
Definition upto (n : nat) : list Z := map Z.of_nat (seq 0 n).
Lemma upto_in : forall n z, 0 <= z < Z.of_nat n -> In z (upto n).
Proof. intros n z H. apply in_map_iff. exists (Z.to_nat z). split; [ lia | apply in_seq; lia ]. Qed.
Lemma by_upto : forall n (f : Z -> bool), forallb f (upto n) = true -> forall z, 0 <= z < Z.of_nat n -> f z = true.
Proof. intros n f H z Hz. rewrite forallb_forall in H. apply H, upto_in, Hz. Qed.

Lemma app_assoc_s : forall a b c : string, (a ++ b) ++ c = a ++ (b ++ c).
Proof. induction a; intros; cbn; congruence. Qed.

(** ** Splitting *)
Lemma split_no : forall c p, has_char c p = false -> split_on c p = [p].
Proof.
  induction p as [|d p IH]; intro H; [ reflexivity | ]. cbn. unfold has_char, sexists in H. cbn in H.
  destruct (Ascii.eqb c d); [ discriminate H | ]. cbn in H. now rewrite IH.
Qed.
Lemma split_app : forall c p r, has_char c p = false -> split_on c (p ++ String c r) = p :: split_on c r.
Proof.
  induction p as [|d p IH]; intros r H; cbn.
  - now rewrite Ascii.eqb_refl.
  - unfold has_char, sexists in H. cbn in H. destruct (Ascii.eqb c d); [ discriminate H | ]. cbn in H. now rewrite IH.
Qed.
Lemma has_app : forall c a b, has_char c (a ++ b) = has_char c a || has_char c b.
Proof.
  unfold has_char, sexists. induction a as [|d a IH]; intro b; [ reflexivity | ]. cbn. rewrite <- !negb_orb || idtac.
  specialize (IH b). destruct (Ascii.eqb c d); cbn; auto.
Qed.

Lemma has_cons : forall c d s, has_char c (String d s) = Ascii.eqb c d || has_char c s.
Proof. intros. unfold has_char, sexists. cbn [sforall]. now rewrite negb_andb, negb_involutive. Qed.

(** ** Addresses *)
Lemma byte_octet : forall a, 0 <= a < 256 -> octet (dec a) = Some a /\ has_char "." (dec a) = false /\ has_char "/" (dec a) = false.
Proof.
  intros a H.
  pose proof (by_upto 256 (fun a => match octet (dec a) with Some b => a =? b | None => false end
                                   && negb (has_char "." (dec a)) && negb (has_char "/" (dec a))) ltac:(vm_compute; reflexivity) a ltac:(lia)) as B.
  cbv beta in B. apply andb_prop in B as [B B2]. apply andb_prop in B as [B B1].
  destruct (octet (dec a)); [ | discriminate B ]. apply Z.eqb_eq in B as <-.
  apply negb_true_iff in B1, B2. auto.
Qed.
Lemma address_read : forall s z, is_address s z -> ip4 s = Some z /\ has_char "/" s = false /\ 0 <= z < 2 ^ 32.
Proof.
  intros s z (a & b & c & d & Ha & Hb & Hc & Hd & -> & ->).
  destruct (byte_octet _ Ha) as (A1 & A2 & A3), (byte_octet _ Hb) as (B1 & B2 & B3), (byte_octet _ Hc) as (C1 & C2 & C3), (byte_octet _ Hd) as (D1 & D2 & D3).
  split; [ | split; [ | lia ] ].
  - unfold ip4. cbn [append]. rewrite (split_app "."), (split_app "."), (split_app "."), (split_no ".") by assumption.
    rewrite A1, B1, C1, D1. f_equal. lia.
  - rewrite !has_app, A3, B3, C3, D3. reflexivity.
Qed.
Lemma address_of_number : forall z, 0 <= z < 2 ^ 32 -> is_address (ip4_text z) z.
Proof.
  intros z Hz. exists (z / 2 ^ 24), (z / 2 ^ 16 mod 256), (z / 2 ^ 8 mod 256), (z mod 256).
  assert (0 <= z / 2 ^ 24 < 256) by (split; [ apply Z.div_pos; lia | apply Z.div_lt_upper_bound; lia ]).
  repeat (split; [ first [ assumption | now apply Z.mod_pos_bound ] | ]). split; [ reflexivity | ].
  replace (z / 2 ^ 24) with (z / 2 ^ 8 / 2 ^ 8 / 2 ^ 8) by (rewrite !Z.div_div by lia; reflexivity).
  replace (z / 2 ^ 16) with (z / 2 ^ 8 / 2 ^ 8) by (rewrite !Z.div_div by lia; reflexivity).
  change 256 with (2 ^ 8).
  pose proof (Z.div_mod z (2 ^ 8) ltac:(lia)). pose proof (Z.div_mod (z / 2 ^ 8) (2 ^ 8) ltac:(lia)).
  pose proof (Z.div_mod (z / 2 ^ 8 / 2 ^ 8) (2 ^ 8) ltac:(lia)). lia.
Qed.

(** ** The reading of addresses accepts nothing else *)
Lemma digit_back : forall c, is_digit c = true -> exists v, c = digit_char v /\ 0 <= v < 10.
Proof. intros c H. exists (digit_of c). destruct c as [[] [] [] [] [] [] [] []]; first [ discriminate H | split; [ reflexivity | now vm_compute ] ]. Qed.
Definition octet_ok (s : string) : bool :=
  match octet s with Some v => (0 <=? v) && (v <? 256) && String.eqb s (dec v) | None => true end.
Lemma octets_ok : forall s, sforall is_digit s = true -> (String.length s <= 3)%nat -> octet_ok s = true.
Proof.
  intros s D L.
  destruct s as [|c1 s]; [ reflexivity | ]. cbn [sforall] in D. apply andb_prop in D as [D1 D]. apply digit_back in D1 as (v1 & -> & R1).
  destruct s as [|c2 s].
  { exact (by_upto 10 (fun x => octet_ok (String (digit_char x) "")) ltac:(vm_compute; reflexivity) _ R1). }
  cbn [sforall] in D. apply andb_prop in D as [D2 D]. apply digit_back in D2 as (v2 & -> & R2).
  destruct s as [|c3 s].
  { pose proof (by_upto 10 (fun x => forallb (fun y => octet_ok (String (digit_char x) (String (digit_char y) ""))) (upto 10))
      ltac:(vm_compute; reflexivity) _ ltac:(exact R1)) as B. cbv beta in B. rewrite forallb_forall in B. apply B, upto_in, R2. }
  cbn [sforall] in D. apply andb_prop in D as [D3 D]. apply digit_back in D3 as (v3 & -> & R3).
  destruct s as [|c4 s]; [ | cbn in L; lia ].
  pose proof (by_upto 10 (fun x => forallb (fun y => forallb (fun z => octet_ok (String (digit_char x) (String (digit_char y) (String (digit_char z) "")))) (upto 10)) (upto 10))
      ltac:(vm_compute; reflexivity) _ ltac:(exact R1)) as B. cbv beta in B. rewrite forallb_forall in B. specialize (B v2 (upto_in 10 v2 R2)). rewrite forallb_forall in B. apply B, upto_in, R3.
Qed.
Lemma octet_inv : forall s v, octet s = Some v -> s = dec v /\ 0 <= v < 256.
Proof.
  intros s v H.
  assert (sforall is_digit s = true /\ (String.length s <= 3)%nat) as [D L].
  { unfold octet in H. destruct (String.eqb s ""); [ discriminate H | ]. destruct (sforall is_digit s); [ | discriminate H ].
    destruct (Z.ltb_spec 3 (Z.of_nat (String.length s))); [ discriminate H | ]. split; [ reflexivity | lia ]. }
  pose proof (octets_ok s D L) as O. unfold octet_ok in O. rewrite H in O.
  apply andb_prop in O as [O E]. apply andb_prop in O as [O1 O2]. apply String.eqb_eq in E.
  split; [ exact E | lia ].
Qed.
Lemma split_inv : forall c s, match split_on c s with
  | [] => False
  | p :: ps => s = List.fold_left (fun acc q => acc ++ String c q) ps p
  end.
Proof.
  assert (F : forall c ps x a, List.fold_left (fun acc q => acc ++ String c q) ps (String x a) = String x (List.fold_left (fun acc q => acc ++ String c q) ps a)).
  { induction ps as [|q ps IH]; intros; cbn; [ reflexivity | ]. now rewrite IH. }
  assert (G : forall c ps a, List.fold_left (fun acc q => acc ++ String c q) ps ("" ++ String c a) = String c (List.fold_left (fun acc q => acc ++ String c q) ps a)).
  { intros. cbn. apply F. }
  induction s as [|d s IH]; cbn; [ reflexivity | ].
  destruct (Ascii.eqb c d) eqn:E.
  - apply Ascii.eqb_eq in E as <-. destruct (split_on c s) as [|p ps]; [ contradiction | ]. cbn [fold_left]. now rewrite G, <- IH.
  - destruct (split_on c s) as [|p ps]; [ contradiction | ]. now rewrite F, <- IH.
Qed.
Lemma ip4_inv : forall s z, ip4 s = Some z -> is_address s z.
Proof.
  intros s z H. unfold ip4 in H. pose proof (split_inv "." s) as S.
  destruct (split_on "." s) as [|a [|b [|c [|d [|e l]]]]]; try discriminate H.
  destruct (octet a) as [va|] eqn:A; [ | discriminate H ]. destruct (octet b) as [vb|] eqn:B; [ | discriminate H ].
  destruct (octet c) as [vc|] eqn:C; [ | discriminate H ]. destruct (octet d) as [vd|] eqn:D; [ | discriminate H ].
  injection H as <-. apply octet_inv in A as [-> ?], B as [-> ?], C as [-> ?], D as [-> ?].
  exists va, vb, vc, vd. repeat (split; [ lia | ]). split; [ | lia ].
  rewrite S. cbn [fold_left]. now rewrite !app_assoc_s.
Qed.

(** ** Networks *)
Lemma mask_bits : forall n, 0 <= n <= 32 -> mask_of n = Z.shiftl (Z.ones n) (32 - n).
Proof. intros n H. apply Z.eqb_eq. apply (by_upto 33 (fun n => mask_of n =? Z.shiftl (Z.ones n) (32 - n))); [ vm_compute; reflexivity | lia ]. Qed.
Lemma land_mask : forall z n, 0 <= z < 2 ^ 32 -> 0 <= n <= 32 -> Z.land z (mask_of n) = z / 2 ^ (32 - n) * 2 ^ (32 - n).
Proof.
  intros z n Hz Hn. rewrite mask_bits by assumption.
  rewrite <- Z.shiftl_mul_pow2, <- Z.shiftr_div_pow2 by lia.
  assert (E : Z.land (Z.shiftr z (32 - n)) (Z.ones n) = Z.shiftr z (32 - n)).
  { rewrite Z.land_ones by lia. apply Z.mod_small. rewrite Z.shiftr_div_pow2 by lia. split; [ apply Z.div_pos; lia | ].
    apply Z.div_lt_upper_bound; [ lia | ]. rewrite <- Z.pow_add_r by lia. now replace (32 - n + n) with 32 by lia. }
  rewrite <- E. rewrite Z.shiftl_land.
  apply Z.bits_inj'. intros i Hi. rewrite !Z.land_spec, !Z.shiftl_spec by lia.
  destruct (Z.ltb_spec i (32 - n)).
  - rewrite !(Z.testbit_neg_r _ (i - (32 - n))) by lia. now rewrite !andb_false_r.
  - rewrite Z.shiftr_spec by lia. now replace (i - (32 - n) + (32 - n)) with i by lia.
Qed.
Lemma same_masked : forall z w n, 0 <= z < 2 ^ 32 -> 0 <= w < 2 ^ 32 -> 0 <= n <= 32 ->
  Z.land z (mask_of n) = Z.land w (mask_of n) <-> same_bits n z w.
Proof.
  intros z w n Hz Hw Hn. rewrite !land_mask by assumption. unfold same_bits.
  assert (0 < 2 ^ (32 - n)) by (apply Z.pow_pos_nonneg; lia). split; intro E; [ nia | now rewrite E ].
Qed.
Lemma bits_text : forall n, 0 <= n <= 32 -> prefix_length (dec n) = Some n /\ has_char "/" (dec n) = false.
Proof.
  intros n H.
  pose proof (by_upto 33 (fun a => match prefix_length (dec a) with Some b => a =? b | None => false end && negb (has_char "/" (dec a)))
     ltac:(vm_compute; reflexivity) n ltac:(lia)) as B.
  cbv beta in B. apply andb_prop in B as [B B1]. destruct (prefix_length (dec n)); [ | discriminate B ].
  apply Z.eqb_eq in B as <-. apply negb_true_iff in B1. auto.
Qed.
Lemma mask_text : forall n m, 0 <= n <= 32 -> is_address m (first_bits n) -> prefix_length m = Some n /\ has_char "/" m = false.
Proof.
  intros n m H A. destruct (address_read _ _ A) as (R & S & _). split; [ | exact S ]. unfold prefix_length.
  assert (sforall is_digit m = false) as ->.
  { clear R S. destruct A as (a & b & c & d & _ & _ & _ & _ & -> & _). generalize (dec b ++ "." ++ dec c ++ "." ++ dec d). intro u.
    induction (dec a) as [|x s IH]; [ reflexivity | ]. change (is_digit x && sforall is_digit (s ++ "." ++ u) = false). rewrite IH. apply andb_false_r. }
  rewrite andb_false_r, R.
  pose proof (by_upto 33 (fun n => match prefix_of_mask (first_bits n) with Some b => n =? b | None => false end)
     ltac:(vm_compute; reflexivity) n ltac:(lia)) as B. cbv beta in B.
  destruct (prefix_of_mask (first_bits n)); [ | discriminate B ]. now apply Z.eqb_eq in B as <-.
Qed.
Lemma network_read : forall t w m n, is_address t w -> prefix_length m = Some n -> has_char "/" m = false ->
  network4 (t ++ "/" ++ m) = Some (Z.land w (mask_of n), mask_of n).
Proof.
  intros t w m n A P M. destruct (address_read _ _ A) as (R & S & _). unfold network4. cbn [append].
  now rewrite (split_app "/"), (split_no "/"), R, P by assumption.
Qed.
Lemma in_network : forall v6 s z t w m n, is_address s z -> is_address t w -> 0 <= n <= 32 ->
  prefix_length m = Some n -> has_char "/" m = false ->
  cidr_match v6 (UStr s) (UStr (t ++ "/" ++ m)) = true <-> same_bits n z w.
Proof.
  intros v6 s z t w m n A B Hn P M. destruct (address_read _ _ A) as (R & _ & Z1), (address_read _ _ B) as (_ & _ & Z2).
  unfold cidr_match, address_of, network_of, ip_address, ip_network. cbn [number_of str_of].
  rewrite R, (network_read _ _ _ _ B P M), Z.eqb_eq. now apply same_masked.
Qed.
Lemma match_bits : forall v6 s z t w n, is_address s z -> is_address t w -> 0 <= n <= 32 ->
  cidr_match v6 (UStr s) (UStr (t ++ "/" ++ dec n)) = true <-> same_bits n z w.
Proof. intros. destruct (bits_text n) as [P M]; [ assumption | ]. now apply in_network. Qed.
Lemma match_mask : forall v6 s z t w n m, is_address s z -> is_address t w -> 0 <= n <= 32 -> is_address m (first_bits n) ->
  cidr_match v6 (UStr s) (UStr (t ++ "/" ++ m)) = true <-> same_bits n z w.
Proof. intros. destruct (mask_text n m) as [P M]; [ assumption .. | ]. now apply in_network. Qed.
Lemma match_one : forall v6 s z t w, is_address s z -> is_address t w -> cidr_match v6 (UStr s) (UStr t) = true <-> z = w.
Proof.
  intros v6 s z t w A B. destruct (address_read _ _ A) as (R & _ & Z1), (address_read _ _ B) as (R2 & S & Z2).
  unfold cidr_match, address_of, network_of, ip_address, ip_network, network4. cbn [number_of str_of].
  rewrite R, (split_no "/"), R2, Z.eqb_eq by assumption. rewrite same_masked by (auto; lia).
  unfold same_bits. cbn [Z.sub Z.pow]. change (2 ^ (32 - 32)) with 1. now rewrite !Z.div_1_r.
Qed.
Lemma match_numbers : forall v6 a b, cidr_match v6 (UInt a) (UInt b) = true <-> a = b /\ 0 <= a < 2 ^ 128.
Proof.
  intros v6 a b. unfold cidr_match, address_of, network_of. cbn [number_of].
  destruct (Z.leb_spec 0 a), (Z.ltb_spec a (2 ^ 32)), (Z.ltb_spec a (2 ^ 128)), (Z.leb_spec 0 b), (Z.ltb_spec b (2 ^ 32)), (Z.ltb_spec b (2 ^ 128));
    cbn [andb]; rewrite ?Z.eqb_eq; split; intros; try discriminate; lia.
Qed.
Lemma match_number_bits : forall v6 z t w n, 0 <= z < 2 ^ 32 -> is_address t w -> 0 <= n <= 32 ->
  cidr_match v6 (UInt z) (UStr (t ++ "/" ++ dec n)) = true <-> same_bits n z w.
Proof.
  intros v6 z t w n Z0 B N. destruct (bits_text n) as [P M]; [ assumption | ]. destruct (address_read _ _ B) as (_ & _ & Z2).
  unfold cidr_match, address_of, network_of, ip_network. cbn [number_of str_of].
  destruct (Z.leb_spec 0 z), (Z.ltb_spec z (2 ^ 32)); try lia. cbn [andb].
  rewrite (network_read _ _ _ _ B P M), Z.eqb_eq. now apply same_masked.
Qed.
Lemma match_only : forall v6 s c, (forall t, v6_address v6 t = None) -> cidr_match v6 (UStr s) c = true -> exists z, is_address s z.
Proof.
  intros v6 s c V H. unfold cidr_match, address_of, ip_address in H. cbn [number_of str_of] in H.
  destruct (ip4 s) eqn:E; [ eexists; eapply ip4_inv, E | ]. rewrite V in H. now destruct (has_char "/" s).
Qed.
(** A text with a slash is no address *)
Lemma slash_no : forall v6 s c, has_char "/" s = true -> cidr_match v6 (UStr s) c = false.
Proof.
  intros v6 s c S. unfold cidr_match, address_of, ip_address. cbn [number_of str_of]. rewrite S.
  destruct (ip4 s) eqn:E; [ | reflexivity ]. apply ip4_inv, address_read in E as (_ & E & _). congruence.
Qed.

(** ** ipmask *)
Lemma masked : forall s z n, is_address s z -> 0 <= n <= 32 ->
  exists t, network4 (s ++ "/" ++ dec n) = Some (z / 2 ^ (32 - n) * 2 ^ (32 - n), mask_of n) /\
    is_address t (z / 2 ^ (32 - n) * 2 ^ (32 - n)) /\ t = ip4_text (z / 2 ^ (32 - n) * 2 ^ (32 - n)).
Proof.
  intros s z n A Hn. destruct (address_read _ _ A) as (_ & _ & Z1), (bits_text n Hn) as [P M].
  rewrite (network_read _ _ _ _ A P M), land_mask by assumption. eexists. split; [ reflexivity | ]. split; [ | reflexivity ].
  apply address_of_number. assert (0 < 2 ^ (32 - n)) by (apply Z.pow_pos_nonneg; lia).
  pose proof (Z.mul_div_le z (2 ^ (32 - n))). pose proof (Z.div_pos z (2 ^ (32 - n))). nia.
Qed.
Lemma small_int : forall guess n, 0 <= n <= 32 -> py_int guess 10 (dec n) = Some n.
Proof.
  intros guess n H.
  pose proof (by_upto 33 (fun a => match py_int (fun _ => None) 10 (dec a) with Some b => a =? b | None => false end)
     ltac:(vm_compute; reflexivity) n ltac:(lia)) as B. cbv beta in B.
  change (py_int guess 10 (dec n)) with (py_int (fun _ => None) 10 (dec n)).
  destruct (py_int _ 10 (dec n)); [ | discriminate B ]. now apply Z.eqb_eq in B as <-.
Qed.
Lemma ipmask_bits : forall guess s z n, is_address s z -> 0 <= n <= 32 -> exists t,
  ipmask guess (UInt n) (UStr s) = Ok (UStr t) /\ ipmask guess (UStr (dec n)) (UStr s) = Ok (UStr t) /\
  is_address t (z / 2 ^ (32 - n) * 2 ^ (32 - n)).
Proof.
  intros guess s z n A Hn. destruct (masked s z n A Hn) as (t & N & T & ->). eexists. unfold ipmask. cbn [str_of].
  rewrite small_int, N by assumption. repeat split. exact T.
Qed.
(** A character that is no digit of the base *)
Definition no_digit_of (base : Z) (x : ascii) : Prop := base <= digit_of x /\ Ascii.eqb x "_" = false.
Lemma int_digits_no : forall base x s acc, no_digit_of base x -> has_char x s = true -> int_digits base acc s = None.
Proof.
  intros base x s. assert (forall n s acc, (String.length s <= n)%nat -> no_digit_of base x -> has_char x s = true -> int_digits base acc s = None) as G;
    [ | intros; eapply G; eauto ].
  clear s. induction n as [|n IH]; intros s acc L [B U0] H; destruct s as [|c s]; try discriminate H; cbn in L; try lia.
  assert (D : forall d, digit_of d <? base = true -> Ascii.eqb x d = false).
  { intros d Hd. destruct (Ascii.eqb_spec x d) as [<-|]; [ | reflexivity ]. lia. }
  cbn [int_digits]. rewrite has_cons in H.
  destruct (Ascii.eqb c "_") eqn:U.
  - apply Ascii.eqb_eq in U as ->. rewrite U0 in H. cbn [orb] in H.
    destruct s as [|d s]; [ discriminate H | ]. destruct (digit_of d <? base) eqn:Hd; [ | reflexivity ].
    rewrite has_cons, (D _ Hd) in H. apply IH; [ cbn in L; lia | now split | exact H ].
  - destruct (digit_of c <? base) eqn:Hc; [ | reflexivity ]. rewrite (D _ Hc) in H. apply IH; [ lia | now split | exact H ].
Qed.
Lemma int_number_no : forall base x s, no_digit_of base x -> has_char x s = true -> int_number base s = None.
Proof.
  intros base x [|c s] B H; [ reflexivity | ]. cbn [int_number]. destruct (digit_of c <? base) eqn:Hc; [ | reflexivity ].
  apply (int_digits_no _ x); [ exact B | ]. rewrite has_cons in H. destruct B as [B _].
  destruct (Ascii.eqb_spec x c) as [<-|]; [ lia | exact H ].
Qed.
Lemma digit_not_space : forall c, is_digit c = true -> py_space c = false /\ Ascii.eqb c "-" = false /\ Ascii.eqb c "+" = false.
Proof. intros c H. destruct c as [[] [] [] [] [] [] [] []]; first [ discriminate H | now repeat split ]. Qed.
Lemma strip_ends : forall f c s d, f c = false -> f d = false -> rstrip_by f (lstrip_by f (String c (s ++ String d ""))) = String c (s ++ String d "").
Proof.
  intros f c s d C D. cbn [lstrip_by]. rewrite C.
  assert (R : forall s, rstrip_by f (s ++ String d "") = s ++ String d "").
  { induction s0 as [|x s0 IH]; cbn; [ now rewrite D | ]. rewrite IH. now destruct s0. }
  cbn [rstrip_by]. rewrite R. now destruct s.
Qed.
Lemma dec_ends : forall a, 0 <= a < 256 -> exists c s, dec a = String c s /\ is_digit c = true.
Proof.
  intros a H. pose proof (by_upto 256 (fun a => match dec a with String c _ => is_digit c | _ => false end) ltac:(vm_compute; reflexivity) a ltac:(lia)) as B.
  cbv beta in B. destruct (dec a) as [|c s]; [ discriminate B | eauto ].
Qed.
Lemma dec_last : forall a, 0 <= a < 256 -> exists s c, dec a = s ++ String c "" /\ is_digit c = true.
Proof.
  intros a H. pose proof (by_upto 256 (fun a => match dec a with
      | String c "" => is_digit c | String _ (String c "") => is_digit c | String _ (String _ (String c "")) => is_digit c | _ => false end)
      ltac:(vm_compute; reflexivity) a ltac:(lia)) as B. cbv beta in B.
  destruct (dec a) as [|c1 [|c2 [|c3 [|c4 s]]]]; try discriminate B;
    [ exists "", c1 | exists (String c1 ""), c2 | exists (String c1 (String c2 "")), c3 ]; auto.
Qed.
Lemma address_no_int : forall guess m z, is_address m z -> py_int guess 10 m = None.
Proof.
  intros guess m z (a & b & c & d & Ha & Hb & Hc & Hd & -> & _).
  destruct (dec_ends a Ha) as (x & s & Ea & X), (dec_last d Hd) as (t & y & Ed & Y). rewrite Ea, Ed.
  destruct (digit_not_space x X) as (X1 & X2 & X3), (digit_not_space y Y) as (Y1 & _ & _).
  unfold py_int. cbn [Z.eqb Z.leb Z.compare]. change ((2 <=? 10) && (10 <=? 36)) with true. cbv iota.
  assert (E : py_strip (String x s ++ "." ++ dec b ++ "." ++ dec c ++ "." ++ t ++ String y "")
    = String x (s ++ "." ++ dec b ++ "." ++ dec c ++ "." ++ t ++ String y "")).
  { unfold py_strip. cbn [append].
    replace (s ++ String "." (dec b ++ String "." (dec c ++ String "." (t ++ String y ""))))
      with ((s ++ String "." (dec b ++ String "." (dec c ++ String "." t))) ++ String y "")
      by (repeat (rewrite app_assoc_s; cbn [append]); reflexivity).
    apply strip_ends; assumption. }
  change (10 =? 0) with false. cbv iota. rewrite E, X2, X3.
  unfold unsigned. destruct (too_long 10 _); [ reflexivity | ].
  assert (K : skip_prefix 10 (String x (s ++ "." ++ dec b ++ "." ++ dec c ++ "." ++ t ++ String y "")) = String x (s ++ "." ++ dec b ++ "." ++ dec c ++ "." ++ t ++ String y "")).
  { unfold skip_prefix. change (10 =? 16) with false. change (10 =? 8) with false. change (10 =? 2) with false. cbn [andb orb].
    rewrite andb_false_r. now destruct (s ++ _). }
  rewrite K. apply (int_number_no _ "."); [ now split | ].
  change (String x (s ++ ?u)) with (String x s ++ u). rewrite !has_app. change (has_char "." ".") with true. rewrite orb_true_r. reflexivity.
Qed.

Lemma ipmask_masks : forall guess m x s z, is_address m x -> is_address s z -> ipmask guess (UStr m) (UStr s) = Ok UNull.
Proof. intros guess m x s z M _. unfold ipmask. now rewrite (address_no_int guess _ _ M). Qed.

(** ** tonumber *)
Lemma digit_value_of : forall c, match digit_value c with
  | Some v => digit_of c = v /\ 0 <= v < 36 /\ Ascii.eqb c "_" = false /\ py_space c = false /\ Ascii.eqb c "-" = false /\ Ascii.eqb c "+" = false
  | None => digit_of c = 36
  end.
Proof. intro c. destruct c as [[] [] [] [] [] [] [] []]; vm_compute; repeat split; intro; discriminate. Qed.
Lemma numeral_read : forall base acc s n, numeral_from base acc s n -> int_digits base acc s = Some n.
Proof.
  induction 1 as [|acc c v s n D L _ IH]; [ reflexivity | ]. cbn [int_digits].
  pose proof (digit_value_of c) as V. rewrite D in V. destruct V as (V & R & U & _). rewrite U, V.
  destruct (Z.ltb_spec v base); [ exact IH | lia ].
Qed.
Lemma numeral_spaceless : forall base acc s n, numeral_from base acc s n -> sforall (fun c => negb (py_space c)) s = true.
Proof.
  induction 1 as [|acc c v s n D L _ IH]; [ reflexivity | ]. cbn [sforall].
  pose proof (digit_value_of c) as V. rewrite D in V. destruct V as (_ & _ & _ & V & _). now rewrite V, IH.
Qed.
Lemma rstrip_none : forall f s, sforall (fun c => negb (f c)) s = true -> rstrip_by f s = s.
Proof.
  induction s as [|c s IH]; intro H; [ reflexivity | ]. cbn [sforall] in H. apply andb_prop in H as [H1 H2]. apply negb_true_iff in H1.
  cbn [rstrip_by]. rewrite (IH H2). destruct s; [ now rewrite H1 | reflexivity ].
Qed.
Lemma strip_none : forall s, sforall (fun c => negb (py_space c)) s = true -> py_strip s = s.
Proof.
  intros s H. unfold py_strip. assert (lstrip_by py_space s = s) as ->; [ | now apply rstrip_none ].
  destruct s as [|c s]; [ reflexivity | ]. cbn [sforall] in H. apply andb_prop in H as [H _]. apply negb_true_iff in H. cbn. now rewrite H.
Qed.
Lemma prefix_numeral : forall base acc s n, numeral_from base acc s n -> skip_prefix base s = s.
Proof.
  intros base acc s n H. destruct H as [|acc c v s n D L H]; [ reflexivity | ]. destruct H as [|acc' x w s n D' L' H]; [ reflexivity | ].
  unfold skip_prefix.
  assert (forall b d y, digit_value d = Some y -> y = w -> (base =? b) && Ascii.eqb (lower_c x) (lower_c d) = true -> b <= y -> False) as K.
  { intros b d y V E B G. apply andb_prop in B as [B1 B2]. apply Z.eqb_eq in B1. lia. }
  assert (M : forall b d y, digit_value d = Some y -> b <= y -> lower_c d = d -> (base =? b) && Ascii.eqb (lower_c x) d = false).
  { intros b d y V G E. destruct (Z.eqb_spec base b) as [->|]; [ | reflexivity ]. cbn [andb].
    destruct (Ascii.eqb_spec (lower_c x) d) as [X|]; [ | reflexivity ]. exfalso.
    unfold digit_value in V, D'. rewrite E, <- X in V. rewrite V in D'. injection D' as <-. lia. }
  rewrite (M 16 "x"%char 33), (M 8 "o"%char 24), (M 2 "b"%char 11) by (reflexivity || lia).
  now rewrite andb_false_r.
Qed.
Lemma count_le : forall s, count_digits s <= Z.of_nat (String.length s).
Proof. induction s as [|c s IH]; [ cbn; lia | ]. cbn [count_digits String.length]. destruct (Ascii.eqb c "_"); lia. Qed.
Lemma not_long : forall base s, short base s -> too_long base s = false.
Proof.
  intros base s [L|H]; unfold too_long.
  - pose proof (count_le s). unfold max_digits. destruct (Z.ltb_spec 4300 (count_digits s)); [ lia | apply andb_false_r ].
  - assert (existsb (Z.eqb base) [2; 4; 8; 16; 32] = true) as ->; [ | reflexivity ].
    apply existsb_exists. exists base. now rewrite Z.eqb_refl.
Qed.
Lemma unsigned_numeral : forall base s n, short base s -> numeral base s n -> unsigned base s = Some n.
Proof.
  intros base s n L [E H]. unfold unsigned. rewrite (prefix_numeral _ _ _ _ H), not_long by exact L.
  destruct s as [|c s]; [ contradiction | ]. inversion H as [|acc c' v s' n' D G R]; subst. cbn [int_number].
  pose proof (digit_value_of c) as V. rewrite D in V. destruct V as (V & _). rewrite V.
  destruct (Z.ltb_spec v base); [ | lia ]. apply numeral_read. exact R.
Qed.
Lemma in_range : forall base, 2 <= base <= 36 -> (base =? 0) = false /\ (2 <=? base) && (base <=? 36) = true.
Proof. intros base H. split; [ apply Z.eqb_neq; lia | ]. apply andb_true_intro. split; apply Z.leb_le; lia. Qed.
Lemma tonumber_reads : forall guess base s n, 2 <= base <= 36 -> short base s -> numeral base s n ->
  tonumber guess (UStr s) base = UInt n /\ tonumber guess (UStr ("-" ++ s)) base = UInt (- n) /\ tonumber guess (UStr ("+" ++ s)) base = UInt n.
Proof.
  intros guess base s n B L N. pose proof (unsigned_numeral _ _ _ L N) as U. destruct N as [E H].
  pose proof (numeral_spaceless _ _ _ _ H) as S. destruct (in_range _ B) as [B1 B2].
  unfold tonumber, py_int. rewrite B1, B2. split; [ | split ].
  - rewrite strip_none by exact S. destruct s as [|c s]; [ contradiction | ]. inversion H as [|acc c' v s' n' D G R]; subst.
    pose proof (digit_value_of c) as V. rewrite D in V. destruct V as (_ & _ & _ & _ & V1 & V2). now rewrite V1, V2, U.
  - rewrite strip_none by exact S. cbn [append]. change (Ascii.eqb "-" "-") with true. cbv iota. now rewrite U.
  - rewrite strip_none by exact S. cbn [append]. change (Ascii.eqb "+" "-") with false. change (Ascii.eqb "+" "+") with true. cbv iota. now rewrite U.
Qed.
(** Other characters *)
Lemma lstrip_has : forall f x s, f x = false -> has_char x (lstrip_by f s) = has_char x s.
Proof.
  induction s as [|c s IH]; intro H; [ reflexivity | ]. cbn [lstrip_by]. destruct (f c) eqn:C; [ | reflexivity ].
  rewrite IH, has_cons by exact H. destruct (Ascii.eqb_spec x c) as [->|]; [ congruence | reflexivity ].
Qed.
Lemma rstrip_has : forall f x s, f x = false -> has_char x (rstrip_by f s) = has_char x s.
Proof.
  induction s as [|c s IH]; intro H; [ reflexivity | ]. cbn [rstrip_by]. rewrite has_cons, <- IH by exact H.
  destruct (rstrip_by f s) as [|d t]; [ | now rewrite has_cons ].
  destruct (f c) eqn:C; [ | now rewrite has_cons ].
  destruct (Ascii.eqb_spec x c) as [->|]; [ congruence | reflexivity ].
Qed.
Lemma tonumber_others : forall guess base s x, 2 <= base <= 36 -> has_char x s = true ->
  (forall v, digit_value x = Some v -> base <= v) -> py_space x = false -> ~ In x marks ->
  tonumber guess (UStr s) base = UNull.
Proof.
  intros guess base s x B H D S M. destruct (in_range _ B) as [B1 B2].
  assert (forall m, In m marks -> Ascii.eqb x m = false) as N.
  { intros m Hm. destruct (Ascii.eqb_spec x m) as [->|]; [ contradiction | reflexivity ]. }
  assert (no_digit_of base x) as ND.
  { split; [ | apply N; cbn; tauto ]. pose proof (digit_value_of x) as V. destruct (digit_value x) as [v|]; [ | lia ].
    destruct V as (-> & _). now apply D. }
  assert (Z0 : Ascii.eqb x "0" = false).
  { destruct (Ascii.eqb_spec x "0") as [->|]; [ | reflexivity ]. specialize (D 0 eq_refl). lia. }
  assert (U : forall t, has_char x t = true -> unsigned base t = None).
  { intros t Ht. unfold unsigned. destruct (too_long _ _); [ reflexivity | ]. apply (int_number_no _ x); [ exact ND | ].
    unfold skip_prefix. destruct t as [|z [|y t]]; try exact Ht.
    destruct (Ascii.eqb z "0" && _) eqn:C; [ | exact Ht ]. apply andb_prop in C as [C1 C2]. apply Ascii.eqb_eq in C1 as ->.
    rewrite !has_cons, Z0 in Ht. cbn [orb] in Ht.
    assert (Ascii.eqb x y = false) as E.
    { apply N. clear - C2. apply orb_prop in C2 as [C2|C2]; [ apply orb_prop in C2 as [C2|C2] | ]; apply andb_prop in C2 as [_ C2]; apply Ascii.eqb_eq in C2;
        revert C2; destruct y as [[] [] [] [] [] [] [] []]; vm_compute; intro C2; first [ discriminate C2 | tauto ]. }
    rewrite E in Ht. cbn [orb] in Ht. destruct t as [|u t]; [ exact Ht | ]. destruct (Ascii.eqb u "_") eqn:V; [ | exact Ht ].
    apply Ascii.eqb_eq in V as ->. rewrite has_cons, (N "_"%char) in Ht by (cbn; tauto). exact Ht. }
  unfold tonumber, py_int. rewrite B1, B2.
  assert (P : has_char x (py_strip s) = true) by (unfold py_strip; now rewrite rstrip_has, lstrip_has).
  destruct (py_strip s) as [|c t]; [ reflexivity | ]. pose proof P as P'. rewrite has_cons in P.
  destruct (Ascii.eqb c "-") eqn:C1.
  { apply Ascii.eqb_eq in C1 as ->. rewrite (N "-"%char) in P by (cbn; tauto). now rewrite (U t P). }
  destruct (Ascii.eqb c "+") eqn:C2.
  { apply Ascii.eqb_eq in C2 as ->. rewrite (N "+"%char) in P by (cbn; tauto). now rewrite (U t P). }
  now rewrite (U _ P').
Qed.

(** ** tostring *)
Lemma digit_char_value : forall d, 0 <= d < 36 -> digit_value (digit_char d) = Some d /\ lower_c (digit_char d) = digit_char d /\
  (digit_char d = "0"%char -> d = 0).
Proof.
  intros d H. pose proof (by_upto 36 (fun d => match digit_value (digit_char d) with Some e => d =? e | None => false end
     && Ascii.eqb (lower_c (digit_char d)) (digit_char d) && (negb (Ascii.eqb (digit_char d) "0") || (d =? 0))) ltac:(vm_compute; reflexivity) d ltac:(lia)) as B.
  cbv beta in B. apply andb_prop in B as [B B2]. apply andb_prop in B as [B B1].
  destruct (digit_value (digit_char d)); [ | discriminate B ]. apply Z.eqb_eq in B as <-. apply Ascii.eqb_eq in B1.
  split; [ reflexivity | ]. split; [ exact B1 | ]. intro E. rewrite E in B2. cbn in B2. lia.
Qed.
Lemma base_digits_ok : forall base fuel z acc n, 2 <= base <= 36 -> 0 <= z < 2 ^ Z.of_nat (S fuel) ->
  numeral_from base z acc n -> lower acc = acc ->
  let t := base_digits (S fuel) base z acc in
  numeral_from base 0 t n /\ lower t = t /\ t <> "" /\ (0 < z -> match t with String c _ => c <> "0"%char | _ => False end) /\ (z = 0 -> t = String "0" acc).
Proof.
  intros base fuel. induction fuel as [|fuel IH]; intros z acc n B Hz N L.
  - cbn [base_digits]. assert (z < base) as Hl by (change (2 ^ Z.of_nat 1) with 2 in Hz; lia).
    destruct (Z.ltb_spec z base); [ | lia ]. rewrite Z.mod_small by lia.
    destruct (digit_char_value z) as (D1 & D2 & D3); [ lia | ]. split; [ | split; [ | split; [ | split ] ] ].
    + econstructor; [ exact D1 | lia | ]. rewrite Z.mul_0_l. exact N.
    + unfold lower in *. cbn [smap]. now rewrite D2, L.
    + discriminate.
    + intros P E. apply D3 in E. lia.
    + intros ->. reflexivity.
  - cbn [base_digits]. destruct (Z.ltb_spec z base).
    + rewrite Z.mod_small by lia. destruct (digit_char_value z) as (D1 & D2 & D3); [ lia | ]. split; [ | split; [ | split; [ | split ] ] ].
      * econstructor; [ exact D1 | lia | ]. rewrite Z.mul_0_l. exact N.
      * unfold lower in *. cbn [smap]. now rewrite D2, L.
      * discriminate.
      * intros P E. apply D3 in E. lia.
      * intros ->. reflexivity.
    + pose proof (Z.mod_pos_bound z base ltac:(lia)) as M. destruct (digit_char_value (z mod base)) as (D1 & D2 & _); [ lia | ].
      assert (0 < z / base) as P by (apply Z.div_str_pos; lia).
      assert (0 <= z / base < 2 ^ Z.of_nat (S fuel)) as R.
      { split; [ lia | ]. apply Z.div_lt_upper_bound; [ lia | ]. rewrite (Nat2Z.inj_succ (S fuel)), Z.pow_succ_r in Hz by lia.
        assert (0 < 2 ^ Z.of_nat (S fuel)) by (apply Z.pow_pos_nonneg; lia). nia. }
      assert (numeral_from base (z / base) (String (digit_char (z mod base)) acc) n) as N'.
      { econstructor; [ exact D1 | lia | ]. replace (z / base * base + z mod base) with z by (pose proof (Z.div_mod z base ltac:(lia)); lia). exact N. }
      assert (lower (String (digit_char (z mod base)) acc) = String (digit_char (z mod base)) acc) as L' by (unfold lower in *; cbn [smap]; now rewrite D2, L).
      destruct (IH _ _ _ B R N' L') as (A1 & A2 & A3 & A4 & _). split; [ exact A1 | ]. split; [ exact A2 | ]. split; [ exact A3 | ]. split; [ intros _; exact (A4 P) | ]. intro; exfalso; lia.
Qed.
Lemma natural_ok : forall base z, 2 <= base <= 36 -> 0 <= z ->
  numeral base (natural base z) z /\ lower (natural base z) = natural base z /\ no_zero_first (natural base z).
Proof.
  intros base z B Hz. unfold natural, numeral.
  assert (0 <= z < 2 ^ Z.of_nat (S (Z.to_nat (Z.log2 z)))) as R.
  { split; [ lia | ]. rewrite Nat2Z.inj_succ, Z2Nat.id by apply Z.log2_nonneg.
    destruct (Z.eq_dec z 0) as [->|]; [ reflexivity | apply Z.log2_spec; lia ]. }
  destruct (base_digits_ok base _ z "" z B R (N_end base z) eq_refl) as (A1 & A2 & A3 & A4 & A5).
  repeat split; auto. destruct (Z.eq_dec z 0) as [->|].
  - rewrite A5 by reflexivity. exact I.
  - specialize (A4 ltac:(lia)). destruct (base_digits _ _ _ _) as [|c [|d t]]; cbn; auto.
Qed.
Lemma tostring_base : forall fc f base z, In (f, base) [("binary", 2); ("hex", 16)] -> 0 <= z ->
  exists t, tostring fc (UInt z) (Some f) = Ok t /\ numeral base t z /\ lower t = t /\ no_zero_first t.
Proof.
  intros fc f base z H Hz. exists (natural base z).
  destruct H as [H|[H|[]]]; injection H as <- <-; (split; [ | apply natural_ok; lia ]);
    unfold tostring; cbn [String.eqb Ascii.eqb]; unfold prefixed; (destruct (Z.ltb_spec z 0); [ lia | reflexivity ]).
Qed.
Lemma tostring_tonumber : forall fc guess f base z, In (f, base) [("binary", 2); ("hex", 16)] -> 0 <= z ->
  exists t, tostring fc (UInt z) (Some f) = Ok t /\ tonumber guess (UStr t) base = UInt z.
Proof.
  intros fc guess f base z H Hz. destruct (tostring_base fc f base z H Hz) as (t & T & N & _). exists t. split; [ exact T | ].
  apply tonumber_reads; [ destruct H as [H|[H|[]]]; injection H as <- <-; lia | | exact N ].
  right. destruct H as [H|[H|[]]]; injection H as <- <-; cbn; tauto.
Qed.
Lemma tostring_negative : forall fc guess f base mark z, In (f, base, mark) [("binary", 2, "b"); ("hex", 16, "x")] -> z < 0 ->
  exists t, tostring fc (UInt z) (Some f) = Ok (mark ++ t) /\ numeral base t (- z) /\ tonumber guess (UStr (mark ++ t)) base = UNull.
Proof.
  intros fc guess f base mark z H Hz. exists (natural base (- z)).
  destruct H as [H|[H|[]]]; injection H as <- <- <-; (split; [ | split; [ apply natural_ok; lia | ] ]);
    try (unfold tostring; cbn [String.eqb Ascii.eqb]; unfold prefixed; destruct (Z.ltb_spec z 0); [ reflexivity | lia ]).
  - destruct (natural_ok 2 (- z)) as ([_ N] & _); [ lia | lia | ]. unfold tonumber, py_int.
    rewrite strip_none by (cbn [append sforall]; now rewrite (numeral_spaceless _ _ _ _ N)). cbn [append].
    change (match unsigned 2 (String "b" (natural 2 (- z))) with Some z0 => UInt z0 | None => UNull end = UNull).
    unfold unsigned. assert (skip_prefix 2 (String "b" (natural 2 (- z))) = String "b" (natural 2 (- z))) as -> by now destruct (natural 2 (- z)).
    reflexivity.
  - destruct (natural_ok 16 (- z)) as ([_ N] & _); [ lia | lia | ]. unfold tonumber, py_int.
    rewrite strip_none by (cbn [append sforall]; now rewrite (numeral_spaceless _ _ _ _ N)). cbn [append].
    change (match unsigned 16 (String "x" (natural 16 (- z))) with Some z0 => UInt z0 | None => UNull end = UNull).
    unfold unsigned. assert (skip_prefix 16 (String "x" (natural 16 (- z))) = String "x" (natural 16 (- z))) as -> by now destruct (natural 16 (- z)).
    reflexivity.
Qed.

(** Commas *)
Lemma dec_natural : forall z, 0 <= z -> sforall is_digit (dec z) = true /\ dec z <> "".
Proof.
  intros z H. pose proof (TokenFacts.decimal_text z) as E. change (decimal z) with (dec z) in E. rewrite E.
  destruct (Z.ltb_spec z 0); [ lia | ]. cbn [append]. split; [ apply TokenFacts.uint_digits | apply TokenFacts.uint_text_nonempty, TokenFacts.to_uint_nonnil ].
Qed.
Lemma digits_no_comma : forall s, sforall is_digit s = true -> has_char "," s = false.
Proof.
  induction s as [|c s IH]; intro H; [ reflexivity | ]. cbn [sforall] in H. apply andb_prop in H as [H1 H2]. rewrite has_cons, (IH H2).
  destruct (Ascii.eqb_spec "," c) as [<-|]; [ discriminate H1 | reflexivity ].
Qed.
Lemma commas_removed : forall s, has_char "," s = false -> without_char "," (with_commas s) = s.
Proof.
  induction s as [|c s IH]; intro H; [ reflexivity | ]. rewrite has_cons in H. apply orb_false_elim in H as [H1 H2].
  cbn [with_commas]. destruct (negb _ && _); cbn [append without_char]; rewrite H1; [ | now rewrite IH ].
  change (Ascii.eqb "," ",") with true. cbv iota. now rewrite IH.
Qed.
Lemma commas_groups : forall s, s <> "" -> has_char "," s = false -> exists g gs, split_on "," (with_commas s) = g :: gs /\
  Z.of_nat (String.length g) = (Z.of_nat (String.length s) - 1) mod 3 + 1 /\ Forall (fun g => String.length g = 3%nat) gs.
Proof.
  induction s as [|c s IH]; intros E H; [ contradiction | ]. rewrite has_cons in H. apply orb_false_elim in H as [H1 H2].
  destruct s as [|d s].
  { exists (String c ""), []. cbn [with_commas String.eqb negb andb split_on]. rewrite H1. repeat split. constructor. }
  destruct (IH ltac:(discriminate) H2) as (g & gs & S & G & F). clear IH.
  remember (String d s) as t eqn:T. cbn [with_commas]. assert (String.eqb t "" = false) as -> by now subst. cbn [negb andb].
  cbn [String.length]. rewrite Nat2Z.inj_succ. set (k := Z.of_nat (String.length t)) in *.
  assert (1 <= k) by (subst; cbn [String.length] in k; lia).
  destruct (Z.eqb_spec (k mod 3) 0) as [M|M].
  - exists (String c ""), (g :: gs). cbn [append split_on]. rewrite H1. change (Ascii.eqb "," ",") with true. cbv iota. rewrite S.
    split; [ reflexivity | ]. split; [ cbn [String.length]; replace (Z.succ k - 1) with k by lia; rewrite M; reflexivity | ].
    constructor; [ | exact F ]. assert ((k - 1) mod 3 = 2); [ | lia ].
    pose proof (Z.div_mod k 3). symmetry. apply (Z.mod_unique _ _ (k / 3 - 1)); lia.
  - exists (String c g), gs. cbn [split_on]. rewrite H1, S. split; [ reflexivity | ]. split; [ | exact F ].
    cbn [String.length]. rewrite Nat2Z.inj_succ, G. replace (Z.succ k - 1) with k by lia.
    pose proof (Z.div_mod k 3 ltac:(lia)). pose proof (Z.mod_pos_bound k 3 ltac:(lia)).
    assert ((k - 1) mod 3 = k mod 3 - 1); [ | lia ]. symmetry. apply (Z.mod_unique _ _ (k / 3)); lia.
Qed.
Lemma with_commas_ok : forall z, 0 <= z -> grouped z (with_commas (dec z)).
Proof.
  intros z H. destruct (dec_natural z H) as [D E]. apply digits_no_comma in D. split; [ now apply commas_removed | ].
  destruct (commas_groups _ E D) as (g & gs & -> & G & F). split; [ | exact F ].
  pose proof (Z.mod_pos_bound (Z.of_nat (String.length (dec z)) - 1) 3). lia.
Qed.
Lemma tostring_commas : forall fc z, 0 <= z -> exists t, tostring fc (UInt z) (Some "commas") = Ok t /\ grouped z t /\
  (0 < z -> tostring fc (UInt (- z)) (Some "commas") = Ok ("-" ++ t)).
Proof.
  intros fc z H. exists (with_commas (dec z)). unfold tostring. cbn [String.eqb Ascii.eqb]. unfold commas.
  split; [ destruct (Z.ltb_spec z 0); [ lia | reflexivity ] | ]. split; [ now apply with_commas_ok | ].
  intro P. destruct (Z.ltb_spec (- z) 0); [ | lia ]. now rewrite Z.opp_involutive.
Qed.
(** Durations *)
Lemma two_digits_ok : forall z, 0 <= z -> clock_part (two_digits z) z.
Proof.
  intros z H. unfold two_digits, clock_part. destruct (Z.leb_spec 0 z); [ | lia ]. destruct (Z.ltb_spec z 10); cbn [andb]; auto.
Qed.
Lemma tostring_duration : forall fc z, 0 <= z -> exists t, tostring fc (UInt z) (Some "duration") = Ok t /\ clock t z.
Proof.
  intros fc z H. exists (duration z). split; [ reflexivity | ].
  pose proof (Z.mod_pos_bound z 3600 ltac:(lia)). pose proof (Z.mod_pos_bound (z mod 3600) 60 ltac:(lia)).
  pose proof (Z.div_mod z 3600 ltac:(lia)). pose proof (Z.div_mod (z mod 3600) 60 ltac:(lia)).
  pose proof (Z.div_pos z 3600 H ltac:(lia)).
  assert (0 <= z mod 3600 / 60 < 60) by (split; [ apply Z.div_pos; lia | apply Z.div_lt_upper_bound; lia ]).
  exists (z / 3600), (z mod 3600 / 60), (z mod 3600 mod 60). do 3 eexists.
  repeat (split; [ first [ lia | apply two_digits_ok; lia ] | ]). reflexivity.
Qed.
