(** C70-C73: the user defined functions of the runtime library, spl_transpiler.runtime.udfs.
    See SpecUdf.v for addresses and numerals, Udfs.v for the functions. *)
From Coq Require Import String Ascii List ZArith.
Import ListNotations.
From Verif Require Import Str PyAst Macros Functions Transpile Commands Api Udfs SpecUdf SpecSpark SpecRows SpecCommands SpecResult SpecRuntime RuntimeRuns UdfFacts UdfNumbers UdfLong.
Open Scope list_scope.
Open Scope string_scope.
Open Scope Z_scope.

(** C70: cidr_match(ip, network) tells whether the address is in the network: the first [n] bits
    are those of the address of the network, for every address, network and length, whatever
    version 6 texts are.  The network may be written with a number of bits or with a mask. *)
Theorem C70_addresses_in_networks : forall v6 s z t w n, is_address s z -> is_address t w -> 0 <= n <= 32 ->
  cidr_match v6 (UStr s) (UStr (t ++ "/" ++ dec n)) = true <-> same_bits n z w.
Proof. exact match_bits. Qed.
Print Assumptions C70_addresses_in_networks.
Theorem C70_networks_with_masks : forall v6 s z t w n m, is_address s z -> is_address t w -> 0 <= n <= 32 ->
  is_address m (first_bits n) -> cidr_match v6 (UStr s) (UStr (t ++ "/" ++ m)) = true <-> same_bits n z w.
Proof. exact match_mask. Qed.
Print Assumptions C70_networks_with_masks.
Theorem C70_single_addresses : forall v6 s z t w, is_address s z -> is_address t w ->
  cidr_match v6 (UStr s) (UStr t) = true <-> z = w.
Proof. exact match_one. Qed.
Print Assumptions C70_single_addresses.
(** Whole numbers are the addresses of these numbers, of version 4 below 2^32 and of version 6 above *)
Theorem C70_numbers_are_addresses : forall v6 a b, cidr_match v6 (UInt a) (UInt b) = true <-> a = b /\ 0 <= a < 2 ^ 128.
Proof. exact match_numbers. Qed.
Print Assumptions C70_numbers_are_addresses.
Theorem C70_numbers_in_networks : forall v6 z t w n, 0 <= z < 2 ^ 32 -> is_address t w -> 0 <= n <= 32 ->
  cidr_match v6 (UInt z) (UStr (t ++ "/" ++ dec n)) = true <-> same_bits n z w.
Proof. exact match_number_bits. Qed.
Print Assumptions C70_numbers_in_networks.
(** The number of bits may be written with zeros before it; above 32 nothing matches *)
Theorem C70_lengths_of_any_spelling : forall v6 s z t w m n, is_address s z -> is_address t w -> numeral 10 m n -> 0 <= n <= 32 ->
  cidr_match v6 (UStr s) (UStr (t ++ "/" ++ m)) = true <-> same_bits n z w.
Proof. exact numeral_bits. Qed.
Print Assumptions C70_lengths_of_any_spelling.
Theorem C70_longer_lengths_match_nothing : forall v6 s z t w m n, is_address s z -> is_address t w -> numeral 10 m n -> 32 < n ->
  cidr_match v6 (UStr s) (UStr (t ++ "/" ++ m)) = false.
Proof. exact long_no. Qed.
Print Assumptions C70_longer_lengths_match_nothing.
Example C70_lengths_ex : numeral 10 "008" 8 /\ numeral 10 "33" 33.
Proof. split; (split; [ discriminate | ]); repeat (eapply N_digit; [ vm_compute; reflexivity | reflexivity | cbn ]); apply N_end. Qed.
(** Nothing else matches, if no text is read as a version 6 address *)
Theorem C70_only_addresses_match : forall v6 s c, (forall t, v6_address v6 t = None) ->
  cidr_match v6 (UStr s) c = true -> exists z, is_address s z.
Proof. exact match_only. Qed.
Print Assumptions C70_only_addresses_match.
Example C70_ex : is_address "10.1.2.3" 167838211 /\ is_address "10.0.0.0" 167772160 /\ is_address "255.128.0.0" (first_bits 9)
  /\ same_bits 8 167838211 167772160 /\ ~ same_bits 16 167838211 167772160.
Proof.
  split; [ exists 10, 1, 2, 3 | split; [ exists 10, 0, 0, 0 | split; [ exists 255, 128, 0, 0 | split; [ reflexivity | discriminate ] ] ] ];
    repeat (split; [ split; [ now compute | now compute ] | ]); (split; [ reflexivity | reflexivity ]).
Qed.
(** The query function cidrmatch(network, ip) does not do this with the runtime: the library hands
    its arguments to cidr_match in the wrong order, so that no network written with a slash has
    any address in it; and a network written in the query as a text is taken for the name of a
    column (a real Spark refuses a column that does not exist; here it is null).  [ships]: Spark calls the library's function. *)
Definition udf_value (v : Val) : UVal :=
  match v with SNull => UNull | SBool b => UBool b | SInt z => UInt z | SNum t => UFloat t | SStr s => UStr s end.
Definition ships (v6 : V6) (sp : Spark) : Prop :=
  forall a b, sp_fn sp "udfs.cidr_match" [AVal a; AVal b] = SBool (cidr_match v6 (udf_value a) (udf_value b)).
Theorem C70_library_swaps_arguments_refuted : forall v6 sp types net ip, ships v6 sp -> has_char "/" net = true ->
  lib_text_gives (env0 Allow) sp (only_main [[("net", SStr net); ("ip", SStr ip)]]) types "head 5 | eval m=cidrmatch(net, ip)"
    (OFrame None [[("net", SStr net); ("ip", SStr ip); ("m", SBool false)]]).
Proof.
  intros v6 sp types net ip S H.
  replace (SBool false) with (sp_fn sp "udfs.cidr_match" [AVal (SStr net); AVal (SStr ip)])
    by (rewrite S; cbn [udf_value]; now rewrite slash_no).
  eapply lib_frame_gives; [ vm_compute; reflexivity | vm_compute; reflexivity | vm_compute; reflexivity | vm_compute; reflexivity ].
Qed.
Print Assumptions C70_library_swaps_arguments_refuted.
Theorem C70_library_reads_a_column_refuted : forall v6 sp types ip, ships v6 sp -> v6_address v6 "None" = None ->
  lib_text_gives (env0 Allow) sp (only_main [[("ip", SStr ip)]]) types "head 5 | eval m=cidrmatch(""10.0.0.0/8"", ip)"
    (OFrame None [[("ip", SStr ip); ("m", SBool false)]]).
Proof.
  intros v6 sp types ip S N.
  replace (SBool false) with (sp_fn sp "udfs.cidr_match" [AVal SNull; AVal (SStr ip)])
    by (rewrite S; unfold cidr_match, address_of, ip_address; cbn; now rewrite N).
  eapply lib_frame_gives; [ vm_compute; reflexivity | vm_compute; reflexivity | vm_compute; reflexivity | vm_compute; reflexivity ].
Qed.
Print Assumptions C70_library_reads_a_column_refuted.
(** A network in a search is compared as a text with the runtime. *)
Theorem C70_search_compares_texts_refuted : forall types,
  lib_text_gives (env0 Allow) small_spark (only_main [[("ip", SStr "10.1.2.3")]; [("ip", SStr "10.0.0.0/8")]]) types "search index=main ip=10.0.0.0/8"
    (OFrame None [[("ip", SStr "10.0.0.0/8")]]).
Proof.
  intro. eapply lib_frame_gives; [ vm_compute; reflexivity | vm_compute; reflexivity | vm_compute; reflexivity | vm_compute; reflexivity ].
Qed.
Print Assumptions C70_search_compares_texts_refuted.

(** C71: ipmask(n, ip) is the address with all but its first [n] bits cleared. *)
Theorem C71_first_bits_are_kept_partial : forall guess s z n, is_address s z -> 0 <= n <= 32 -> exists t,
  ipmask guess (UInt n) (UStr s) = Ok (UStr t) /\ ipmask guess (UStr (dec n)) (UStr s) = Ok (UStr t) /\
  is_address t (z / 2 ^ (32 - n) * 2 ^ (32 - n)).
Proof. exact ipmask_bits. Qed.
Print Assumptions C71_first_bits_are_kept_partial.
(** False of masks as SPL writes them, four bytes with dots: every one of them gives null; and a
    mask that is null ends the job. *)
Theorem C71_masks_are_applied_refuted : forall guess m x s z, is_address m x -> is_address s z -> ipmask guess (UStr m) (UStr s) = Ok UNull.
Proof. exact ipmask_masks. Qed.
Print Assumptions C71_masks_are_applied_refuted.
Theorem C71_null_mask_refuted : forall guess ip, ipmask guess UNull ip = Err.
Proof. reflexivity. Qed.
Print Assumptions C71_null_mask_refuted.
Example C71_ex : forall guess, ipmask guess (UInt 12) (UStr "172.31.5.6") = Ok (UStr "172.16.0.0") /\
  ipmask guess (UStr "255.240.0.0") (UStr "172.31.5.6") = Ok UNull.
Proof. intro. split; vm_compute; reflexivity. Qed.

(** C72: tonumber(text, base) reads a number written in the base, in either letter case and with
    or without a sign; a text with any other character gives null. *)
Theorem C72_numerals_are_read : forall guess base s n, 2 <= base <= 36 -> short base s -> numeral base s n ->
  tonumber guess (UStr s) base = UInt n /\ tonumber guess (UStr ("-" ++ s)) base = UInt (- n) /\ tonumber guess (UStr ("+" ++ s)) base = UInt n.
Proof. exact tonumber_reads. Qed.
Print Assumptions C72_numerals_are_read.
(** And exactly which texts are numbers: white space, a sign, the prefix of the base, digits with
    single underscores between them, white space; every other text gives null. *)
Theorem C72_exactly_the_numbers : forall guess base s, 2 <= base <= 36 ->
  (forall z, tonumber guess (UStr s) base = UInt z <-> number_text base s z) /\
  ((forall z, ~ number_text base s z) -> tonumber guess (UStr s) base = UNull).
Proof. exact tonumber_texts. Qed.
Print Assumptions C72_exactly_the_numbers.
Theorem C72_other_characters_give_null : forall guess base s x, 2 <= base <= 36 -> has_char x s = true ->
  (forall v, digit_value x = Some v -> base <= v) -> py_space x = false -> ~ In x marks ->
  tonumber guess (UStr s) base = UNull.
Proof. exact tonumber_others. Qed.
Print Assumptions C72_other_characters_give_null.
(** False: a value that already is a number gives null. *)
Theorem C72_numbers_stay_refuted : forall guess base z, tonumber guess (UInt z) base = UNull.
Proof. reflexivity. Qed.
Print Assumptions C72_numbers_stay_refuted.
Example C72_ex : numeral 16 "fFf" 4095 /\ short 16 "fFf" /\ forall guess, tonumber guess (UStr "1.5") 10 = UNull.
Proof.
  split; [ | split; [ now left | intro; now vm_compute ] ]. split; [ discriminate | ].
  do 3 (eapply N_digit; [ reflexivity | reflexivity | ]). apply N_end.
Qed.
Example C72_exact_ex : number_text 16 " -0x_f_F " (-255) /\ forall guess, tonumber guess (UStr "0x") 16 = UNull /\ tonumber guess (UStr "1__0") 10 = UNull.
Proof.
  split; [ | intro; now vm_compute ]. exists " ", "-", "0x_", "f_F", " ", 255. split; [ reflexivity | ].
  split; [ repeat constructor; cbn; tauto | ]. split; [ repeat constructor; cbn; tauto | ].
  split; [ right; exists "0x"; cbn; tauto | ]. split; [ | split; [ right; cbn; tauto | cbn; tauto ] ].
  split; [ split; [ discriminate | ] | repeat constructor; discriminate ].
  do 2 (eapply N_digit; [ reflexivity | reflexivity | ]). apply N_end.
Qed.

(** C73: tostring(number, format).  Binary and hexadecimal texts are numerals of the number without
    leading zeros, and tonumber reads them back; commas separate groups of three digits;
    durations are hours, minutes and seconds.  Partial: numbers that are not negative. *)
Theorem C73_numerals_partial : forall fc f base z, In (f, base) [("binary", 2); ("hex", 16)] -> 0 <= z ->
  exists t, tostring fc (UInt z) (Some f) = Ok t /\ numeral base t z /\ lower t = t /\ no_zero_first t.
Proof. exact tostring_base. Qed.
Print Assumptions C73_numerals_partial.
Theorem C73_round_trip_partial : forall fc guess f base z, In (f, base) [("binary", 2); ("hex", 16)] -> 0 <= z ->
  exists t, tostring fc (UInt z) (Some f) = Ok t /\ tonumber guess (UStr t) base = UInt z.
Proof. exact tostring_tonumber. Qed.
Print Assumptions C73_round_trip_partial.
Theorem C73_commas : forall fc z, 0 <= z -> exists t, tostring fc (UInt z) (Some "commas") = Ok t /\ grouped z t /\
  (0 < z -> tostring fc (UInt (- z)) (Some "commas") = Ok ("-" ++ t)).
Proof. exact tostring_commas. Qed.
Print Assumptions C73_commas.
Theorem C73_durations_partial : forall fc z, 0 <= z -> exists t, tostring fc (UInt z) (Some "duration") = Ok t /\ clock t z.
Proof. exact tostring_duration. Qed.
Print Assumptions C73_durations_partial.
Example C73_ex : forall fc, tostring fc (UInt 255) (Some "hex") = Ok "ff" /\ tostring fc (UInt 0) (Some "binary") = Ok "0" /\
  tostring fc (UInt 1234567) (Some "commas") = Ok "1,234,567" /\ tostring fc (UInt 3661) (Some "duration") = Ok "01:01:01".
Proof. intro. repeat split; vm_compute; reflexivity. Qed.
(** False of negative numbers: the minus sign is lost and a letter of the prefix stays, so the text is
    not read back; a negative duration counts back from an hour before. *)
Theorem C73_negative_numbers_refuted : forall fc guess f base mark z, In (f, base, mark) [("binary", 2, "b"); ("hex", 16, "x")] -> z < 0 ->
  exists t, tostring fc (UInt z) (Some f) = Ok (mark ++ t) /\ numeral base t (- z) /\ tonumber guess (UStr (mark ++ t)) base = UNull.
Proof. exact tostring_negative. Qed.
Print Assumptions C73_negative_numbers_refuted.
Theorem C73_negative_durations_refuted : forall fc, tostring fc (UInt (-5)) (Some "duration") = Ok "-1:59:55".
Proof. intro. vm_compute. reflexivity. Qed.
Print Assumptions C73_negative_durations_refuted.
(** False of values that are null or texts: the exception ends the job. *)
Theorem C73_null_and_texts_refuted : forall fc f s, tostring fc UNull f = Err /\ tostring fc (UStr s) f = Err.
Proof. intros fc [f|] s; cbn [tostring]; repeat destruct (String.eqb f _); auto. Qed.
Print Assumptions C73_null_and_texts_refuted.
