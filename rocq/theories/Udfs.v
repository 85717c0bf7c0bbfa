(** The user defined functions of the runtime library:
    /repo/python/spl_transpiler/runtime/udfs/__init__.py.  Model only.

    They are written with two parts of Python's own library, which are modelled as far as
    they are used: ipaddress (version 4; the reading of version 6 is an oracle) and int() of a
    text.  Python 3.10 or later, as pyproject.toml line 10 asks for. *)
From Coq Require Import String Ascii List ZArith.
Import ListNotations.
From Verif Require Import Str Macros.
Open Scope list_scope.
Open Scope string_scope.
Open Scope Z_scope.

(** ** Values handed to a user defined function: Spark's null, boolean, text, integer and
    double values.  A double carries the text str() prints for it. *)
Inductive UVal := UNull | UBool (b : bool) | UStr (s : string) | UInt (z : Z) | UFloat (t : string).
(** str(value) *)
Definition str_of (v : UVal) : string :=
  match v with
  | UNull => "None"
  | UBool b => if b then "True" else "False"
  | UStr s => s
  | UInt z => dec z
  | UFloat t => t
  end.

(** ** int(text, base) of Python (PyLong_FromString).  None: ValueError. *)
(** The value of a digit; 36 for a character that is none.  Only ASCII digits are modelled. *)
Definition digit_of (c : ascii) : Z :=
  if is_digit c then Z.of_N (code c) - 48
  else if is_lower c then Z.of_N (code c) - 87
  else if is_upper c then Z.of_N (code c) - 55
  else 36.
(** Digits below the base; an underscore may stand between two digits.  [acc]: the value read so far *)
Fixpoint int_digits (base acc : Z) (s : string) : option Z :=
  match s with
  | EmptyString => Some acc
  | String c s' =>
      if Ascii.eqb c "_" then
        match s' with
        | String d t => if digit_of d <? base then int_digits base (acc * base + digit_of d) t else None
        | EmptyString => None
        end
      else if digit_of c <? base then int_digits base (acc * base + digit_of c) s' else None
  end.
(** At least one digit, and none of them an underscore *)
Definition int_number (base : Z) (s : string) : option Z :=
  match s with
  | String c s' => if digit_of c <? base then int_digits base (digit_of c) s' else None
  | EmptyString => None
  end.
(** 0x, 0o and 0b are skipped if they belong to the base, and one underscore after them *)
Definition skip_prefix (base : Z) (s : string) : string :=
  match s with
  | String z (String x s') =>
      if Ascii.eqb z "0" && ((base =? 16) && Ascii.eqb (lower_c x) "x" || (base =? 8) && Ascii.eqb (lower_c x) "o"
                             || (base =? 2) && Ascii.eqb (lower_c x) "b")
      then match s' with String u s'' => if Ascii.eqb u "_" then s'' else s' | EmptyString => s' end
      else s
  | _ => s
  end.
(** sys.int_info.default_max_str_digits: more digits are refused unless the base is a power of two *)
Definition max_digits : Z := 4300.
Fixpoint count_digits (s : string) : Z :=
  match s with
  | EmptyString => 0
  | String c s' => (if Ascii.eqb c "_" then 0 else 1) + count_digits s'
  end.
Definition too_long (base : Z) (s : string) : bool :=
  negb (existsb (Z.eqb base) [2; 4; 8; 16; 32]) && (max_digits <? count_digits s).
Definition unsigned (base : Z) (s : string) : option Z :=
  let s := skip_prefix base s in if too_long base s then None else int_number base s.
Definition py_strip (s : string) : string := rstrip_by py_space (lstrip_by py_space s).
(** [guess] answers for base 0, where the prefix decides *)
Definition py_int (guess : string -> option Z) (base : Z) (s : string) : option Z :=
  if base =? 0 then guess s
  else if (2 <=? base) && (base <=? 36) then
    match py_strip s with
    | String c s' =>
        if Ascii.eqb c "-" then option_map Z.opp (unsigned base s')
        else if Ascii.eqb c "+" then unsigned base s'
        else unsigned base (String c s')
    | EmptyString => None
    end
  else None.

(** ** ipaddress, version 4.  None: ValueError. *)
(** _parse_octet *)
Definition octet (s : string) : option Z :=
  if String.eqb s "" || negb (sforall is_digit s) || (3 <? Z.of_nat (String.length s))
     || (negb (String.eqb s "0") && starts_with "0" s)
  then None
  else match int_number 10 s with
       | Some v => if 255 <? v then None else Some v
       | None => None
       end.
(** _ip_int_from_string *)
Definition ip4 (s : string) : option Z :=
  match split_on "." s with
  | [a; b; c; d] =>
      match octet a, octet b, octet c, octet d with
      | Some a, Some b, Some c, Some d => Some (((a * 256 + b) * 256 + c) * 256 + d)
      | _, _, _, _ => None
      end
  | _ => None
  end.
(** _count_righthand_zero_bits, _prefix_from_ip_int *)
Fixpoint zero_bits (p : positive) : Z := match p with xO q => 1 + zero_bits q | _ => 0 end.
Definition trailing_zeros (z : Z) : Z := match z with Zpos p => Z.min 32 (zero_bits p) | _ => 32 end.
Definition all_ones : Z := 2 ^ 32 - 1.
Definition prefix_of_mask (z : Z) : option Z :=
  let n := 32 - trailing_zeros z in
  if Z.shiftr z (trailing_zeros z) =? 2 ^ n - 1 then Some n else None.
(** _make_netmask: a number of bits, or a mask, or the complement of a mask *)
Definition prefix_length (s : string) : option Z :=
  let number := if negb (String.eqb s "") && sforall is_digit s
                then match int_number 10 s with Some n => if n <=? 32 then Some n else None | None => None end
                else None in
  match number with
  | Some n => Some n
  | None =>
      match ip4 s with
      | Some m => match prefix_of_mask m with
                  | Some n => Some n
                  | None => prefix_of_mask (Z.lxor m all_ones)
                  end
      | None => None
      end
  end.
(** _ip_int_from_prefix *)
Definition mask_of (n : Z) : Z := Z.lxor all_ones (Z.shiftr all_ones n).
(** IPv4Network(text, strict=False): the address of the network and its mask *)
Definition network4 (s : string) : option (Z * Z) :=
  match split_on "/" s with
  | [a] => match ip4 a with Some a => Some (Z.land a (mask_of 32), mask_of 32) | None => None end
  | [a; m] =>
      match ip4 a, prefix_length m with
      | Some a, Some n => Some (Z.land a (mask_of n), mask_of n)
      | _, _ => None
      end
  | _ => None
  end.
(** str of an IPv4Address *)
Definition ip4_text (z : Z) : string :=
  dec (z / 2 ^ 24) ++ "." ++ dec (z / 2 ^ 16 mod 256) ++ "." ++ dec (z / 2 ^ 8 mod 256) ++ "." ++ dec (z mod 256).

(** ** Version 6: an oracle reads addresses, and networks as tests of addresses *)
Record V6 := mkV6 { v6_address : string -> option Z; v6_network : string -> option (Z -> bool) }.
(** ipaddress.ip_address: version 4 is tried first; an address has no slash *)
Inductive Address := IsV4 (z : Z) | IsV6 (z : Z).
Definition ip_address (v6 : V6) (s : string) : option Address :=
  match ip4 s with
  | Some z => Some (IsV4 z)
  | None => if has_char "/" s then None else option_map IsV6 (v6_address v6 s)
  end.
(** ipaddress.ip_network, and membership, which is false for another version *)
Definition ip_network (v6 : V6) (s : string) : option (Address -> bool) :=
  match network4 s with
  | Some (net, mask) => Some (fun a => match a with IsV4 z => Z.land z mask =? net | IsV6 _ => false end)
  | None => option_map (fun f a => match a with IsV6 z => f z | IsV4 _ => false end) (v6_network v6 s)
  end.

(** ** The functions.  Err: an exception that is not caught, which ends the Spark job. *)
(** An integer (in Python also a boolean) is the number of an address *)
Definition number_of (v : UVal) : option Z :=
  match v with UInt z => Some z | UBool b => Some (if b then 1 else 0) | _ => None end.
Definition address_of (v6 : V6) (v : UVal) : option Address :=
  match number_of v with
  | Some z => if (0 <=? z) && (z <? 2 ^ 32) then Some (IsV4 z)
              else if (0 <=? z) && (z <? 2 ^ 128) then Some (IsV6 z) else None
  | None => ip_address v6 (str_of v)
  end.
Definition network_of (v6 : V6) (v : UVal) : option (Address -> bool) :=
  match number_of v with
  | Some z => if (0 <=? z) && (z <? 2 ^ 32) then Some (fun a => match a with IsV4 y => y =? z | IsV6 _ => false end)
              else if (0 <=? z) && (z <? 2 ^ 128) then Some (fun a => match a with IsV6 y => y =? z | IsV4 _ => false end)
              else None
  | None => ip_network v6 (str_of v)
  end.
(** 6-20: cidr_match.  ValueError is caught.  None is read as the text None, which is no address. *)
Definition cidr_match (v6 : V6) (ip cidr : UVal) : bool :=
  match address_of v6 ip, network_of v6 cidr with
  | Some a, Some net => net a
  | _, _ => false
  end.
(** 23-35: ipmask.  int(mask) of a number is the number (its whole part); of null a TypeError,
    which is not caught. *)
Definition ipmask (guess : string -> option Z) (mask ip : UVal) : res UVal :=
  let with_bits n := match network4 (str_of ip ++ "/" ++ dec n) with
                     | Some (net, _) => UStr (ip4_text net)
                     | None => UNull
                     end in
  match mask with
  | UNull => Err
  | UBool b => Ok (with_bits (if b then 1 else 0))
  | UInt n => Ok (with_bits n)
  | UFloat _ => Ok UNull                   (* not modelled *)
  | UStr s => Ok (match py_int guess 10 s with Some n => with_bits n | None => UNull end)
  end.
(** 43-48: tonumber.  int(value, base) of anything but a text is a TypeError, which is caught. *)
Definition tonumber (guess : string -> option Z) (value : UVal) (base : Z) : UVal :=
  match value with
  | UStr s => match py_int guess base s with Some z => UInt z | None => UNull end
  | _ => UNull
  end.

(** 51-70: tostring *)
(** The digits of a number that is not negative, most significant first *)
Definition digit_char (d : Z) : ascii := ascii_of_N (Z.to_N (if d <? 10 then d + 48 else d + 87)).
Fixpoint base_digits (fuel : nat) (base z : Z) (acc : string) : string :=
  match fuel with
  | O => acc
  | S f => let acc := String (digit_char (z mod base)) acc in
           if z <? base then acc else base_digits f base (z / base) acc
  end.
Definition natural (base z : Z) : string := base_digits (S (Z.to_nat (Z.log2 z))) base z "".
(** bin(z) and hex(z) *)
Definition prefixed (base : Z) (mark : string) (z : Z) : string :=
  if z <? 0 then "-0" ++ mark ++ natural base (- z) else "0" ++ mark ++ natural base z.
(** text[2:] *)
Definition from_third (s : string) : string := match s with String _ (String _ t) => t | _ => "" end.
(** Commas between groups of three digits, from the right *)
Fixpoint with_commas (s : string) : string :=
  match s with
  | EmptyString => EmptyString
  | String c t =>
      if negb (String.eqb t "") && (Z.of_nat (String.length t) mod 3 =? 0)
      then String c ("," ++ with_commas t) else String c (with_commas t)
  end.
Definition commas (z : Z) : string := if z <? 0 then "-" ++ with_commas (dec (- z)) else with_commas (dec z).
(** f"{z:02d}" *)
Definition two_digits (z : Z) : string := if (0 <=? z) && (z <? 10) then "0" ++ dec z else dec z.
(** divmod of Python rounds down *)
Definition duration (z : Z) : string :=
  two_digits (z / 3600) ++ ":" ++ two_digits (z mod 3600 / 60) ++ ":" ++ two_digits (z mod 3600 mod 60).
(** [float_commas] prints a double with commas.  A boolean is an int in Python. *)
Definition tostring (float_commas : string -> string) (value : UVal) (format : option string) : res string :=
  let as_int := match value with UBool b => Some (if b then 1 else 0) | UInt z => Some z | _ => None end in
  match format with
  | None => match value with UBool _ | UInt _ | UFloat _ => Ok (str_of value) | _ => Err end
  | Some f =>
      if String.eqb f "binary" then match as_int with Some z => Ok (from_third (prefixed 2 "b" z)) | None => Err end
      else if String.eqb f "hex" then match as_int with Some z => Ok (from_third (prefixed 16 "x" z)) | None => Err end
      else if String.eqb f "commas" then
        match value, as_int with
        | UFloat t, _ => Ok (float_commas t)
        | _, Some z => Ok (commas z)
        | _, None => Err
        end
      else if String.eqb f "duration" then match as_int with Some z => Ok (duration z) | None => Err end
      else Err
  end.
