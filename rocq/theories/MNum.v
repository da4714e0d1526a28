(** Model of numbers: Python ints and floats, their text in ARXML, literals, limits,
    value tables.
    Sources: /repo/src/autosar/xml/writer.py:127-171, /repo/src/autosar/xml/reader.py:443-475,
    /repo/src/autosar/xml/element.py:103-173, 1088-1256, 1310-1324, and the Python builtins they call:
    str(int), str(float), int(text), int(text, 0), float(text), decimal.Decimal.
    No proofs in this file. *)
From Verif Require Import Base MNames.
Open Scope Z_scope.

(** ** Numbers *)

(** A Python float.  A finite float is represented by the shortest decimal that denotes it (what
    repr prints): sign, coefficient, power of ten.  Simplification: the binary value
    itself is not modelled; float(text) is taken to be exact (it is, for every text whose
    decimal value is the repr of a float, which is what the writer produces). *)
Inductive pyfloat := FInf (neg : bool) | FNaN | FFin (neg : bool) (c : N) (e : Z).

(** int or float *)
Inductive pynum := NInt (z : Z) | NFloat (f : pyfloat).

(** Number of decimal digits of a coefficient. *)
Definition ndig (n : N) : Z := Z.of_nat (String.length (dec n)).

(** [str(z)] for an int *)
Definition zstr (z : Z) : string :=
  if z <? 0 then ("-" ++ dec (Z.to_N (- z)))%string else dec (Z.to_N z).

(** decimal.Decimal: (-1)^sign * coef * 10^exp *)
Record decimal := mkDec { d_neg : bool; d_coef : N; d_exp : Z }.

(** [decimal.Decimal(str(value))] for a finite float (writer.py:137): str(value) is positional with
    at least one fraction digit when 1e-4 <= |value| < 1e16, else scientific. *)
Definition decimal_of_float (neg : bool) (c : N) (e : Z) : decimal :=
  let adj := e + ndig c - 1 in
  if (-4 <=? adj) && (adj <? 16) && (0 <=? e)
  then mkDec neg (c * 10 ^ Z.to_N (e + 1)) (-1)
  else mkDec neg c e.

(** [decimal.Decimal(str(value))] for an int (callers may pass one, e.g. writer.py:1251). *)
Definition decimal_of_int (z : Z) : decimal := mkDec (z <? 0) (Z.to_N (Z.abs z)) 0.

(** [tmp == tmp.to_integral()] (writer.py:138) *)
Definition is_integral (d : decimal) : bool :=
  (0 <=? d_exp d) || N.eqb (d_coef d mod 10 ^ Z.to_N (- d_exp d)) 0.

(** The default precision of the decimal context. *)
Definition precision : Z := 28.

(** [tmp.quantize(Decimal(1))] for an integral decimal (writer.py:138): InvalidOperation when
    the result needs more digits than the precision. *)
Definition quantize1 (d : decimal) : result decimal :=
  let c := if 0 <=? d_exp d then (d_coef d * 10 ^ Z.to_N (d_exp d))%N
           else (d_coef d / 10 ^ Z.to_N (- d_exp d))%N in
  if precision <? ndig c then Err DecimalInvalidOperation else Ok (mkDec (d_neg d) c 0).

(** Removal of trailing zeros of the coefficient, at most [f] of them. *)
Fixpoint strip_zeros (f : nat) (c : N) (e : Z) : N * Z :=
  match f with
  | O => (c, e)
  | S f' => if N.eqb (c mod 10) 0 then strip_zeros f' (c / 10) (e + 1) else (c, e)
  end.

(** [tmp.normalize()] (writer.py:138).  Floats have at most 17 digits, so no rounding. *)
Definition normalize (d : decimal) : decimal :=
  if N.eqb (d_coef d) 0 then mkDec (d_neg d) 0 0
  else let (c, e) := strip_zeros (String.length (dec (d_coef d))) (d_coef d) (d_exp d) in
       mkDec (d_neg d) c e.

(** First [n] characters, and the rest. *)
Fixpoint str_take (n : nat) (s : string) : string :=
  match n, s with
  | S n', String c r => String c (str_take n' r)
  | _, _ => ""
  end.
Fixpoint str_drop (n : nat) (s : string) : string :=
  match n, s with
  | S n', String _ r => str_drop n' r
  | _, _ => s
  end.

(** ['0' * n] *)
Fixpoint zeros (n : nat) : string :=
  match n with O => "" | S n' => String "0"%char (zeros n') end.

(** [str(d)] for a decimal (writer.py:139; Decimal.__str__ of the Python library). *)
Definition dec_str (d : decimal) : string :=
  let digits := dec (d_coef d) in
  let len := ndig (d_coef d) in
  let leftdigits := d_exp d + len in
  let dotplace := if (d_exp d <=? 0) && (-6 <? leftdigits) then leftdigits else 1 in
  let body :=
    if dotplace <=? 0 then ("0." ++ zeros (Z.to_nat (- dotplace)) ++ digits)%string
    else if len <=? dotplace then (digits ++ zeros (Z.to_nat (dotplace - len)))%string
    else (str_take (Z.to_nat dotplace) digits ++ "." ++ str_drop (Z.to_nat dotplace) digits)%string in
  let expo :=
    if leftdigits =? dotplace then ""
    else let x := leftdigits - dotplace in
         ("E" ++ (if (x <? 0)%Z then "-" ++ dec (Z.to_N (- x)%Z) else "+" ++ dec (Z.to_N x)))%string in
  ((if d_neg d then "-" else "") ++ body ++ expo)%string.

(** The decimal branch of _format_float (writer.py:137-139). *)
Definition format_decimal (d : decimal) : result string :=
  if is_integral d then let* q := quantize1 d in Ok (dec_str q) else Ok (dec_str (normalize d)).

(** _format_float, writer.py:127-139; the argument may also be an int. *)
Definition format_float (n : pynum) : result string :=
  match n with
  | NFloat (FInf neg) => Ok (if neg then "-INF" else "INF")
  | NFloat FNaN => Ok "NaN"
  | NFloat (FFin neg c e) => format_decimal (decimal_of_float neg c e)
  | NInt z => format_decimal (decimal_of_int z)
  end.

(** _format_number, writer.py:141-152, for int and float. *)
Definition format_number (n : pynum) : result string :=
  match n with
  | NInt z => Ok (zstr z)
  | NFloat _ => format_float n
  end.

(** ** Reading numbers *)

(** Characters removed by [strip] (ASCII). *)
Definition is_ws (c : ascii) : bool :=
  let n := nat_of_ascii c in
  (Nat.eqb n 32 || (Nat.leb 9 n && Nat.leb n 13) || (Nat.leb 28 n && Nat.leb n 31))%bool.

(** [text.strip()] as done by int() and float(). *)
Fixpoint lstrip (s : string) : string :=
  match s with String c r => if is_ws c then lstrip r else s | "" => "" end.
Fixpoint rstrip (s : string) : string :=
  match s with
  | "" => ""
  | String c r => match rstrip r with
                  | "" => if is_ws c then "" else String c ""
                  | r' => String c r'
                  end
  end.
Definition strip (s : string) : string := rstrip (lstrip s).

(** Optional sign in front of a number: true for '-'. *)
Definition take_sign (s : string) : bool * string :=
  match s with
  | String c r => if Ascii.eqb c "-"%char then (true, r)
                  else if Ascii.eqb c "+"%char then (false, r) else (false, s)
  | "" => (false, s)
  end.

(** Value of a digit character in bases up to 16. *)
Definition xdigit (c : ascii) : option N :=
  let n := N_of_ascii c in
  if (48 <=? n)%N && (n <=? 57)%N then Some (n - 48)%N
  else if (97 <=? n)%N && (n <=? 102)%N then Some (n - 87)%N
  else if (65 <=? n)%N && (n <=? 70)%N then Some (n - 55)%N
  else None.

(** Digits of an int literal in base [b]: single underscores between digits are allowed.
    Non-ASCII digits are not modelled. *)
Fixpoint digits_in (b : N) (s : string) (after_digit : bool) (acc : N) : option N :=
  match s with
  | "" => if after_digit then Some acc else None
  | String c r =>
      if Ascii.eqb c "_"%char then (if after_digit then digits_in b r false acc else None)
      else match xdigit c with
           | Some d => if (d <? b)%N then digits_in b r true (acc * b + d)%N else None
           | None => None
           end
  end.

(** Applies a sign. *)
Definition signed (neg : bool) (n : N) : Z := if neg then - Z.of_N n else Z.of_N n.

(** [int(text)]: ValueError as None. *)
Definition int10 (s : string) : option Z :=
  let (neg, r) := take_sign (strip s) in
  option_map (signed neg) (digits_in 10 r false 0).

(** One underscore may follow the base prefix. *)
Definition skip_under (s : string) : string :=
  match s with String c r => if Ascii.eqb c "_"%char then r else s | "" => "" end.

(** [int(text, 0)]: the base is taken from the prefix; a decimal literal other than zero must not
    begin with 0. *)
Definition int0 (s : string) : option Z :=
  let (neg, r) := take_sign (strip s) in
  option_map (signed neg)
    match r with
    | String "0" (String x r') =>
        if Ascii.eqb x "x"%char || Ascii.eqb x "X"%char then digits_in 16 (skip_under r') false 0
        else if Ascii.eqb x "o"%char || Ascii.eqb x "O"%char then digits_in 8 (skip_under r') false 0
        else if Ascii.eqb x "b"%char || Ascii.eqb x "B"%char then digits_in 2 (skip_under r') false 0
        else match digits_in 10 r false 0 with
             | Some n => if N.eqb n 0 then Some n else None
             | None => None
             end
    | _ => digits_in 10 r false 0
    end.

(** Decimal digits at the beginning of a text: accumulated value, how many, the rest. *)
Fixpoint take_digits (s : string) (acc : N) (cnt : nat) : N * nat * string :=
  match s with
  | String c r =>
      match digit_val c with
      | Some d => take_digits r (acc * 10 + d)%N (S cnt)
      | None => (acc, cnt, s)
      end
  | "" => (acc, cnt, s)
  end.

(** ASCII lower case. *)
Definition lower_char (c : ascii) : ascii :=
  let n := nat_of_ascii c in if (Nat.leb 65 n && Nat.leb n 90)%bool then ascii_of_nat (n + 32) else c.
Fixpoint lower (s : string) : string :=
  match s with "" => "" | String c r => String (lower_char c) (lower r) end.

(** The representation of c * 10^e: no trailing zeros in the coefficient. *)
Definition canon (neg : bool) (c : N) (e : Z) : pyfloat :=
  if N.eqb c 0 then FFin neg 0 0
  else let (c', e') := strip_zeros (String.length (dec c)) c e in FFin neg c' e'.

(** Exponent part of a float literal: the text after the digits. *)
Definition exponent (s : string) : option Z :=
  match s with
  | "" => Some 0
  | String c r =>
      if Ascii.eqb (lower_char c) "e"%char then
        let (neg, r1) := take_sign r in
        match take_digits r1 0 0 with
        | (n, S _, "") => Some (signed neg n)
        | _ => None
        end
      else None
  end.

(** A float literal without blanks and underscores. *)
Definition plain_float (s : string) : option pyfloat :=
  let (neg, r) := take_sign s in
  if String.eqb (lower r) "inf" || String.eqb (lower r) "infinity" then Some (FInf neg)
  else if String.eqb (lower r) "nan" then Some FNaN
  else
    let '(i, n1, r1) := take_digits r 0 0 in
    let '(m, n2, r2) := match r1 with
                        | String "." r' => take_digits r' i 0
                        | _ => (i, 0%nat, r1)
                        end in
    if Nat.eqb (n1 + n2) 0 then None
    else match exponent r2 with
         | Some x => Some (canon neg m (x - Z.of_nat n2))
         | None => None
         end.

(** Removes underscores; each must be between two digits. *)
Definition is_digit (c : ascii) : bool := match digit_val c with Some _ => true | None => false end.
Fixpoint drop_under (after_digit : bool) (s : string) : option string :=
  match s with
  | "" => Some ""
  | String c r =>
      if Ascii.eqb c "_"%char then
        if after_digit && match r with String d _ => is_digit d | "" => false end then drop_under false r else None
      else option_map (String c) (drop_under (is_digit c) r)
  end.

(** [float(text)]: ValueError as None.  Underscores are removed from a text that is no literal
    without that.  Simplification: the result is the decimal number of the text, rounding to a
    double (with overflow to infinity and underflow to zero) is not modelled. *)
Definition float_of (s : string) : option pyfloat :=
  let t := strip s in
  match plain_float t with
  | Some f => Some f
  | None => match drop_under false t with Some u => plain_float u | None => None end
  end.

(** _read_number, reader.py:454-465 *)
Definition read_number (s : string) : result pynum :=
  match int10 s with
  | Some z => Ok (NInt z)
  | None => match float_of s with
            | Some f => Ok (NFloat f)
            | None => Err ParseError
            end
  end.

(** _read_integer, reader.py:467-475 *)
Definition read_integer (s : string) : result Z :=
  match int0 s with Some z => Ok z | None => Err ParseError end.

(** _read_boolean, reader.py:443-452, and _format_boolean, writer.py:154-159 *)
Definition read_boolean (s : string) : result bool :=
  if String.eqb s "0" || String.eqb s "false" then Ok false
  else if String.eqb s "1" || String.eqb s "true" then Ok true
  else Err ParseError.
Definition format_boolean (b : bool) : string := if b then "true" else "false".

(** ** Number wrappers (element.py:103-173) *)

(** ValueFormat, enumeration.py:672-683 *)
Inductive value_format := FMT_DEFAULT | FMT_DECIMAL | FMT_HEXADECIMAL | FMT_BINARY | FMT_SCIENTIFIC.

(** NumericalValue *)
Record numval := mkNum { nv_value : pynum; nv_format : value_format }.

(** Constructor arguments: a number or a text. *)
Inductive num_arg := ANum (n : pynum) | AText (s : string).

(** _validate_value, element.py:129-138 *)
Definition nv_validate (a : num_arg) : result pynum :=
  match a with
  | ANum n => Ok n
  | AText s => match int0 s with
               | Some z => Ok (NInt z)
               | None => match float_of s with Some f => Ok (NFloat f) | None => Err ValueError end
               end
  end.

(** [s.startswith(p)] *)
Definition starts_with (p s : string) : bool :=
  match strip_prefix p s with Some _ => true | None => false end.

(** NumericalValue.__init__, element.py:108-118 *)
Definition nv_new (a : num_arg) (fmt : value_format) : result numval :=
  let* v := nv_validate a in
  Ok (mkNum v match a with
              | AText s => if starts_with "0x" s then FMT_HEXADECIMAL
                           else if starts_with "0b" s then FMT_BINARY else fmt
              | ANum _ => fmt
              end).

(** PositiveIntegerValue._validate_value, element.py:161-173; a float is a TypeError. *)
Definition pos_validate (a : num_arg) : result N :=
  match a with
  | AText s => match int0 s with
               | Some z => if z <? 0 then Err ValueError else Ok (Z.to_N z)
               | None => Err TypeError
               end
  | ANum (NInt z) => if z <? 0 then Err ValueError else Ok (Z.to_N z)
  | ANum (NFloat _) => Err TypeError
  end.

(** Digit characters of bases up to 16, lower case. *)
Definition xchar (d : N) : ascii :=
  if (d <? 10)%N then ascii_of_N (48 + d) else ascii_of_N (87 + d).

(** [f"{n:x}"], [f"{n:b}"]: digits of [n] in base [b], most significant first; [f] bounds the
    number of digits. *)
Fixpoint base_digits (f : nat) (b n : N) (tail : string) : string :=
  match f with
  | O => tail
  | S f' => let t := String (xchar (n mod b)) tail in
            if (n / b =? 0)%N then t else base_digits f' b (n / b) t
  end.
Definition base_str (b : N) (z : Z) : string :=
  let n := Z.to_N (Z.abs z) in
  ((if (z <? 0)%Z then "-" else "") ++ base_digits (S (N.to_nat (N.log2 n))) b n "")%string.

(** Rounds a coefficient to 7 significant digits, half to even (as "%e" does); the second component counts
    the removed digits. *)
Definition round7 (c : N) : N * Z :=
  let k := ndig c - 7 in
  if k <=? 0 then (c, 0)
  else let p := (10 ^ Z.to_N k)%N in
       let q := (c / p)%N in let r := (c mod p)%N in
       let q' := if (2 * r <? p)%N then q
                 else if (2 * r =? p)%N then (if N.even q then q else q + 1)%N
                 else (q + 1)%N in
       (q', k).

(** [f"{value:e}"] for a finite number c * 10^e: one digit, six fraction digits, exponent with
    at least two digits.  Simplification: rounding acts on the decimal value of the float. *)
Definition sci_str (neg : bool) (c : N) (e : Z) : string :=
  let (q, k) := round7 c in
  let ds := dec q in
  let x := if N.eqb q 0 then 0 else e + k + ndig q - 1 in
  let frac := str_drop 1 ds in
  let frac6 := str_take 6 (frac ++ zeros 6)%string in
  let ax := dec (Z.to_N (Z.abs x)) in
  ((if neg then "-" else "") ++ str_take 1 ds ++ "." ++ frac6 ++ "e" ++ (if (x <? 0)%Z then "-" else "+")
   ++ (if (Z.abs x <? 10)%Z then "0" else "") ++ ax)%string.

(** _format_numerical_value, writer.py:161-171.  A float with an integer format code is a ValueError. *)
Definition format_numval (v : numval) : result string :=
  match nv_format v with
  | FMT_DEFAULT | FMT_DECIMAL => format_number (nv_value v)
  | FMT_HEXADECIMAL => match nv_value v with
                       | NInt z => Ok ("0x" ++ base_str 16 z)%string
                       | NFloat _ => Err ValueError
                       end
  | FMT_BINARY => match nv_value v with
                  | NInt z => Ok ("0b" ++ base_str 2 z)%string
                  | NFloat _ => Err ValueError
                  end
  | FMT_SCIENTIFIC =>
      match nv_value v with
      | NInt z => Ok (sci_str (z <? 0) (Z.to_N (Z.abs z)) 0)
      | NFloat (FFin neg c e) => Ok (sci_str neg c e)
      | NFloat (FInf neg) => Ok (if neg then "-inf" else "inf")
      | NFloat FNaN => Ok "nan"
      end
  end.

(** ** Comparison of numbers *)

(** Coefficient and exponent of a finite number. *)
Definition finite_parts (n : pynum) : option (Z * Z) :=
  match n with
  | NInt z => Some (z, 0)
  | NFloat (FFin neg c e) => Some (signed neg c, e)
  | NFloat _ => None
  end.

(** [m1 * 10^e1 ?= m2 * 10^e2] *)
Definition cmp_parts (a b : Z * Z) : comparison :=
  let (m1, e1) := a in let (m2, e2) := b in
  let k := Z.min e1 e2 in
  Z.compare (m1 * 10 ^ (e1 - k)) (m2 * 10 ^ (e2 - k)).

(** Python's exact comparison of int and float; None when one side is NaN (every comparison
    is then False). *)
Definition num_cmp (a b : pynum) : option comparison :=
  match a, b with
  | NFloat FNaN, _ | _, NFloat FNaN => None
  | NFloat (FInf x), NFloat (FInf y) =>
      Some (if Bool.eqb x y then Eq else if x then Lt else Gt)
  | NFloat (FInf x), _ => Some (if x then Lt else Gt)
  | _, NFloat (FInf y) => Some (if y then Gt else Lt)
  | _, _ => match finite_parts a, finite_parts b with
            | Some p, Some q => Some (cmp_parts p q)
            | _, _ => None                              (* unreachable *)
            end
  end.
Definition num_lt (a b : pynum) : bool := match num_cmp a b with Some Lt => true | _ => false end.
Definition num_le (a b : pynum) : bool :=
  match num_cmp a b with Some Lt | Some Eq => true | _ => false end.

(** ** Limits (element.py:1310-1324) *)

(** IntervalType, enumeration.py:299-307 *)
Inductive interval_type := CLOSED | OPEN.

(** LimitObject, element.py:1291-1304 *)
Record limits := mkLim {
  l_lower : option pynum; l_upper : option pynum;
  l_lower_type : interval_type; l_upper_type : interval_type }.

(** LimitObject.check_value: comparing with None is a TypeError. *)
Definition check_value (l : limits) (v : pynum) : result bool :=
  match l_lower l with
  | None => Err TypeError
  | Some lo =>
      if (match l_lower_type l with CLOSED => num_lt v lo | OPEN => num_le v lo end) then Ok false
      else match l_upper l with
           | None => Err TypeError
           | Some up =>
               if (match l_upper_type l with CLOSED => num_lt up v | OPEN => num_le up v end) then Ok false
               else Ok true
           end
  end.

(** ** Computations (element.py:1088-1256) *)

(** Value of a CompuConst, and of limits: int | float | str. *)
Inductive scalar := SNum (n : pynum) | SText (s : string).

(** CompuScale content *)
Inductive content := CConst (v : scalar) | CRational (num den : option (list pynum)).

(** CompuScale, element.py:1130-1178, with the attributes the builders use. *)
Record scale := mkScale {
  sc_content : option content; sc_lower : option scalar; sc_upper : option scalar;
  sc_label : option string; sc_lower_type : interval_type; sc_upper_type : interval_type }.

(** Computation, element.py:1181-1192 *)
Record computation := mkComp { c_scales : list scale; c_default : option scalar }.

(** List items of make_value_table: a text or a tuple of scalars; anything else. *)
Inductive table_item := TText (s : string) | TTuple (l : list scalar) | TOther.

(** The loop of make_value_table, element.py:1216-1230 *)
Fixpoint table_scales (auto_label : bool) (i : Z) (l : list table_item) : result (list scale) :=
  match l with
  | [] => Ok []
  | t :: r =>
      let* x := match t with
                | TText s => Ok (SNum (NInt i), SNum (NInt i), SText s)
                | TTuple [a; v] => Ok (a, a, v)
                | TTuple [a; b; v] => Ok (a, b, v)
                | TTuple _ => Err ValueError
                | TOther => Err TypeError
                end in
      let '(lo, up, v) := x in
      let label := match v with SText s => if auto_label then Some s else None | SNum _ => None end in
      let* rest := table_scales auto_label (i + 1) r in
      Ok (mkScale (Some (CConst v)) (Some lo) (Some up) label CLOSED CLOSED :: rest)
  end.

(** Computation.make_value_table, element.py:1194-1231 *)
Definition make_value_table (elements : list table_item) (default : option scalar) (auto_label : bool)
    : result computation :=
  let* s := table_scales auto_label 0 elements in
  Ok (mkComp s default).

(** [float(n)]: same value as a float (exact up to 2^53; larger ints are rounded by Python, not modelled). *)
Definition to_float (n : pynum) : pyfloat :=
  match n with
  | NInt z => canon (z <? 0) (Z.to_N (Z.abs z)) 0
  | NFloat f => f
  end.

(** Computation.make_rational, element.py:1233-1256 *)
Definition make_rational (factor offset : pynum) (lower upper default : option scalar)
    (lt ut : interval_type) : computation :=
  mkComp [mkScale (Some (CRational (Some [offset; NFloat (to_float factor)]) (Some [NInt 1])))
                  lower upper None lt ut] default.
