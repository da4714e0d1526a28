(** Which texts are numbers, and which numbers they are, independently of how they are parsed. *)
From Coq Require Import QArith.
From Verif Require Import Base MNum SNum.
Open Scope list_scope.

(** ** Characters *)
(** Blanks: tab, line feed, vertical tab, form feed, carriage return, the four separators, space. *)
Definition white (c : ascii) : Prop := In (N_of_ascii c) [9; 10; 11; 12; 13; 28; 29; 30; 31; 32]%N.
Fixpoint blank (s : string) : Prop := match s with "" => True | String c r => white c /\ blank r end.
Definition no_leading_blank (s : string) : Prop := match s with "" => True | String c _ => ~ white c end.
(** Digits with their values. *)
Definition digit_table : list (string * N) :=
  [("0", 0); ("1", 1); ("2", 2); ("3", 3); ("4", 4); ("5", 5); ("6", 6); ("7", 7); ("8", 8); ("9", 9);
   ("a", 10); ("b", 11); ("c", 12); ("d", 13); ("e", 14); ("f", 15);
   ("A", 10); ("B", 11); ("C", 12); ("D", 13); ("E", 14); ("F", 15)]%N.
Definition digit (base : N) (c : ascii) (d : N) : Prop := In (String c "", d) digit_table /\ (d < base)%N.

(** ** Whole numbers *)
(** Digits of a base, most significant first, with single underscores between them. *)
Inductive digits (base : N) : string -> list N -> Prop :=
| digits_one c d : digit base c d -> digits base (String c "") [d]
| digits_more c d s ds : digit base c d -> digits base s ds -> digits base (String c s) (d :: ds)
| digits_underscore c d s ds : digit base c d -> digits base s ds -> digits base (String c (String "_" s)) (d :: ds).
Definition value (base : N) (ds : list N) : N := fold_left (fun n d => n * base + d)%N ds 0%N.
Definition decimal (s : string) (n : N) : Prop := exists ds, digits 10 s ds /\ n = value 10 ds.
(** A whole number as in a program: decimal (beginning with 0 only if it is zero), hexadecimal, octal or binary. *)
Inductive base_letter : ascii -> N -> Prop :=
| letter_x : base_letter "x" 16 | letter_X : base_letter "X" 16
| letter_o : base_letter "o" 8 | letter_O : base_letter "O" 8
| letter_b : base_letter "b" 2 | letter_B : base_letter "B" 2.
Inductive literal : string -> N -> Prop :=
| literal_decimal c s ds : digits 10 (String c s) ds -> c <> "0"%char -> literal (String c s) (value 10 ds)
| literal_zero s ds : digits 10 s ds -> value 10 ds = 0%N -> literal s 0
| literal_based x base underscore s ds : base_letter x base -> underscore = "" \/ underscore = "_" -> digits base s ds ->
    literal ("0" ++ String x "" ++ underscore ++ s) (value base ds).
(** An optional sign in front, blanks around. *)
Inductive with_sign (number : string -> N -> Prop) : string -> Z -> Prop :=
| sign_positive a sign s n b : blank a -> blank b -> sign = "" \/ sign = "+" -> number s n -> with_sign number (a ++ sign ++ s ++ b) (Z.of_N n)
| sign_negative a s n b : blank a -> blank b -> number s n -> with_sign number (a ++ "-" ++ s ++ b) (- Z.of_N n).
Definition decimal_text : string -> Z -> Prop := with_sign decimal.
Definition integer_text : string -> Z -> Prop := with_sign literal.

(** ** Floating point numbers *)
(** The digits in front of the point and those after it; one side may be empty. *)
Inductive mantissa : string -> list N -> list N -> Prop :=
| mantissa_whole s ds : digits 10 s ds -> mantissa s ds []
| mantissa_point s ds : digits 10 s ds -> mantissa (s ++ ".") ds []
| mantissa_both s ds t fs : digits 10 s ds -> digits 10 t fs -> mantissa (s ++ "." ++ t) ds fs
| mantissa_fraction t fs : digits 10 t fs -> mantissa ("." ++ t) [] fs.
Inductive exponent_part : string -> Z -> Prop :=
| exponent_none : exponent_part "" 0
| exponent_positive e sign s n : e = "e"%char \/ e = "E"%char -> sign = "" \/ sign = "+" -> decimal s n -> exponent_part (String e (sign ++ s)) (Z.of_N n)
| exponent_negative e s n : e = "e"%char \/ e = "E"%char -> decimal s n -> exponent_part (String e ("-" ++ s)) (- Z.of_N n).
(** A word in small or capital letters. *)
Fixpoint in_any_case (s word : string) : Prop :=
  match s, word with
  | "", "" => True
  | String c s', String d word' => (c = d \/ (N_of_ascii c + 32 = N_of_ascii d)%N) /\ in_any_case s' word'
  | _, _ => False
  end.
(** The float (-1)^negative * n * 10^e, in lowest terms. *)
Definition is_float (negative : bool) (n : N) (e : Z) (f : pyfloat) : Prop :=
  exists c x, f = FFin negative c x /\ (qv false c x == qv false n e)%Q /\ (c = 0%N -> x = 0%Z) /\ (c <> 0%N -> (c mod 10 <> 0)%N).
Inductive unsigned_float (negative : bool) : string -> pyfloat -> Prop :=
| unsigned_inf s : in_any_case s "inf" \/ in_any_case s "infinity" -> unsigned_float negative s (FInf negative)
| unsigned_nan s : in_any_case s "nan" -> unsigned_float negative s FNaN
| unsigned_number s t ds fs x f : mantissa s ds fs -> exponent_part t x ->
    is_float negative (value 10 (ds ++ fs)) (x - Z.of_nat (List.length fs)) f -> unsigned_float negative (s ++ t) f.
Inductive float_text : string -> pyfloat -> Prop :=
| float_positive a sign s f b : blank a -> blank b -> sign = "" \/ sign = "+" -> unsigned_float false s f -> float_text (a ++ sign ++ s ++ b) f
| float_negative a s f b : blank a -> blank b -> unsigned_float true s f -> float_text (a ++ "-" ++ s ++ b) f.
(** Whole number or float. *)
Definition number_text (s : string) (n : pynum) : Prop :=
  match n with NInt z => decimal_text s z | NFloat f => float_text s f /\ forall z, ~ decimal_text s z end.
Definition numerical_text (s : string) (n : pynum) : Prop :=
  match n with NInt z => integer_text s z | NFloat f => float_text s f /\ forall z, ~ integer_text s z end.
(** How the value of a text is to be written again: as it was prefixed, otherwise as asked for. *)
Inductive format_of_text (asked : value_format) : string -> value_format -> Prop :=
| format_hexadecimal s : format_of_text asked ("0x" ++ s) FMT_HEXADECIMAL
| format_binary s : format_of_text asked ("0b" ++ s) FMT_BINARY
| format_other s : (forall r, s <> ("0x" ++ r)%string) -> (forall r, s <> ("0b" ++ r)%string) -> format_of_text asked s asked.
