(** Vocabulary of the number properties (C15-C18): exact rational values, intervals,
    positional notation.  Nothing here mentions how texts are produced or parsed. *)
From Coq Require Import QArith.
From Verif Require Import Base MNum.
Open Scope Z_scope.

(** (-1)^neg * c * 10^e as a rational number. *)
Definition qv (neg : bool) (c : N) (e : Z) : Q :=
  (inject_Z (if neg then - Z.of_N c else Z.of_N c) * (10 # 1) ^ e)%Q.

(** Numbers as extended rationals. *)
Inductive ext := Fin (q : Q) | PlusInf | MinusInf | NotANumber.
Definition meaning (n : pynum) : ext :=
  match n with
  | NInt z => Fin (inject_Z z)
  | NFloat (FFin neg c e) => Fin (qv neg c e)
  | NFloat (FInf true) => MinusInf
  | NFloat (FInf false) => PlusInf
  | NFloat FNaN => NotANumber
  end.

(** Same number (int 5 and float 5.0 are the same; NaN is the same as NaN only). *)
Definition same_number (a b : pynum) : Prop :=
  match meaning a, meaning b with
  | Fin p, Fin q => Qeq p q
  | PlusInf, PlusInf | MinusInf, MinusInf | NotANumber, NotANumber => True
  | _, _ => False
  end.

(** Order of extended rationals; nothing is related to NaN. *)
Definition ext_lt (a b : ext) : Prop :=
  match a, b with
  | Fin p, Fin q => Qlt p q
  | MinusInf, Fin _ | MinusInf, PlusInf | Fin _, PlusInf => True
  | _, _ => False
  end.
Definition ext_le (a b : ext) : Prop :=
  match a, b with
  | Fin p, Fin q => Qle p q
  | MinusInf, Fin _ | MinusInf, PlusInf | Fin _, PlusInf | MinusInf, MinusInf | PlusInf, PlusInf => True
  | _, _ => False
  end.

(** The floats Python has: at most 17 significant digits, written without trailing zeros. *)
Definition python_float (f : pyfloat) : Prop :=
  match f with
  | FFin _ c e => (c < 10 ^ 17)%N /\ (c = 0%N -> e = 0) /\ (c <> 0%N -> (c mod 10 <> 0)%N)
  | _ => True
  end.

(** Smaller than 10^28 in absolute value (or not finite). *)
Definition below_1e28 (n : pynum) : Prop :=
  match meaning n with
  | Fin q => Qlt (- inject_Z (10 ^ 28)) q /\ Qlt q (inject_Z (10 ^ 28))
  | _ => True
  end.

(** Positional notation: the value of a digit, and of a digit string in base [b]. *)
Definition digit_is (c : ascii) (d : N) : Prop :=
  (exists k, k < 10 /\ c = ascii_of_nat (48 + Z.to_nat k) /\ d = Z.to_N k /\ 0 <= k) \/
  (exists k, 10 <= k < 16 /\ (c = ascii_of_nat (87 + Z.to_nat k) \/ c = ascii_of_nat (55 + Z.to_nat k)) /\
             d = Z.to_N k).
Inductive notation (b : N) : string -> N -> Prop :=
| no_one c d : digit_is c d -> (d < b)%N -> notation b (String c "") d
| no_more s n c d : notation b s n -> digit_is c d -> (d < b)%N ->
    notation b (s ++ String c "")%string (n * b + d)%N.

(** Polynomial value and the function denoted by rational coefficients (Horner free):
    a0 + a1*x + a2*x^2 + ... *)
Fixpoint poly (l : list Q) (x : Q) : Q :=
  match l with [] => 0%Q | a :: r => (a + x * poly r x)%Q end.

(** [v] lies between the limits; an open limit is excluded. *)
Definition inside (l : limits) (lo up : pynum) (v : pynum) : Prop :=
  (match l_lower_type l with CLOSED => ext_le (meaning lo) (meaning v) | OPEN => ext_lt (meaning lo) (meaning v) end) /\
  (match l_upper_type l with CLOSED => ext_le (meaning v) (meaning up) | OPEN => ext_lt (meaning v) (meaning up) end).

(** A scale whose (closed, numeric) limits contain the integer [z]. *)
Definition covers (s : scale) (z : Z) : Prop :=
  exists lo up, sc_lower s = Some (SNum lo) /\ sc_upper s = Some (SNum up) /\
    sc_lower_type s = CLOSED /\ sc_upper_type s = CLOSED /\
    ext_le (meaning lo) (Fin (inject_Z z)) /\ ext_le (Fin (inject_Z z)) (meaning up).
