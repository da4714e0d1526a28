(** ValueSpecification.make_value and make_value_with_check, /repo/src/autosar/xml/element.py:2528-2638.
    No proofs in this file. *)
From Verif Require Import Base MNum MRef MElemA MElemB.

(** Python data.  [DOther] stands for every object of another type (dict, bytes, ...). *)
Inductive pydata :=
| DNum (n : pynum)
| DBool (b : bool)
| DStr (s : string)
| DNone
| DList (l : list pydata)
| DTuple (l : list pydata)
| DOther.

(** The objects made: labels, numbers (bool is a subclass of int) and default patterns (of any type)
    as they are stored, element.py:2641-2730. *)
Inductive made :=
| MText (label : option string) (value : string)
| MNum (label : option string) (value : pydata)
| MNotAvailable (label : option string) (default_pattern : pydata)
| MArray (label : option string) (elements : list made)
| MRecord (label : option string) (fields : list made).

(** str.upper on ASCII letters.  Simplification: no other character has one of the letters of the
    markers as its upper case. *)
Definition upper_char (c : ascii) : ascii :=
  let n := nat_of_ascii c in if (97 <=? n)%nat && (n <=? 122)%nat then ascii_of_nat (n - 32) else c.
Fixpoint upper (s : string) : string := match s with "" => "" | String c r => String (upper_char c) (upper r) end.

(** NotAvailableValueSpecification.__init__, element.py:2669-2678: isinstance(True, int) holds, but
    no bool is negative *)
Definition new_not_available (label : option string) (p : pydata) : result made :=
  match p with
  | DNum (NInt z) => if (z <? 0)%Z then Err ValueError else Ok (MNotAvailable label p)
  | _ => Ok (MNotAvailable label p)
  end.
(** The loops of _make_array_value_spefication and _make_record_value_spefication, element.py:2624-2638 *)
Section Each.
  Context (self : pydata -> result made).
  Fixpoint make_each (l : list pydata) : result (list made) :=
    match l with
    | [] => Ok []
    | x :: r => let* y := self x in let* ys := make_each r in Ok (y :: ys)
    end.
End Each.
(** _make_from_args, _make_array_value_spefication, _make_record_value_spefication, element.py:2598-2638 *)
Definition make_from_args (self : pydata -> result made) (label : option string) (value default_pattern : pydata) : result made :=
  match value with
  | DNum _ | DBool _ => Ok (MNum label value)
  | DStr s => Ok (MText label s)
  | DNone => new_not_available label default_pattern
  | DList [] => Err IndexError
  | DList (DStr m :: r) =>
      if String.eqb (upper m) "A" || String.eqb (upper m) "ARRAY" then
        let* l := make_each self r in Ok (MArray label l)
      else if String.eqb (upper m) "R" || String.eqb (upper m) "RECORD" then
        let* l := make_each self r in Ok (MRecord label l)
      else Err ValueError
  | DList _ => Err TypeError
  | DTuple _ | DOther => Err TypeError
  end.
(** make_value, element.py:2559-2596.  Simplification: no limit on the recursion depth. *)
Fixpoint make_value (data : pydata) {struct data} : result made :=
  match data with
  | DTuple [] => Err IndexError
  | DTuple (DStr label :: [value]) => make_from_args make_value (Some label) value DNone
  | DTuple (DStr label :: [value; default_pattern]) => make_from_args make_value (Some label) value default_pattern
  | DTuple (DStr _ :: _) => Err ValueError
  | DTuple _ => Err TypeError
  | _ => make_from_args make_value None data DNone
  end.

(** The argument of make_value_with_check: data, or an object that is already a value specification,
    or a ConstantRef *)
Inductive init_arg := IData (d : pydata) | ISpec (e : ValueSpecificationElement) | IConstantRef (r : ref).
Inductive init_value := VMade (m : made) | VSpec (e : ValueSpecificationElement).
(** make_value_with_check, element.py:2538-2557; ConstantReference.__init__, element.py:2816-2828 *)
Definition make_value_with_check (a : init_arg) : result (option init_value) :=
  match a with
  | IData DNone => Ok None
  | ISpec e => Ok (Some (VSpec e))
  | IConstantRef r => Ok (Some (VSpec (ConstantReference None (Some r))))
  | IData DOther => Err TypeError
  | IData d => let* m := make_value d in Ok (Some (VMade m))
  end.

(** The objects made as value specifications of MElemB.v, which holds no bool and no default pattern
    other than an int. *)
Fixpoint spec_of (m : made) : option ValueSpecificationElement :=
  match m with
  | MText label s => Some (TextValueSpecification label (Some s))
  | MNum label (DNum n) => Some (NumericalValueSpecification label (Some (Bare n)))
  | MNotAvailable label DNone => Some (NotAvailableValueSpecification label None)
  | MNotAvailable label (DNum (NInt z)) => Some (NotAvailableValueSpecification label (Some z))
  | MNum _ _ | MNotAvailable _ _ => None
  | MArray label l =>
      option_map (ArrayValueSpecification label)
        ((fix all l := match l with
                       | [] => Some []
                       | a :: r => match spec_of a, all r with Some b, Some s => Some (b :: s) | _, _ => None end
                       end) l)
  | MRecord label l =>
      option_map (RecordValueSpecification label)
        ((fix all l := match l with
                       | [] => Some []
                       | a :: r => match spec_of a, all r with Some b, Some s => Some (b :: s) | _, _ => None end
                       end) l)
  end.
