(** Shared vocabulary of the model: results with Python exceptions as values,
    and the few string operations of Python the library uses.
    Sources: /repo/src/autosar/base.py and Python's [str] methods as used in
    /repo/src/autosar/xml/element.py.  No proofs in this file. *)
From Coq Require Export List Arith ZArith NArith Bool String Ascii Lia.
Export ListNotations.
Open Scope string_scope.
Open Scope list_scope.

(** Python exceptions that the modelled functions raise, as values.
    [OutOfFuel] is not a Python exception: it stands for a Python recursion
    that does not terminate (RecursionError). *)
Inductive exn : Type :=
| ValueError | TypeError | KeyError | IndexError | AttributeError
| NotImplementedError | RuntimeError | AssertionError | DecimalInvalidOperation
| ParseError | DuplicateElement | VersionError | InvalidReferenceError | UnboundLocalError
| OutOfFuel.

(** Outcome of a Python call: a return value or a raised exception. *)
Inductive result (A : Type) : Type :=
| Ok (a : A)
| Err (e : exn).
Arguments Ok {A} a.
Arguments Err {A} e.

(** Sequencing of calls: an exception propagates to the caller. *)
Definition bind {A B} (r : result A) (f : A -> result B) : result B :=
  match r with Ok a => f a | Err e => Err e end.
Notation "'let*' x ':=' r 'in' k" := (bind r (fun x => k))
  (at level 200, x pattern, right associativity, only parsing).

(** A Python [for] loop calling a function that may raise on every item and
    collecting the results in a list. *)
Fixpoint mapM {A B} (f : A -> result B) (l : list A) : result (list B) :=
  match l with
  | [] => Ok []
  | x :: r => let* y := f x in let* ys := mapM f r in Ok (y :: ys)
  end.

(** "/" as a character. *)
Definition slash : ascii := "/"%char.

(** [s.startswith('/')] *)
Definition starts_slash (s : string) : bool :=
  match s with String c _ => Ascii.eqb c slash | EmptyString => false end.

(** [if s.startswith('/'): s = s[1:]]
    (element.py:2901-2902, 3048-3049, 3079-3080) *)
Definition strip_slash (s : string) : string :=
  match s with
  | String c r => if Ascii.eqb c slash then r else s
  | EmptyString => s
  end.

(** [s.partition(c)]: components 0 and 2 of the triple (the separator itself is
    never used by the library). *)
Fixpoint partition_at (c : ascii) (s : string) : string * string :=
  match s with
  | EmptyString => ("", "")
  | String x r =>
      if Ascii.eqb x c then ("", r)
      else let (a, b) := partition_at c r in (String x a, b)
  end.

(** [s.partition('/')] *)
Definition partition_slash : string -> string * string := partition_at slash.

(** [s.split(c)] of Python: always at least one component. *)
Fixpoint split_at (c : ascii) (s : string) : list string :=
  match s with
  | EmptyString => [""]
  | String x r =>
      if Ascii.eqb x c then "" :: split_at c r
      else match split_at c r with
           | [] => [String x ""]            (* unreachable *)
           | h :: t => String x h :: t
           end
  end.

(** [sep.join(parts)] *)
Fixpoint join (sep : string) (parts : list string) : string :=
  match parts with
  | [] => ""
  | [a] => a
  | a :: r => a ++ sep ++ join sep r
  end%string.

(** Does the character occur in the string? *)
Fixpoint mem_char (c : ascii) (s : string) : bool :=
  match s with
  | EmptyString => false
  | String x r => Ascii.eqb x c || mem_char c r
  end.

(** First value stored under a key (Python dict lookup, [d.get(k)]). *)
Fixpoint assoc {A} (k : string) (l : list (string * A)) : option A :=
  match l with
  | [] => None
  | (k', v) :: r => if String.eqb k k' then Some v else assoc k r
  end.

(** Python dict assignment [d[k] = v]: replace in place or add at the end. *)
Fixpoint assoc_set {A} (k : string) (v : A) (l : list (string * A)) : list (string * A) :=
  match l with
  | [] => [(k, v)]
  | (k', v') :: r => if String.eqb k k' then (k, v) :: r else (k', v') :: assoc_set k v r
  end.

(** Autosar base.py:8-13 [split_ref] on a string argument.
    [ref[0]] on the empty string raises IndexError. *)
Definition split_ref (ref : string) : result (list string) :=
  match ref with
  | EmptyString => Err IndexError
  | String c r => if Ascii.eqb c slash then Ok (split_at slash r) else Ok (split_at slash ref)
  end.

(** Autosar base.py:16-25 [split_ref_strict] on a string argument. *)
Definition split_ref_strict (ref : string) : result (list string) :=
  match ref with
  | EmptyString => Err ValueError
  | String c _ => if Ascii.eqb c slash then Err ValueError else Ok (split_at slash ref)
  end.
