(** Model of the unique-name helper and its users.
    Source: /repo/src/autosar/xml/element.py, make_unique_name_in_list 304-330,
    RunnableEntity.append_* 6943-7112, SwcInternalBehavior._make_unique_event_name 8060-8067.
    Elements are represented by their names (the helper reads and writes nothing else).
    Simplifications: names are byte strings and '\d' matches the ASCII digits only (AUTOSAR
    short-names are ASCII); the base name contains no regular-expression metacharacter
    (short-names consist of letters, digits and '_'), so that the pattern matches it literally.
    No proofs in this file. *)
From Verif Require Import Base.
From Coq Require Import DecimalString.

(** [str(n)] of a non-negative int. *)
Definition dec (n : N) : string := NilZero.string_of_uint (N.to_uint n).

(** Value of an ASCII digit ([\d] in the pattern at element.py:316). *)
Definition digit_val (c : ascii) : option N :=
  let k := N_of_ascii c in
  if (48 <=? k)%N && (k <=? 57)%N then Some (k - 48)%N else None.

(** Value of the longest digit prefix, [int(result.group(1))] (element.py:321). *)
Fixpoint digits_prefix (s : string) (acc : N) : N :=
  match s with
  | EmptyString => acc
  | String c r => match digit_val c with Some d => digits_prefix r (10 * acc + d)%N | None => acc end
  end.

(** [s] without the given prefix, if it has it. *)
Fixpoint strip_prefix (p s : string) : option string :=
  match p, s with
  | EmptyString, _ => Some s
  | String a p', String b s' => if Ascii.eqb a b then strip_prefix p' s' else None
  | String _ _, EmptyString => None
  end.

(** [re.compile(base + r'_(\d+)').match(name)]: the index, if the pattern matches at the start
    of the name (element.py:316-321). *)
Definition match_index (base name : string) : option N :=
  match strip_prefix (base ++ "_")%string name with
  | Some (String c r) =>
      match digit_val c with Some _ => Some (digits_prefix (String c r) 0) | None => None end
  | _ => None
  end.

(** The loop of element.py:317-324: (has_index, highest_index). *)
Fixpoint scan (names : list string) (base : string) (has : bool) (hi : N) : bool * N :=
  match names with
  | [] => (has, hi)
  | n :: r =>
      match match_index base n with
      | Some i => scan r base true (N.max hi i)
      | None => scan r base has hi
      end
  end.

(** The last element which is called exactly [base] and does not match the pattern is
    renamed (element.py:323-326): the assignment to unpatched_elem is overwritten by later
    ones.  Returns [None] if there is none. *)
Fixpoint rename_last (names : list string) (base : string) : option (list string) :=
  match names with
  | [] => None
  | n :: r =>
      match rename_last r base with
      | Some r' => Some (n :: r')
      | None =>
          match match_index base n with
          | Some _ => None
          | None => if String.eqb n base then Some ((n ++ "_" ++ "0")%string :: r) else None
          end
      end
  end.

(** [make_unique_name_in_list], element.py:304-330: the names in the list afterwards, and
    the returned name. *)
Definition make_unique (names : list string) (base : string) : list string * string :=
  let (has, hi) := scan names base false 0 in
  let ren := rename_last names base in
  let names' := match ren with Some l => l | None => names end in
  if has || match ren with Some _ => true | None => false end
  then (names', (base ++ "_" ++ dec (hi + 1))%string)
  else (names', base).

(** Adding an element under the returned name, as the create_*_event methods do
    (element.py:8069-8447: [event_name = self._make_unique_event_name(...)], then append). *)
Definition add_unique (names : list string) (base : string) : list string :=
  let (names', n) := make_unique names base in names' ++ [n].

(** RunnableEntity.append_* (element.py:6943-7112): the helper is called, its result is
    discarded and the element is appended under its own name. *)
Definition append_access (names : list string) (n : string) : list string :=
  let (names', _) := make_unique names n in names' ++ [n].
