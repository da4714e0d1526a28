(** Vocabulary of C19: the Python data that denotes a tree of values, independently of how it is
    converted. *)
From Verif Require Import Base MNum SXml MRef SCodec MElemA MElemB MValue.
Open Scope list_scope.

(** Markers, in any letter case. *)
Definition array_marker (m : string) : Prop := upper m = "A" \/ upper m = "ARRAY".
Definition record_marker (m : string) : Prop := upper m = "R" \/ upper m = "RECORD".

(** The documented notation of a tree: scalars as themselves, None for "not available", lists that
    begin with "A" or "R" for arrays and records, pairs for labelled values, triples for labelled
    "not available" values with a default pattern. *)
Definition labelled (label : option string) (d : pydata) : pydata :=
  match label with None => d | Some l => DTuple [DStr l; d] end.
Fixpoint notation_of (m : made) : pydata :=
  match m with
  | MText label s => labelled label (DStr s)
  | MNum label n => labelled label n
  | MNotAvailable (Some l) p => match p with DNone => DTuple [DStr l; DNone] | _ => DTuple [DStr l; DNone; p] end
  | MNotAvailable None _ => DNone
  | MArray label l => labelled label (DList (DStr "A" :: map notation_of l))
  | MRecord label l => labelled label (DList (DStr "R" :: map notation_of l))
  end.
(** The trees that have a notation: numbers are numbers, a default pattern needs a label and is not
    negative. *)
Fixpoint proper (m : made) : Prop :=
  match m with
  | MText _ _ => True
  | MNum _ n => match n with DNum _ | DBool _ => True | _ => False end
  | MNotAvailable label p => (label = None -> p = DNone) /\ match p with DNum (NInt z) => (0 <= z)%Z | _ => True end
  | MArray _ l | MRecord _ l => (fix all l := match l with [] => True | a :: r => proper a /\ all r end) l
  end.

(** Two notations of the same tree: other spellings of the markers, and a third component that is
    not used because the value is available, or that is None. *)
Inductive same_notation : pydata -> pydata -> Prop :=
| same_scalar d : match d with DNum _ | DBool _ | DStr _ | DNone => True | _ => False end -> same_notation d d
| same_array m l l' : array_marker m -> Forall2 same_notation l l' -> same_notation (DList (DStr m :: l)) (DList (DStr "A" :: l'))
| same_record m l l' : record_marker m -> Forall2 same_notation l l' -> same_notation (DList (DStr m :: l)) (DList (DStr "R" :: l'))
| same_pair n d d' : same_notation d d' -> same_notation (DTuple [DStr n; d]) (DTuple [DStr n; d'])
| same_unused n d d' p : d <> DNone -> same_notation d d' -> same_notation (DTuple [DStr n; d; p]) (DTuple [DStr n; d'])
| same_no_pattern n : same_notation (DTuple [DStr n; DNone; DNone]) (DTuple [DStr n; DNone])
| same_pattern n p : p <> DNone -> same_notation (DTuple [DStr n; DNone; p]) (DTuple [DStr n; DNone; p]).

(** Which data denotes a tree. *)
Definition ok_value (self : pydata -> Prop) (v : pydata) : Prop :=
  match v with
  | DNum _ | DBool _ | DStr _ | DNone => True
  | DList (DStr m :: r) => (array_marker m \/ record_marker m) /\ (fix all l := match l with [] => True | a :: r => self a /\ all r end) r
  | _ => False
  end.
Fixpoint acceptable (d : pydata) : Prop :=
  match d with
  | DTuple [DStr _; v] => ok_value acceptable v
  | DTuple [DStr _; DNone; DNum (NInt z)] => (0 <= z)%Z
  | DTuple [DStr _; v; _] => ok_value acceptable v
  | DTuple _ => False
  | _ => ok_value acceptable d
  end.

(** Data whose parts can all be written and read: texts an XML file can hold, numbers other than
    bool (written as "True") and below 10^28, and default patterns that are numbers without sign. *)
Definition writable_value (self : pydata -> Prop) (v : pydata) : Prop :=
  match v with
  | DNum n => good_number n
  | DStr s => good_text s
  | DNone => True
  | DList (DStr _ :: r) => (fix all l := match l with [] => True | a :: r => self a /\ all r end) r
  | _ => False
  end.
Fixpoint writable_data (d : pydata) : Prop :=
  match d with
  | DTuple [DStr label; v] => good_text label /\ writable_value writable_data v
  | DTuple [DStr label; v; p] =>
      good_text label /\ writable_value writable_data v /\
      match v with DNone => match p with DNone => True | DNum (NInt _) => True | _ => False end | _ => True end
  | DTuple _ => False
  | _ => writable_value writable_data d
  end.
