(** Specification vocabulary for enumerations and references. *)
From Verif Require Import Base MEnum MRefTab MRef.

(** The enumeration has both tables. *)
Definition has_tables (e : some_enum) : Prop :=
  match e with SomeEnum _ m => em_from m <> None /\ em_to m <> None end.

(** The class accepts exactly one destination kind. *)
Definition single (c : ref_class) (d : IdentifiableSubTypes) : Prop := rc_accepted c = [d].
Definition multiple (c : ref_class) : Prop := (2 <= List.length (rc_accepted c))%nat.

(** A reference object of class [c] as it may exist. *)
Definition valid_ref (c : ref_class) (r : ref) : Prop := In (rf_dest r) (rc_accepted c).
