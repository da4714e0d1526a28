(** Specification vocabulary for the package tree (C01-C07), independent of the
    model's own search and naming functions: reachable states, the "listed child"
    relation, paths of short-names and chains of parents. *)
From Verif Require Import Base MHeap.

(** A state some sequence of API calls produces. *)
Definition reachable (h : heap) : Prop := exists ops, h = run ops.

Definition has_kind (k : kind) (h : heap) (i : nat) : Prop :=
  exists o, nth_error h i = Some o /\ o_kind o = k.

Definition name_is (h : heap) (i : nat) (n : string) : Prop :=
  exists o, nth_error h i = Some o /\ o_name o = n.

Definition parent_is (h : heap) (i : nat) (p : option nat) : Prop :=
  exists o, nth_error h i = Some o /\ o_parent o = p.

(** [i] is listed among the sub-packages or elements of package/collection [p] and is
    called [n]. *)
Definition listed_child (h : heap) (p : nat) (n : string) (i : nat) : Prop :=
  exists o, nth_error h p = Some o
    /\ (o_kind o = KPkg \/ o_kind o = KColl)
    /\ (In i (o_packages o) \/ In i (o_elements o))
    /\ name_is h i n.

(** Walking down the listed children along a list of short-names. *)
Inductive path (h : heap) : nat -> list string -> nat -> Prop :=
| path_one p n i : listed_child h p n i -> path h p [n] i
| path_cons p n q ns i : listed_child h p n q -> path h q ns i -> path h p (n :: ns) i.

(** Walking up the parent links from [i] ends in [r], which has no parent. *)
Inductive chain (h : heap) : nat -> nat -> Prop :=
| chain_end i : parent_is h i None -> chain h i i
| chain_up i p r : parent_is h i (Some p) -> chain h p r -> chain h i r.

(** AUTOSAR short-names are non-empty and contain no '/'. *)
Definition valid_name (n : string) : Prop := n <> "" /\ mem_char slash n = false.

Definition valid_names (h : heap) : Prop :=
  forall i o, nth_error h i = Some o -> o_kind o <> KColl -> valid_name (o_name o).

(** [h'] contains everything of [h] unchanged, except that child lists and name
    lookups may have grown. *)
Definition grown (h h' : heap) : Prop :=
  forall i o, nth_error h i = Some o ->
    exists o', nth_error h' i = Some o'
      /\ o_kind o' = o_kind o /\ o_name o' = o_name o /\ o_parent o' = o_parent o
      /\ o_elements o' = o_elements o
      /\ (exists new, o_packages o' = o_packages o ++ new)
      /\ (exists new, o_map o' = o_map o ++ new).

(** The children of package/collection [i] have pairwise different names and the
    lookup by name finds exactly the listed children. *)
Definition children_unique (h : heap) (i : nat) : Prop :=
  forall o, nth_error h i = Some o -> o_kind o = KPkg \/ o_kind o = KColl ->
    (forall a b n, In a (o_packages o ++ o_elements o) -> In b (o_packages o ++ o_elements o) ->
        name_is h a n -> name_is h b n -> a = b)
    /\ NoDup (o_packages o ++ o_elements o)
    /\ (forall n a, assoc n (o_map o) = Some a <-> listed_child h i n a).

(** Some initial part of the path of names leads from [p] to an object that is not a
    package (so the path cannot be made into a path of packages). *)
Definition leads_into_element (h : heap) (p : nat) (ns : list string) : Prop :=
  exists a b x, ns = a ++ b /\ path h p a x /\ ~ has_kind KPkg h x.
