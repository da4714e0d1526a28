(** Specification for C66: the tree of packages and elements that hangs below an object of the workspace,
    and where things stand in a document. *)
From Verif Require Import Base MHeap SHeap MCodec MArxml.
Open Scope list_scope.

(** [c] gives the attributes of each element object, [id] those of each package object.  The tree below package [p]: the
    attributes of [p], the elements and sub-packages in their order.  Names are those of the objects. *)
Inductive package_of (h : heap) (c : nat -> ARElement) (id : nat -> identifiable) : nat -> package -> Prop :=
| package_of_intro p o ps : nth_error h p = Some o -> o_kind o = KPkg -> id_name (id p) = o_name o ->
    (forall e, In e (o_elements o) -> name_is h e (element_name (c e))) ->
    Forall2 (package_of h c id) (o_packages o) ps ->
    package_of h c id p (mkPackage (id p) (map c (o_elements o)) ps).
(** The document below the collection [d] *)
Definition document_of (h : heap) (c : nat -> ARElement) (id : nat -> identifiable) (d : nat) (doc : document) : Prop :=
  exists o, nth_error h d = Some o /\ o_kind o = KColl /\ Forall2 (package_of h c id) (o_packages o) (doc_packages doc).

(** The element that stands at a path of short-names in a list of packages *)
Inductive stands : list package -> list string -> ARElement -> Prop :=
| stands_here i es ps l e : In (mkPackage i es ps) l -> In e es -> stands l [id_name i; element_name e] e
| stands_below i es ps l ns e : In (mkPackage i es ps) l -> stands ps ns e -> stands l (id_name i :: ns) e.
(** The attributes of a package *)
Definition package_ident (p : package) : identifiable := match p with mkPackage i _ _ => i end.
(** The package at a path *)
Inductive package_stands : list package -> list string -> package -> Prop :=
| package_here l p : In p l -> package_stands l [package_name p] p
| package_below i es ps l ns p : In (mkPackage i es ps) l -> package_stands ps ns p -> package_stands l (id_name i :: ns) p.
(** No package is inside itself. *)
Definition acyclic (h : heap) : Prop :=
  exists depth : nat -> nat, forall p o q, nth_error h p = Some o -> In q (o_packages o) -> depth q < depth p.
(** A history in which packages are only appended to packages that were made before them. *)
Fixpoint oldest_first (h : heap) (ops : list op) : Prop :=
  match ops with
  | [] => True
  | o :: r => match o with OPkgAppend p i => has_kind KPkg h i -> p < i | _ => True end /\ oldest_first (fst (step h o)) r
  end.
(** The attributes have the names of the objects. *)
Definition named_contents (h : heap) (c : nat -> ARElement) (id : nat -> identifiable) : Prop :=
  forall x o, nth_error h x = Some o ->
    (o_kind o = KPkg -> id_name (id x) = o_name o) /\ (o_kind o = KElem \/ o_kind o = KComp -> element_name (c x) = o_name o).
