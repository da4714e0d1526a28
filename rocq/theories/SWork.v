(** Specification vocabulary for the workspace (C13, C14, C38, C39), independent of the
    functions of the model: which key denotes which role, following a relative path,
    growth of the package tree, dependencies, contents of documents. *)
From Coq Require Import Sorted.
From Verif Require Import Base MHeap SHeap MWork.

(** ** C13 *)

(** The two spellings of a role in a package map. *)
Definition upper_name (r : package_role) : string :=
  match r with
  | APPLICATION_DATA_TYPE => "APPLICATION_DATA_TYPE" | BASE_TYPE => "BASE_TYPE"
  | COMPONENT_TYPE => "COMPONENT_TYPE" | COMPU_METHOD => "COMPU_METHOD"
  | DATA_CONSTRAINT => "DATA_CONSTRAINT" | IMPLEMENTATION_DATA_TYPE => "IMPLEMENTATION_DATA_TYPE"
  | MODE_DECLARATION => "MODE_DECLARATION" | PORT_INTERFACE => "PORT_INTERFACE"
  | UNIT => "UNIT" | CONSTANT => "CONSTANT"
  end.
Definition camel_name (r : package_role) : string :=
  match r with
  | APPLICATION_DATA_TYPE => "ApplicationDataType" | BASE_TYPE => "BaseType"
  | COMPONENT_TYPE => "ComponentType" | COMPU_METHOD => "CompuMethod"
  | DATA_CONSTRAINT => "DataConstraint" | IMPLEMENTATION_DATA_TYPE => "ImplementationDataType"
  | MODE_DECLARATION => "ModeDeclaration" | PORT_INTERFACE => "PortInterface"
  | UNIT => "Unit" | CONSTANT => "Constant"
  end.

(** A key of a package map denotes a role: one of the spellings, or "!" followed by a
    user-defined role. *)
Inductive denotes : string -> role -> Prop :=
| den_upper r : denotes (upper_name r) (REnum r)
| den_camel r : denotes (camel_name r) (REnum r)
| den_user s : denotes ("!" ++ s) (RStr s).

(** A name of a package as used in a path. *)
Definition plain (n : string) : Prop := valid_name n /\ n <> "." /\ n <> "..".

(** [follow p comps q]: starting in the package with path [p] (a list of names, the root is
    []), following the components of a relative path leads to the path [q]. *)
Inductive follow : list string -> list string -> list string -> Prop :=
| fo_done p : follow p [] p
| fo_empty p r q : follow p r q -> follow p ("" :: r) q
| fo_dot p r q : follow p r q -> follow p ("." :: r) q
| fo_up p n r q : follow p r q -> follow (p ++ [n]) (".." :: r) q
| fo_up_root r q : follow [] r q -> follow [] (".." :: r) q
| fo_down p n r q : plain n -> follow (p ++ [n]) r q -> follow p (n :: r) q.

(** The absolute reference of a path of names. *)
Definition abs (ns : list string) : string := ("/" ++ join "/" ns)%string.

(** ** C14 *)

(** [h'] has all objects of [h] with the same kinds, names and parents; children were only
    added. *)
Definition extends (h h' : heap) : Prop :=
  forall i o, nth_error h i = Some o ->
    exists o', nth_error h' i = Some o'
      /\ o_kind o' = o_kind o /\ o_name o' = o_name o /\ o_parent o' = o_parent o
      /\ (exists new, o_packages o' = o_packages o ++ new)
      /\ (exists new, o_elements o' = o_elements o ++ new)
      /\ (exists new, o_map o' = o_map o ++ new).

(** The documented contract of a create method (template.py:51-76): called with a package it
    only adds to the state; an object it returns has the template's element name and, with
    append_to_package, is a new one, otherwise it has already been put into the package. *)
Definition contract (t : tmpl) : Prop :=
  forall h p dm h' r,
    reachable h -> has_kind KPkg h p -> tm_create t h p dm = (h', r) ->
    reachable h' /\ extends h h' /\
    forall e, r = Ok (Some e) ->
      name_is h' e (tm_name t) /\
      (if tm_append t then nth_error h e = None else listed_child h' p (tm_name t) e).

(** [d] is [t], or a direct or indirect dependency of [t]. *)
Inductive part_of (d : tmpl) : tmpl -> Prop :=
| po_self : part_of d d
| po_dep t x : In x (tm_depends t) -> part_of d x -> part_of d t.

Definition well_behaved (t : tmpl) : Prop :=
  forall d, part_of d t -> contract d /\ valid_name (tm_name d).

(** In state [h] the element of template [t] exists in workspace [c]. *)
Definition present (nss : list (string * namespace)) (c : nat) (h : heap) (t : tmpl) : Prop :=
  exists r e, tm_ref nss t = Ok r /\ coll_find h c r = Ok (Some e).

(** ** C39 *)

(** Only parents of objects, and the document [d], differ between the states. *)
Definition same_except (d : nat) (h h' : heap) : Prop :=
  List.length h' = List.length h /\
  forall i o, nth_error h i = Some o ->
    exists o', nth_error h' i = Some o' /\ o_kind o' = o_kind o /\ o_name o' = o_name o /\
      (i <> d -> o_packages o' = o_packages o /\ o_elements o' = o_elements o /\ o_map o' = o_map o).

(** The packages found under a list of references, in order; references that lead nowhere are
    skipped. *)
Inductive resolved (h : heap) (ws : nat) : list string -> list nat -> Prop :=
| re_nil : resolved h ws [] []
| re_found r rs p ps : coll_find h ws r = Ok (Some p) -> has_kind KPkg h p ->
    resolved h ws rs ps -> resolved h ws (r :: rs) (p :: ps)
| re_none r rs ps : coll_find h ws r = Ok None -> resolved h ws rs ps -> resolved h ws (r :: rs) ps.

Definition packages_of (h : heap) (d : nat) : list nat :=
  match nth_error h d with Some o => o_packages o | None => [] end.
Definition elements_of (h : heap) (d : nat) : list nat :=
  match nth_error h d with Some o => o_elements o | None => [] end.
Definition name_of (h : heap) (i : nat) : string :=
  match nth_error h i with Some o => o_name o | None => "" end.

(** Element [x] of the package belongs into the document generated for element [e]. *)
Definition belongs (h : heap) (suffixes : list string) (elements : list nat) (e x : nat) : Prop :=
  x = e \/ (In x elements /\ exists s, In s suffixes /\ s <> "" /\
            name_of h x = (name_of h e ++ s)%string).

(** From [d] down there is exactly one package at every level, along the names [ns], ending in
    [q], and only [q] has elements. *)
Inductive only_path (h : heap) : nat -> list string -> nat -> Prop :=
| op_here d n q : packages_of h d = [q] -> elements_of h d = [] -> name_of h q = n ->
    packages_of h q = [] -> only_path h d [n] q
| op_down d n p ns q : packages_of h d = [p] -> elements_of h d = [] -> name_of h p = n ->
    only_path h p ns q -> only_path h d (n :: ns) q.

(** Order of the elements in a generated document. *)
Definition leb_name (h : heap) (a b : nat) : Prop := String.leb (name_of h a) (name_of h b) = true.

(** What the file generated for element [e] looks like: its path, and a document holding one
    package path [ns] with exactly the elements that belong to [e], each once, sorted by name. *)
Definition file_ok (h : heap) (root : option string) (m : mapping) (ns : list string) (l : list nat)
    (e : nat) (f : file) : Prop :=
  f_path f = out_path root (name_of h e ++ ".arxml") /\
  exists q, only_path (f_heap f) (f_doc f) ns q /\
    (forall x, In x (elements_of (f_heap f) q) <-> belongs h (m_suffixes m) l e x) /\
    StronglySorted (leb_name h) (elements_of (f_heap f) q) /\
    NoDup (elements_of (f_heap f) q).
