(** Model of the package tree: objects with identity, parent links, child lists
    and name maps.
    Source: /repo/src/autosar/xml/element.py
      Referrable 176-204, Identifiable.update_ref_parts/_calc_ref_string 258-280,
      Package 2834-2941, PackageCollection 3010-3088,
      SwComponentType.append_port/find 4879-4925,
      SenderReceiverInterface.append_data_element 3413-3422.
    No proofs in this file. *)
From Verif Require Import Base.

(** Classes of objects that take part in the package tree.
    [KColl]: PackageCollection (Workspace, Document); [KPkg]: Package;
    [KElem]: an ARElement whose class has no [find] method (port interfaces,
    constants, data types, ...); [KComp]: SwComponentType (has [find]);
    [KMem]: an Identifiable living inside an ARElement (port, data element, ...). *)
Inductive kind := KColl | KPkg | KElem | KComp | KMem.

(** One Python object.  [o_name], [o_parent]: Referrable.name/.parent
    (element.py:181-183).  [o_packages]: Package.packages / PackageCollection.packages.
    [o_elements]: Package.elements, or for KElem/KComp the member list
    (SwComponentType.ports, SenderReceiverInterface.data_elements).
    [o_map]: Package._collection_map / PackageCollection._package_dict
    (element.py:2841-2843, 3019-3021). *)
Record obj := mkObj {
  o_kind : kind;
  o_name : string;
  o_parent : option nat;
  o_packages : list nat;
  o_elements : list nat;
  o_map : list (string * nat)
}.

(** The Python heap: object identity is the index.  Objects are never freed. *)
Definition heap := list obj.

(** Object behind an identity. *)
Definition get (h : heap) (i : nat) : option obj := nth_error h i.

(** In-place modification of one object. *)
Fixpoint upd (h : heap) (i : nat) (f : obj -> obj) : heap :=
  match h, i with
  | [], _ => []
  | o :: r, 0 => f o :: r
  | o :: r, S j => o :: upd r j f
  end.

(** Assignment [x.parent = p]. *)
Definition set_parent (p : nat) (o : obj) : obj :=
  mkObj (o_kind o) (o_name o) (Some p) (o_packages o) (o_elements o) (o_map o).

(** [self.packages.append(item); self._collection_map[name] = item]
    (element.py:2854-2855, 2892-2893, 3035-3036). *)
Definition add_package (n : string) (i : nat) (o : obj) : obj :=
  mkObj (o_kind o) (o_name o) (o_parent o) (o_packages o ++ [i]) (o_elements o)
        (assoc_set n i (o_map o)).

(** [self.elements.append(elem); self._collection_map[elem.name] = elem]
    (element.py:2862-2863). *)
Definition add_element (n : string) (i : nat) (o : obj) : obj :=
  mkObj (o_kind o) (o_name o) (o_parent o) (o_packages o) (o_elements o ++ [i])
        (assoc_set n i (o_map o)).

(** [self.ports.append(port)] / [self.data_elements.append(e)]
    (element.py:4885, 3418): no name map, no duplicate check. *)
Definition add_member_to (i : nat) (o : obj) : obj :=
  mkObj (o_kind o) (o_name o) (o_parent o) (o_packages o) (o_elements o ++ [i]) (o_map o).

(** Object construction (element.py:181-183, 2839-2843, 3015-3021): no parent, no children. *)
Definition new_obj (k : kind) (n : string) : obj := mkObj k n None [] [] [].

(** Constructor call: the new identity is the next free one. *)
Definition alloc (h : heap) (k : kind) (n : string) : heap * nat :=
  (h ++ [new_obj k n], List.length h).

(** [Package.append], element.py:2845-2866.  A call on or with a dangling identity
    cannot be written in Python; the model answers [AttributeError]. *)
Definition pkg_append (h : heap) (p i : nat) : heap * result unit :=
  match get h p, get h i with
  | Some po, Some io =>
      match o_kind io with
      | KPkg =>
          match assoc (o_name io) (o_map po) with
          | Some _ => (h, Err DuplicateElement)
          | None => (upd (upd h i (set_parent p)) p (add_package (o_name io) i), Ok tt)
          end
      | KElem | KComp =>
          match assoc (o_name io) (o_map po) with
          | Some _ => (h, Err DuplicateElement)
          | None => (upd (upd h i (set_parent p)) p (add_element (o_name io) i), Ok tt)
          end
      | KColl | KMem => (h, Err TypeError)
      end
  | _, _ => (h, Err AttributeError)
  end.

(** [PackageCollection.append], element.py:3025-3036: anything that is not a Package
    is silently ignored. *)
Definition coll_append (h : heap) (c i : nat) : heap * result unit :=
  match get h c, get h i with
  | Some co, Some io =>
      match o_kind io with
      | KPkg =>
          match assoc (o_name io) (o_map co) with
          | Some _ => (h, Err ValueError)
          | None => (upd (upd h i (set_parent c)) c (add_package (o_name io) i), Ok tt)
          end
      | _ => (h, Ok tt)
      end
  | _, _ => (h, Err AttributeError)
  end.

(** [Package.create_package] 2885-2895 and [PackageCollection.create_package]
    3060-3069 (which constructs and appends).  For a name in use both return (not
    raise) a ValueError object; the model returns [Err ValueError] for it, because no
    package is created in either case. *)
Definition create_package (h : heap) (p : nat) (n : string) : heap * result nat :=
  match get h p with
  | Some po =>
      match assoc n (o_map po) with
      | Some _ => (h, Err ValueError)
      | None =>
          let (h1, i) := alloc h KPkg n in
          (upd (upd h1 i (set_parent p)) p (add_package n i), Ok i)
      end
  | None => (h, Err AttributeError)
  end.

(** [Package.make_packages], element.py:2868-2883.  [fuel] bounds the recursion; the
    callers give the length of the string plus one, which always suffices. *)
Fixpoint pkg_make (fuel : nat) (h : heap) (p : nat) (ref : string) : heap * result nat :=
  match fuel with
  | 0 => (h, Err OutOfFuel)
  | S fuel' =>
      if starts_slash ref then (h, Err ValueError)
      else
        let (n, rest) := partition_slash ref in
        let cont (h' : heap) (q : nat) :=
          if String.eqb rest "" then (h', Ok q) else pkg_make fuel' h' q rest in
        match get h p with
        | None => (h, Err AttributeError)
        | Some po =>
            match assoc n (o_map po) with
            | None =>
                match create_package h p n with
                | (h', Ok q) => cont h' q
                | (h', Err e) => (h', Err e)
                end
            | Some q =>
                match get h q with
                | Some qo =>
                    match o_kind qo with
                    | KPkg => cont h q
                    | _ => (h, Err KeyError)
                    end
                | None => (h, Err AttributeError)
                end
            end
        end
  end.

(** [PackageCollection.make_packages] with one argument, element.py:3071-3088. *)
Definition coll_make (h : heap) (c : nat) (ref : string) : heap * result nat :=
  let ref := strip_slash ref in
  let (n, rest) := partition_slash ref in
  let cont (h' : heap) (q : nat) :=
    if String.eqb rest "" then (h', Ok q) else pkg_make (S (String.length rest)) h' q rest in
  match get h c with
  | None => (h, Err AttributeError)
  | Some co =>
      match assoc n (o_map co) with
      | None =>
          match create_package h c n with
          | (h', Ok q) => cont h' q
          | (h', Err e) => (h', Err e)
          end
      | Some q => cont h q
      end
  end.

(** [PackageCollection.make_packages] with several arguments: one after the other,
    stopping at the first exception (element.py:3077-3088). *)
Fixpoint coll_make_all (h : heap) (c : nat) (refs : list string) : heap * result (list nat) :=
  match refs with
  | [] => (h, Ok [])
  | r :: rs =>
      match coll_make h c r with
      | (h1, Ok i) =>
          match coll_make_all h1 c rs with
          | (h2, Ok is) => (h2, Ok (i :: is))
          | (h2, Err e) => (h2, Err e)
          end
      | (h1, Err e) => (h1, Err e)
      end
  end.

(** [SwComponentType.find], element.py:4917-4925: first port whose name is the part
    before the first '/'; the rest of the reference is ignored. *)
Fixpoint first_named (h : heap) (n : string) (l : list nat) : option nat :=
  match l with
  | [] => None
  | i :: r =>
      match get h i with
      | Some o => if String.eqb (o_name o) n then Some i else first_named h n r
      | None => first_named h n r
      end
  end.

(** [Package.find] 2897-2908, dispatching on the class of the found item:
    classes without a [find] method raise AttributeError. *)
Fixpoint item_find (fuel : nat) (h : heap) (p : nat) (ref : string) : result (option nat) :=
  match fuel with
  | 0 => Err OutOfFuel
  | S fuel' =>
      match get h p with
      | None => Err AttributeError
      | Some po =>
          match o_kind po with
          | KPkg =>
              let (n, rest) := partition_slash (strip_slash ref) in
              match assoc n (o_map po) with
              | None => Ok None
              | Some q => if String.eqb rest "" then Ok (Some q) else item_find fuel' h q rest
              end
          | KComp => Ok (first_named h (fst (partition_slash ref)) (o_elements po))
          | _ => Err AttributeError
          end
      end
  end.

(** [PackageCollection.find] with a string (or the string of a reference object),
    element.py:3038-3053. *)
Definition coll_find (h : heap) (c : nat) (ref : string) : result (option nat) :=
  match get h c with
  | None => Err AttributeError
  | Some co =>
      let (n, rest) := partition_slash (strip_slash ref) in
      match assoc n (o_map co) with
      | None => Ok None
      | Some q => if String.eqb rest "" then Ok (Some q) else item_find (S (String.length rest)) h q rest
      end
  end.

(** [Identifiable.update_ref_parts] 258-266 and [PackageCollection.update_ref_parts]
    3055-3058, returning the list of appended parts; a final [None] marks a missing
    parent. *)
Fixpoint ref_parts (fuel : nat) (h : heap) (i : nat) : result (list (option string)) :=
  match fuel with
  | 0 => Err OutOfFuel
  | S fuel' =>
      match get h i with
      | None => Err AttributeError
      | Some o =>
          match o_kind o with
          | KColl => Ok [Some ""]
          | _ =>
              match o_parent o with
              | None => Ok [Some (o_name o); None]
              | Some p => let* r := ref_parts fuel' h p in Ok (Some (o_name o) :: r)
              end
          end
      end
  end.

(** All parts present, or nothing. *)
Fixpoint all_some (l : list (option string)) : option (list string) :=
  match l with
  | [] => Some []
  | Some s :: r => match all_some r with Some t => Some (s :: t) | None => None end
  | None :: _ => None
  end.

(** [Identifiable._calc_ref_string] 268-280 (what [ref()] is built from).
    The test [ref_parts[-1] is None] is modelled by "some part is None": only the last
    one can be. *)
Definition calc_ref (h : heap) (i : nat) : result (option string) :=
  match get h i with
  | None => Err AttributeError
  | Some o =>
      match o_parent o with
      | None => Ok None
      | Some p =>
          let* r := ref_parts (S (List.length h)) h p in
          match all_some r with
          | None => Ok None
          | Some t => Ok (Some (join "/" (rev (o_name o :: t))))
          end
      end
  end.

(** [Referrable.root_collection] 194-204. *)
Fixpoint root_collection (fuel : nat) (h : heap) (i : nat) : result (option nat) :=
  match fuel with
  | 0 => Err OutOfFuel
  | S fuel' =>
      match get h i with
      | None => Err AttributeError
      | Some o =>
          match o_parent o with
          | Some p => root_collection fuel' h p
          | None => match o_kind o with KColl => Ok (Some i) | _ => Ok None end
          end
      end
  end.

(** [SwComponentType.append_port] 4879-4888 and the [append_*] methods of port
    interfaces (3413-3422 and alike): sets the parent and appends, without checking
    names. *)
Definition add_member (h : heap) (c i : nat) : heap * result unit :=
  match get h c, get h i with
  | Some co, Some io =>
      match o_kind co, o_kind io with
      | KElem, KMem | KComp, KMem =>
          (upd (upd h i (set_parent c)) c (add_member_to i), Ok tt)
      | _, _ => (h, Err TypeError)
      end
  | _, _ => (h, Err AttributeError)
  end.

(** The calls a user can make, as data, so that histories are lists. *)
Inductive op :=
| ONew (k : kind) (n : string)
| OPkgAppend (p i : nat)
| OCollAppend (c i : nat)
| OCreate (p : nat) (n : string)
| OMake (c : nat) (ref : string)
| OPkgMake (p : nat) (ref : string)
| OMember (c i : nat).

(** Is the identity a document/workspace? a package? (Python: which method runs depends
    on the class of the receiver.) *)
Definition is_kind (k : kind) (h : heap) (i : nat) : bool :=
  match get h i with
  | Some o => match k, o_kind o with
              | KColl, KColl | KPkg, KPkg | KElem, KElem | KComp, KComp | KMem, KMem => true
              | _, _ => false
              end
  | None => false
  end.

(** One call.  A method called on an object of a class that does not have it raises
    AttributeError and does nothing. *)
Definition step (h : heap) (o : op) : heap * result unit :=
  match o with
  | ONew k n => (fst (alloc h k n), Ok tt)
  | OPkgAppend p i => if is_kind KPkg h p then pkg_append h p i else (h, Err AttributeError)
  | OCollAppend c i => if is_kind KColl h c then coll_append h c i else (h, Err AttributeError)
  | OCreate p n =>
      if is_kind KPkg h p || is_kind KColl h p then
        match create_package h p n with
        | (h', Ok _) => (h', Ok tt)
        | (h', Err e) => (h', Err e)
        end
      else (h, Err AttributeError)
  | OMake c r =>
      if is_kind KColl h c then
        match coll_make h c r with
        | (h', Ok _) => (h', Ok tt)
        | (h', Err e) => (h', Err e)
        end
      else (h, Err AttributeError)
  | OPkgMake p r =>
      if is_kind KPkg h p then
        match pkg_make (S (String.length r)) h p r with
        | (h', Ok _) => (h', Ok tt)
        | (h', Err e) => (h', Err e)
        end
      else (h, Err AttributeError)
  | OMember c i => add_member h c i
  end.

(** A whole history starting from no objects; failed calls are part of it. *)
Definition run (ops : list op) : heap := fold_left (fun h o => fst (step h o)) ops [].
