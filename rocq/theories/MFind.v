(** Looking objects up by reference in a tree of packages with typed elements, and the references of
    the objects found.  Source: /repo/src/autosar/xml/element.py.  No proofs in this file.
    Simplifications: the objects found are values, together with the path the ref methods compute
    for them (Identifiable._calc_ref_string, element.py:266-280); the name maps of packages hold
    the short-names of the listed children (proved for every history of operations in PropsHeap.v). *)
From Verif Require Import Base MNames MNum MXml MEnum MRefTab MRef MCodec MElem0 MElem1 MElemA MElemB MElemC MElem2 MElemD MElem3 MElem4 MElemE MElem5 MElemF MArxml.

(** The first element of a list with the given short-name: the loops of the find methods,
    element.py:4921-4925, 5395-5401, 3231-3237, ARObject._find_by_name, xml/base.py:156-164 *)
Fixpoint first_named {A} (name_of : A -> string) (n : string) (l : list A) : option A :=
  match l with
  | [] => None
  | a :: r => if String.eqb (name_of a) n then Some a else first_named name_of n r
  end.

(** port.name, element.py:182 *)
Definition port_name (p : PortPrototypeElement) : string :=
  id_name (match p with
           | PortPrototypeElement_P e => ProvidePortPrototype_ident e
           | PortPrototypeElement_R e => RequirePortPrototype_ident e
           | PortPrototypeElement_PR e => PRPortPrototype_ident e
           end).
(** connector.name, element.py:182 *)
Definition connector_name (c : SwConnectorElement) : string :=
  id_name (match c with
           | SwConnectorElement_Assembly e => AssemblySwConnector_ident e
           | SwConnectorElement_Delegation e => DelegationSwConnector_ident e
           | SwConnectorElement_PassThrough e => PassThroughSwConnector_ident e
           end).
(** component.name, element.py:182 *)
Definition component_name (c : SwComponentPrototype) : string := id_name (SwComponentPrototype_ident c).
(** mode_declaration.name and mode_transition.name, element.py:182 *)
Definition mode_name (m : ModeDeclaration) : string := id_name (ModeDeclaration_ident m).
Definition transition_name (m : ModeTransition) : string := id_name (ModeTransition_ident m).
(** sub_element.name, element.py:182 *)
Definition type_element_name (e : ImplementationDataTypeElement) : string := id_name (ImplementationDataTypeElement_ident e).

(** What a find method returns, unless None. *)
Inductive found :=
| FPackage (p : package)
| FElement (e : ARElement)
| FPort (p : PortPrototypeElement)
| FComponent (c : SwComponentPrototype)
| FConnector (c : SwConnectorElement)
| FMode (m : ModeDeclaration)
| FTransition (t : ModeTransition)
| FTypeElement (e : ImplementationDataTypeElement).

(** SwComponentType.find, element.py:4917-4926 *)
Definition ports_find (ports : list PortPrototypeElement) (ref : string) : option found :=
  option_map FPort (first_named port_name (fst (partition_slash ref)) ports).
(** CompositionSwComponentType.find, element.py:5391-5402 *)
Definition composition_find (c : CompositionSwComponentType) (ref : string) : option found :=
  let n := fst (partition_slash ref) in
  match first_named component_name n (CompositionSwComponentType_components c) with
  | Some e => Some (FComponent e)
  | None =>
      match first_named connector_name n (CompositionSwComponentType_connectors c) with
      | Some e => Some (FConnector e)
      | None => ports_find (CompositionSwComponentType_ports c) ref
      end
  end.
(** ModeDeclarationGroup.find, element.py:3227-3237 *)
Definition mode_group_find (g : ModeDeclarationGroup) (name : string) : option found :=
  match first_named mode_name name (ModeDeclarationGroup_mode_declarations g) with
  | Some e => Some (FMode e)
  | None => option_map FTransition (first_named transition_name name (ModeDeclarationGroup_mode_transitions g))
  end.
(** elem.find(ref) of the classes of elements; the other classes have no find method.
    ImplementationDataType.find, element.py:1996-2001. *)
Definition element_find (e : ARElement) (ref : string) : result (option found) :=
  match e with
  | AR_ApplicationSoftwareComponentType e => Ok (ports_find (ApplicationSoftwareComponentType_ports e) ref)
  | AR_CompositionSwComponentType e => Ok (composition_find e ref)
  | AR_ModeDeclarationGroup e => Ok (mode_group_find e ref)
  | AR_ImplementationDataType e =>
      if mem_char slash ref then Err AssertionError
      else Ok (option_map FTypeElement (first_named type_element_name ref (ImplementationDataType_sub_elements e)))
  | _ => Err AttributeError
  end.
(** The short-name of an object found, element.py:182 *)
Definition found_name (f : found) : string :=
  match f with
  | FPackage p => package_name p
  | FElement e => element_name e
  | FPort p => port_name p
  | FComponent c => component_name c
  | FConnector c => connector_name c
  | FMode m => mode_name m
  | FTransition t => transition_name t
  | FTypeElement e => type_element_name e
  end.

(** One more step of a reference string, Identifiable._calc_ref_string, element.py:266-280 *)
Definition below (path name : string) : string := (path ++ "/" ++ name)%string.
(** Package.find, element.py:2897-2908; [path] is the reference string of the package *)
Fixpoint package_find (path : string) (p : package) (ref : string) {struct p} : result (option (string * found)) :=
  match p with
  | mkPackage _ elements packages =>
      let (n, rest) := partition_slash (strip_slash ref) in
      match first_named element_name n elements with
      | Some e =>
          if String.eqb rest "" then Ok (Some (below path n, FElement e))
          else let* f := element_find e rest in
               Ok (option_map (fun f => (below (below path n) (found_name f), f)) f)
      | None =>
          (fix go ps := match ps with
                        | [] => Ok None
                        | q :: r =>
                            if String.eqb (package_name q) n then
                              if String.eqb rest "" then Ok (Some (below path n, FPackage q)) else package_find (below path n) q rest
                            else go r
                        end) packages
      end
  end.
(** PackageCollection.find with a str, element.py:3038-3053 *)
Definition tree_find (ws : list package) (ref : string) : result (option (string * found)) :=
  let (n, rest) := partition_slash (strip_slash ref) in
  match first_named package_name n ws with
  | None => Ok None
  | Some q => if String.eqb rest "" then Ok (Some (below "" n, FPackage q)) else package_find (below "" n) q rest
  end.
(** find with an optional reference object: anything but a reference raises TypeError,
    element.py:3042-3046 *)
Definition tree_find_ref (ws : list package) (r : option ref) : result (option (string * found)) :=
  match r with Some r => tree_find ws (rf_value r) | None => Err TypeError end.

(** port.ref(), element.py:4724-4732, 4774-4782, 4830-4838, for the reference string of the
    component that owns the port (None: the component is not part of a package) *)
Definition port_dest (p : PortPrototypeElement) : IdentifiableSubTypes :=
  match p with
  | PortPrototypeElement_P _ => IdentifiableSubTypes_P_PORT_PROTOTYPE
  | PortPrototypeElement_R _ => IdentifiableSubTypes_R_PORT_PROTOTYPE
  | PortPrototypeElement_PR _ => IdentifiableSubTypes_PR_PORT_PROTOTYPE
  end.
Definition port_ref (owner : option string) (p : PortPrototypeElement) : option ref :=
  option_map (fun o => mkRef (below o (port_name p)) (port_dest p)) owner.
(** Identifiable.__init__ with nothing but a name, element.py:231-256 *)
Definition named (name : string) : identifiable := mkIdent name None None None None None None None.
