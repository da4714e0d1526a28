(** Where objects stand in a tree of packages, independently of how they are searched. *)
From Verif Require Import Base MHeap SHeap MNum MEnum MRefTab MRef MCodec MElem1 MElemB MElemC MElem2 MElem4 MElemE MElemF MArxml MFind.
Open Scope list_scope.

(** The named objects inside an element that its find method knows: the ports of a component, the
    component prototypes and connectors of a composition, the modes and transitions of a mode group,
    the elements of an implementation data type. *)
Definition members (e : ARElement) : list found :=
  match e with
  | AR_ApplicationSoftwareComponentType e => map FPort (ApplicationSoftwareComponentType_ports e)
  | AR_CompositionSwComponentType e =>
      map FComponent (CompositionSwComponentType_components e) ++ map FConnector (CompositionSwComponentType_connectors e) ++
      map FPort (CompositionSwComponentType_ports e)
  | AR_ModeDeclarationGroup e =>
      map FMode (ModeDeclarationGroup_mode_declarations e) ++ map FTransition (ModeDeclarationGroup_mode_transitions e)
  | AR_ImplementationDataType e => map FTypeElement (ImplementationDataType_sub_elements e)
  | _ => []
  end.

(** The list of short-names that leads from a package to an object inside it. *)
Inductive inside : package -> list string -> found -> Prop :=
| in_element i es ps e : In e es -> inside (mkPackage i es ps) [element_name e] (FElement e)
| in_member i es ps e f : In e es -> In f (members e) -> inside (mkPackage i es ps) [element_name e; found_name f] f
| in_package i es ps q : In q ps -> inside (mkPackage i es ps) [package_name q] (FPackage q)
| in_deeper i es ps q ns f : In q ps -> inside q ns f -> inside (mkPackage i es ps) (package_name q :: ns) f.
(** The list of short-names that leads from the workspace to an object. *)
Inductive at_path (ws : list package) : list string -> found -> Prop :=
| at_top q : In q ws -> at_path ws [package_name q] (FPackage q)
| at_inside q ns f : In q ws -> inside q ns f -> at_path ws (package_name q :: ns) f.
(** The reference string of such a list. *)
Definition path_string (ns : list string) : string := ("/" ++ join "/" ns)%string.

(** Valid and pairwise different names within one scope. *)
Definition scope_ok (names : list string) : Prop := Forall valid_name names /\ NoDup names.
Definition element_ok (e : ARElement) : Prop := scope_ok (map found_name (members e)).
Inductive package_ok : package -> Prop :=
| package_is_ok i es ps : scope_ok (map element_name es ++ map package_name ps) -> Forall element_ok es -> Forall package_ok ps ->
    package_ok (mkPackage i es ps).
Definition tree_ok (ws : list package) : Prop := scope_ok (map package_name ws) /\ Forall package_ok ws.

(** ** Connectors *)
(** The names within a composition, in the order its find method searches them. *)
Definition composition_names (c : CompositionSwComponentType) : list string :=
  map component_name (CompositionSwComponentType_components c) ++ map connector_name (CompositionSwComponentType_connectors c) ++
  map port_name (CompositionSwComponentType_ports c).
(** The component prototype is typed by the component type at a path. *)
Definition typed_by (ws : list package) (k : SwComponentPrototype) (ns : list string) (e : ARElement) : Prop :=
  exists r, SwComponentPrototype_type_ref k = Some r /\ rf_value r = path_string ns /\ at_path ws ns (FElement e).
Definition is_component_type (e : ARElement) : Prop :=
  match e with AR_ApplicationSoftwareComponentType _ | AR_CompositionSwComponentType _ => True | _ => False end.
(** What a text means inside a composition: a port of the composition itself, or a port of the
    component type of one of its component prototypes. *)
Inductive means (ws : list package) (c : CompositionSwComponentType) : string -> PortPrototypeElement -> option (SwComponentPrototype * list string) -> Prop :=
| means_outer p : In p (CompositionSwComponentType_ports c) -> means ws c (port_name p) p None
| means_inner k p ns e : In k (CompositionSwComponentType_components c) -> typed_by ws k ns e -> is_component_type e -> In (FPort p) (members e) ->
    means ws c (component_name k ++ "/" ++ port_name p)%string p (Some (k, ns)).
(** The reference to a port: the path of the component type that has it and the kind of port. *)
Definition ref_to_port (ns : list string) (p : PortPrototypeElement) : ref := mkRef (path_string (ns ++ [port_name p])) (port_dest p).
(** The reference to a port within a component prototype of the composition at path [self]. *)
Definition ref_to_instance (self : list string) (k : SwComponentPrototype) (ns : list string) (p : PortPrototypeElement) : PortInCompositionTypeInstanceRef :=
  mkPortInCompositionTypeInstanceRef (Some (mkRef (path_string (self ++ [component_name k])) IdentifiableSubTypes_SW_COMPONENT_PROTOTYPE))
    (Some (ref_to_port ns p)).
(** Which connector joins two ports of a composition at path [self]: an assembly connector from the
    provide-port to the require-port of two components, a delegation connector between a port of a
    component and a port of the composition, a pass-through connector between two ports of the
    composition. *)
Inductive joins (self : list string) : PortPrototypeElement -> option (SwComponentPrototype * list string) ->
  PortPrototypeElement -> option (SwComponentPrototype * list string) -> SwConnectorElement -> Prop :=
| joins_assembly p1 k1 t1 p2 k2 t2 :
    joins self (PortPrototypeElement_P p1) (Some (k1, t1)) (PortPrototypeElement_R p2) (Some (k2, t2))
      (SwConnectorElement_Assembly (mkAssemblySwConnector
         (named (component_name k1 ++ "_" ++ id_name (ProvidePortPrototype_ident p1) ++ "_" ++ component_name k2 ++ "_" ++ id_name (RequirePortPrototype_ident p2))%string)
         (Some (ref_to_instance self k1 t1 (PortPrototypeElement_P p1))) (Some (ref_to_instance self k2 t2 (PortPrototypeElement_R p2)))))
| joins_delegation_out p1 k1 t1 p2 :
    joins self p1 (Some (k1, t1)) (PortPrototypeElement_P p2) None
      (SwConnectorElement_Delegation (mkDelegationSwConnector
         (named (component_name k1 ++ "_" ++ port_name p1 ++ "_" ++ id_name (ProvidePortPrototype_ident p2))%string)
         (Some (ref_to_instance self k1 t1 p1)) (Some (ref_to_port self (PortPrototypeElement_P p2)))))
| joins_delegation_in p1 k1 t1 p2 : (forall q, p2 <> PortPrototypeElement_P q) ->
    joins self p1 (Some (k1, t1)) p2 None
      (SwConnectorElement_Delegation (mkDelegationSwConnector
         (named (port_name p2 ++ "_" ++ component_name k1 ++ "_" ++ port_name p1)%string)
         (Some (ref_to_instance self k1 t1 p1)) (Some (ref_to_port self p2))))
| joins_pass_through p1 p2 :
    joins self (PortPrototypeElement_P p1) None (PortPrototypeElement_R p2) None
      (SwConnectorElement_PassThrough (mkPassThroughSwConnector
         (named (id_name (ProvidePortPrototype_ident p1) ++ "_" ++ id_name (RequirePortPrototype_ident p2))%string)
         (Some (ref_to_port self (PortPrototypeElement_P p1))) (Some (ref_to_port self (PortPrototypeElement_R p2))))).
(** A port of the composition, or of the component type that the type reference of one of its
    component prototypes leads to, whatever the text that named it. *)
Inductive port_of (ws : list package) (c : CompositionSwComponentType) : PortPrototypeElement -> option (SwComponentPrototype * list string) -> Prop :=
| port_outer p : In p (CompositionSwComponentType_ports c) -> port_of ws c p None
| port_inner k r p ns e : In k (CompositionSwComponentType_components c) -> SwComponentPrototype_type_ref k = Some r ->
    tree_find ws (rf_value r) = Ok (Some (path_string ns, FElement e)) -> at_path ws ns (FElement e) -> is_component_type e -> In (FPort p) (members e) ->
    port_of ws c p (Some (k, ns)).
(** The kind of object a reference must name, in the references of a connector. *)
Definition found_dest (f : found) : option IdentifiableSubTypes :=
  match f with FPort p => Some (port_dest p) | FComponent _ => Some IdentifiableSubTypes_SW_COMPONENT_PROTOTYPE | _ => None end.
(** All references of a connector. *)
Definition instance_refs (i : option PortInCompositionTypeInstanceRef) : list (option ref) :=
  match i with
  | Some i => [PortInCompositionTypeInstanceRef_component_ref i; PortInCompositionTypeInstanceRef_port_ref i]
  | None => [None]
  end.
Definition connector_refs (k : SwConnectorElement) : list (option ref) :=
  match k with
  | SwConnectorElement_Assembly a => instance_refs (AssemblySwConnector_provide_port a) ++ instance_refs (AssemblySwConnector_require_port a)
  | SwConnectorElement_Delegation d => instance_refs (DelegationSwConnector_inner_port d) ++ [DelegationSwConnector_outer_port d]
  | SwConnectorElement_PassThrough t => [PassThroughSwConnector_provide_port t; PassThroughSwConnector_require_port t]
  end.
(** The reference is set and leads to an object of the kind it says. *)
Definition resolves (ws : list package) (r : option ref) : Prop :=
  exists x f, r = Some x /\ tree_find ws (rf_value x) = Ok (Some (rf_value x, f)) /\ found_dest f = Some (rf_dest x).
