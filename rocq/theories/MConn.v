(** Compositions: creating component prototypes and connectors.
    Source: /repo/src/autosar/xml/element.py.  No proofs in this file.
    The composition is a value; [self] is its reference string, None when it is not part of a
    package; the workspace is passed as its packages.  Functions that change the composition return
    it beside the outcome. *)
From Verif Require Import Base MNames MNum MXml MEnum MRefTab MRef MCodec MElem0 MElem1 MElemA MElemB MElemC MElem2 MElemD MElem3 MElem4 MElemE MElem5 MElemF MArxml MFind.

(** append_connector, element.py:5380-5389, and self.connectors.append(connector) *)
Definition add_connector (c : CompositionSwComponentType) (k : SwConnectorElement) : CompositionSwComponentType :=
  mkCompositionSwComponentType (CompositionSwComponentType_ident c) (CompositionSwComponentType_ports c)
    (CompositionSwComponentType_components c) (CompositionSwComponentType_connectors c ++ [k]).
(** append_component, element.py:5370-5378 *)
Definition add_component (c : CompositionSwComponentType) (k : SwComponentPrototype) : CompositionSwComponentType :=
  mkCompositionSwComponentType (CompositionSwComponentType_ident c) (CompositionSwComponentType_ports c)
    (CompositionSwComponentType_components c ++ [k]) (CompositionSwComponentType_connectors c).

(** SwComponentPrototype.ref, element.py:5218-5224 *)
Definition component_ref (self : option string) (k : SwComponentPrototype) : option ref :=
  option_map (fun o => mkRef (below o (component_name k)) IdentifiableSubTypes_SW_COMPONENT_PROTOTYPE) self.
(** create_component_prototype, element.py:5404-5421; [type_name] and [type_ref] are
    component_type.name and component_type.ref().  Simplification: no further keyword arguments. *)
Definition create_component_prototype (c : CompositionSwComponentType) (type_name : string) (type_ref : option ref) (name : option string)
  : CompositionSwComponentType * SwComponentPrototype :=
  let k := mkSwComponentPrototype (named (match name with None => type_name | Some n => n end)) type_ref in
  (add_component c k, k).

(** The ports of an object found that is a SwComponentType, and its find method, element.py:4917-4926, 5391-5402 *)
Definition as_component (f : found) : option (string -> option found) :=
  match f with
  | FElement (AR_ApplicationSoftwareComponentType e) => Some (ports_find (ApplicationSoftwareComponentType_ports e))
  | FElement (AR_CompositionSwComponentType e) => Some (composition_find e)
  | _ => None
  end.
(** str(elem.type_ref), xml/base.py:197-199 *)
Definition type_ref_text (k : SwComponentPrototype) : string :=
  match SwComponentPrototype_type_ref k with Some r => rf_value r | None => "None" end.

(** A port with the reference string of the component that owns it. *)
Definition owned_port : Type := option string * PortPrototypeElement.
(** _analyze_port_ref, element.py:5468-5504.  No component with the given name: the loop ends and
    the port is None. *)
Definition analyze_port_ref (ws : list package) (self : option string) (c : CompositionSwComponentType) (text : string)
  : result (option owned_port * option SwComponentPrototype) :=
  let* parts := split_ref text in
  match parts with
  | [n] =>
      match composition_find c n with
      | Some (FPort p) => Ok (Some (self, p), None)
      | _ => Err ValueError
      end
  | [n; pn] =>
      match first_named component_name n (CompositionSwComponentType_components c) with
      | None => Ok (None, None)
      | Some k =>
          let* f := tree_find ws (type_ref_text k) in
          match f with
          | None => Err ValueError
          | Some (path, f) =>
              match as_component f with
              | None => Err ValueError
              | Some find_in =>
                  match find_in pn with
                  | Some (FPort p) => Ok (Some (Some path, p), Some k)
                  | _ => Err ValueError
                  end
              end
          end
      end
  | _ => Err ValueError
  end.

(** self.find(connector_name), raise ValueError if found, otherwise append: element.py:5523-5526,
    5540-5543, 5551-5554 *)
Definition add_if_new (c : CompositionSwComponentType) (k : SwConnectorElement) : CompositionSwComponentType * result SwConnectorElement :=
  match composition_find c (connector_name k) with
  | Some _ => (c, Err ValueError)
  | None => (add_connector c k, Ok k)
  end.
(** PortInCompositionTypeInstanceRef(component.ref(), port.ref()), element.py:5234-5242 *)
Definition instance_ref (self : option string) (k : SwComponentPrototype) (p : owned_port) : PortInCompositionTypeInstanceRef :=
  mkPortInCompositionTypeInstanceRef (component_ref self k) (port_ref (fst p) (snd p)).
(** _create_assembly_connector, element.py:5506-5526 *)
Definition create_assembly_connector (self : option string) (c : CompositionSwComponentType)
  (provider_component : SwComponentPrototype) (provide_port : owned_port) (requester_component : SwComponentPrototype) (require_port : owned_port) :=
  let name := join "_" [component_name provider_component; port_name (snd provide_port); component_name requester_component; port_name (snd require_port)] in
  add_if_new c (SwConnectorElement_Assembly (mkAssemblySwConnector (named name)
    (Some (instance_ref self provider_component provide_port)) (Some (instance_ref self requester_component require_port)))).
(** isinstance(port, ProvidePortPrototype), isinstance(port, RequirePortPrototype) *)
Definition is_provide (p : PortPrototypeElement) : bool := match p with PortPrototypeElement_P _ => true | _ => false end.
Definition is_require (p : PortPrototypeElement) : bool := match p with PortPrototypeElement_R _ => true | _ => false end.
(** _create_delegation_connector, element.py:5528-5543; the outer port is None: AttributeError *)
Definition create_delegation_connector (self : option string) (c : CompositionSwComponentType)
  (inner_component : SwComponentPrototype) (inner_port : option owned_port) (outer_port : option owned_port) : CompositionSwComponentType * result SwConnectorElement :=
  match inner_port, outer_port with
  | Some inner, Some outer =>
      let name := if is_provide (snd outer) then join "_" [component_name inner_component; port_name (snd inner); port_name (snd outer)]
                  else join "_" [port_name (snd outer); component_name inner_component; port_name (snd inner)] in
      add_if_new c (SwConnectorElement_Delegation (mkDelegationSwConnector (named name)
        (Some (instance_ref self inner_component inner)) (port_ref (fst outer) (snd outer))))
  | _, _ => (c, Err AttributeError)
  end.
(** _create_pass_through_connector, element.py:5545-5554; a port is None: AttributeError *)
Definition create_pass_through_connector (c : CompositionSwComponentType) (provide_port require_port : option owned_port)
  : CompositionSwComponentType * result SwConnectorElement :=
  match provide_port, require_port with
  | Some p, Some r =>
      add_if_new c (SwConnectorElement_PassThrough (mkPassThroughSwConnector (named (join "_" [port_name (snd p); port_name (snd r)]))
        (port_ref (fst p) (snd p)) (port_ref (fst r) (snd r))))
  | _, _ => (c, Err AttributeError)
  end.
(** create_connector, element.py:5422-5466 *)
Definition create_connector (ws : list package) (self : option string) (c : CompositionSwComponentType) (port_ref1 port_ref2 : string)
  : CompositionSwComponentType * result SwConnectorElement :=
  match analyze_port_ref ws self c port_ref1 with
  | Err e => (c, Err e)
  | Ok (port1, component1) =>
      match analyze_port_ref ws self c port_ref2 with
      | Err e => (c, Err e)
      | Ok (port2, component2) =>
          match component1, component2 with
          | None, None => create_pass_through_connector c port1 port2
          | None, Some k2 => create_delegation_connector self c k2 port2 port1
          | Some k1, None => create_delegation_connector self c k1 port1 port2
          | Some k1, Some k2 =>
              match port1, port2 with
              | Some p1, Some p2 =>
                  if is_require (snd p1) && is_provide (snd p2) then create_assembly_connector self c k2 p2 k1 p1
                  else if is_provide (snd p1) && is_require (snd p2) then create_assembly_connector self c k1 p1 k2 p2
                  else (c, Err ValueError)
              | _, _ => (c, Err ValueError)
              end
          end
      end
  end.
