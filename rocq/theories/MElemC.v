(** Instance references and connectors, modelled by hand.
    Sources: /repo/src/autosar/xml/element.py:5204-5310, 5756-5790, 6255-6280,
    /repo/src/autosar/xml/writer.py:3732-3797, 4057-4080, 4293-4315,
    /repo/src/autosar/xml/reader.py:4311-4384, 4663-4690, 4935-4955,
    /repo/src/autosar/xml/reference.py:395-413.  No proofs in this file. *)
From Verif Require Import Base MNames MNum MXml MEnum MRefTab MRef MCodec MElem0 MElem1.

(** ** VariableInAtomicSWCTypeInstanceRef *)

(** Attributes of VariableInAtomicSWCTypeInstanceRef, element.py:5770-5804 *)
Record VariableInAtomicSWCTypeInstanceRef := mkVariableInAtomicSWCTypeInstanceRef {
  VariableInAtomicSWCTypeInstanceRef_port_prototype_ref : option ref;
  VariableInAtomicSWCTypeInstanceRef_root_variable_data_prototype_ref : option ref;
  VariableInAtomicSWCTypeInstanceRef_context_data_prototype_refs : list ref;
  VariableInAtomicSWCTypeInstanceRef_target_data_prototype_ref : option ref }.
(** VariableInAtomicSWCTypeInstanceRef.is_empty, xml/base.py:17-29 *)
Definition VariableInAtomicSWCTypeInstanceRef_is_empty (e : VariableInAtomicSWCTypeInstanceRef) : bool :=
  unset (VariableInAtomicSWCTypeInstanceRef_port_prototype_ref e) &&
  unset (VariableInAtomicSWCTypeInstanceRef_root_variable_data_prototype_ref e) &&
  no_items (VariableInAtomicSWCTypeInstanceRef_context_data_prototype_refs e) &&
  unset (VariableInAtomicSWCTypeInstanceRef_target_data_prototype_ref e).
(** _write_variable_in_atomic_swc_type_instance_ref, writer.py:4057-4080: the context references
    are children of the element itself *)
Definition write_variable_in_atomic_swc_type_instance_ref (v : N) (e : VariableInAtomicSWCTypeInstanceRef) : out :=
  if VariableInAtomicSWCTypeInstanceRef_is_empty e then empty "AUTOSAR-VARIABLE-IREF" else
  node "AUTOSAR-VARIABLE-IREF" [] (cat [
    if_set (VariableInAtomicSWCTypeInstanceRef_port_prototype_ref e) (fun a => write_ref "PORT-PROTOTYPE-REF" a);
    if_set (VariableInAtomicSWCTypeInstanceRef_root_variable_data_prototype_ref e) (fun a => write_ref "ROOT-VARIABLE-DATA-PROTOTYPE-REF" a);
    for_each (VariableInAtomicSWCTypeInstanceRef_context_data_prototype_refs e) (fun a => write_ref "CONTEXT-DATA-PROTOTYPE-REF" a);
    if_set (VariableInAtomicSWCTypeInstanceRef_target_data_prototype_ref e) (fun a => write_ref "TARGET-DATA-PROTOTYPE-REF" a) ]).
(** _read_variable_in_atomic_swc_type_instance_ref, reader.py:4663-4690 *)
Definition read_variable_in_atomic_swc_type_instance_ref (v : N) (x : xml) : result VariableInAtomicSWCTypeInstanceRef :=
  let k := x_kids x in
  let* d_port := child "PORT-PROTOTYPE-REF" k (read_ref rc_PortPrototypeRef v) in
  let* d_root := child "ROOT-VARIABLE-DATA-PROTOTYPE-REF" k (read_ref rc_VariableDataPrototypeRef v) in
  let* d_context := mapM (read_ref rc_ApplicationCompositeElementDataPrototypeRef v) (findall "CONTEXT-DATA-PROTOTYPE-REF" k) in
  let* d_target := child "TARGET-DATA-PROTOTYPE-REF" k (read_ref rc_DataPrototypeRef v) in
  Ok (mkVariableInAtomicSWCTypeInstanceRef d_port d_root d_context d_target).

(** ** Ports of components inside a composition *)

(** PortPrototypeRef.is_provide_port_ref, reference.py:395-403 *)
Definition is_provide_port_ref (r : ref) : bool :=
  existsb (dest_eqb (rf_dest r))
    [IdentifiableSubTypes_ABSTRACT_PROVIDED_PORT_PROTOTYPE; IdentifiableSubTypes_P_PORT_PROTOTYPE;
     IdentifiableSubTypes_PR_PORT_PROTOTYPE].
(** PortPrototypeRef.is_require_port_ref, reference.py:405-413 *)
Definition is_require_port_ref (r : ref) : bool :=
  existsb (dest_eqb (rf_dest r))
    [IdentifiableSubTypes_ABSTRACT_REQUIRED_PORT_PROTOTYPE; IdentifiableSubTypes_R_PORT_PROTOTYPE;
     IdentifiableSubTypes_PR_PORT_PROTOTYPE].
(** elem_tag in ("PROVIDER-IREF", "P-PORT-IN-COMPOSITION-INSTANCE-REF"), writer.py:3752, reader.py:4326 *)
Definition provider_tag (tag : string) : bool :=
  String.eqb tag "PROVIDER-IREF" || String.eqb tag "P-PORT-IN-COMPOSITION-INSTANCE-REF".
(** elem_tag in ("REQUESTER-IREF", "R-PORT-IN-COMPOSITION-INSTANCE-REF"), writer.py:3755, reader.py:4328 *)
Definition requester_tag (tag : string) : bool :=
  String.eqb tag "REQUESTER-IREF" || String.eqb tag "R-PORT-IN-COMPOSITION-INSTANCE-REF".

(** Attributes of PortInCompositionTypeInstanceRef, element.py:5226-5243 *)
Record PortInCompositionTypeInstanceRef := mkPortInCompositionTypeInstanceRef {
  PortInCompositionTypeInstanceRef_component_ref : option ref;
  PortInCompositionTypeInstanceRef_port_ref : option ref }.
(** PortInCompositionTypeInstanceRef.is_empty, xml/base.py:17-29 *)
Definition PortInCompositionTypeInstanceRef_is_empty (e : PortInCompositionTypeInstanceRef) : bool :=
  unset (PortInCompositionTypeInstanceRef_component_ref e) && unset (PortInCompositionTypeInstanceRef_port_ref e).
(** _write_port_in_composition_type_instance_ref, writer.py:3732-3759: the direction of the port
    reference must fit the tag (assert) *)
Definition write_port_in_composition_type_instance_ref (v : N) (tag : string) (e : PortInCompositionTypeInstanceRef) : out :=
  if PortInCompositionTypeInstanceRef_is_empty e then empty tag else
  node tag [] (cat [
    if_set (PortInCompositionTypeInstanceRef_component_ref e) (fun a => write_ref "CONTEXT-COMPONENT-REF" a);
    if_set (PortInCompositionTypeInstanceRef_port_ref e) (fun a =>
      if provider_tag tag then if is_provide_port_ref a then write_ref "TARGET-P-PORT-REF" a else Err AssertionError
      else if requester_tag tag then if is_require_port_ref a then write_ref "TARGET-R-PORT-REF" a else Err AssertionError
      else Ok []) ]).
(** _read_port_in_composition_type_instance_ref, reader.py:4310-4334 *)
Definition read_port_in_composition_type_instance_ref (v : N) (x : xml) : result PortInCompositionTypeInstanceRef :=
  let k := x_kids x in
  let* d_component := child "CONTEXT-COMPONENT-REF" k (read_ref rc_SwComponentPrototypeRef v) in
  let* port_tag := if provider_tag (x_tag x) then Ok "TARGET-P-PORT-REF"
                   else if requester_tag (x_tag x) then Ok "TARGET-R-PORT-REF" else Err ValueError in
  let* d_port := child port_tag k (read_ref rc_PortPrototypeRef v) in
  Ok (mkPortInCompositionTypeInstanceRef d_component d_port).

(** ** AssemblySwConnector *)

(** Attributes of AssemblySwConnector, element.py:5259-5275 *)
Record AssemblySwConnector := mkAssemblySwConnector {
  AssemblySwConnector_ident : identifiable;
  AssemblySwConnector_provide_port : option PortInCompositionTypeInstanceRef;
  AssemblySwConnector_require_port : option PortInCompositionTypeInstanceRef }.
(** _write_assembly_sw_connector, writer.py:3761-3775 *)
Definition write_assembly_sw_connector (v : N) (e : AssemblySwConnector) : out :=
  node "ASSEMBLY-SW-CONNECTOR" [] (cat [
    write_referrable (AssemblySwConnector_ident e);
    write_multilanguage_referrable (AssemblySwConnector_ident e);
    write_identifiable (AssemblySwConnector_ident e);
    if_set (AssemblySwConnector_provide_port e) (write_port_in_composition_type_instance_ref v "PROVIDER-IREF");
    if_set (AssemblySwConnector_require_port e) (write_port_in_composition_type_instance_ref v "REQUESTER-IREF") ]).
(** _read_assembly_sw_connector, reader.py:4336-4354 *)
Definition read_assembly_sw_connector (v : N) (x : xml) : result AssemblySwConnector :=
  let k := x_kids x in
  let* d_ident := read_ident (x_attrs x) k in
  let* d_provide := child "PROVIDER-IREF" k (read_port_in_composition_type_instance_ref v) in
  let* d_require := child "REQUESTER-IREF" k (read_port_in_composition_type_instance_ref v) in
  let* ident := new_identifiable d_ident in
  Ok (mkAssemblySwConnector ident d_provide d_require).

(** ** DelegationSwConnector *)

(** Attributes of DelegationSwConnector, element.py:5278-5296 *)
Record DelegationSwConnector := mkDelegationSwConnector {
  DelegationSwConnector_ident : identifiable;
  DelegationSwConnector_inner_port : option PortInCompositionTypeInstanceRef;
  DelegationSwConnector_outer_port : option ref }.
(** DelegationSwConnector.xml_tag, element.py:5294-5305, of an inner port *)
Definition delegation_tag (p : PortInCompositionTypeInstanceRef) : option string :=
  match PortInCompositionTypeInstanceRef_port_ref p with
  | Some r => if is_provide_port_ref r then Some "P-PORT-IN-COMPOSITION-INSTANCE-REF"
              else if is_require_port_ref r then Some "R-PORT-IN-COMPOSITION-INSTANCE-REF" else None
  | None => None
  end.
(** _write_delegation_sw_connector, writer.py:3777-3797: an inner port of unknown direction is left
    out (a warning is printed) *)
Definition write_delegation_sw_connector (v : N) (e : DelegationSwConnector) : out :=
  node "DELEGATION-SW-CONNECTOR" [] (cat [
    write_referrable (DelegationSwConnector_ident e);
    write_multilanguage_referrable (DelegationSwConnector_ident e);
    write_identifiable (DelegationSwConnector_ident e);
    if_set (DelegationSwConnector_inner_port e) (fun a =>
      match delegation_tag a with
      | Some tag => node "INNER-PORT-IREF" [] (write_port_in_composition_type_instance_ref v tag a)
      | None => Ok []
      end);
    if_set (DelegationSwConnector_outer_port e) (fun a => write_ref "OUTER-PORT-REF" a) ]).
(** The body of the INNER-PORT-IREF block, reader.py:4374-4379: None.tag raises AttributeError *)
Definition read_inner_port (v : N) (x : xml) : result (option PortInCompositionTypeInstanceRef) :=
  match x_kids x with
  | [] => Err AttributeError
  | y :: _ => if String.eqb (x_tag y) "P-PORT-IN-COMPOSITION-INSTANCE-REF" || String.eqb (x_tag y) "R-PORT-IN-COMPOSITION-INSTANCE-REF"
              then let* p := read_port_in_composition_type_instance_ref v y in Ok (Some p)
              else Ok None
  end.
(** _read_delegation_sw_connector, reader.py:4365-4384 *)
Definition read_delegation_sw_connector (v : N) (x : xml) : result DelegationSwConnector :=
  let k := x_kids x in
  let* d_ident := read_ident (x_attrs x) k in
  let* d_inner := child "INNER-PORT-IREF" k (read_inner_port v) in
  let* d_outer := child "OUTER-PORT-REF" k (read_ref rc_PortPrototypeRef v) in
  let* ident := new_identifiable d_ident in
  Ok (mkDelegationSwConnector ident (match d_inner with Some o => o | None => None end) d_outer).

(** ** SwConnectorElement *)

(** SwConnectorElement, element.py: AssemblySwConnector | DelegationSwConnector | PassThroughSwConnector *)
Inductive SwConnectorElement :=
| SwConnectorElement_Assembly (e : AssemblySwConnector)
| SwConnectorElement_Delegation (e : DelegationSwConnector)
| SwConnectorElement_PassThrough (e : PassThroughSwConnector).
(** The if/elif chain of _write_composition_sw_component_type_group, writer.py:3842-3847 *)
Definition write_sw_connector_element (v : N) (c : SwConnectorElement) : out :=
  match c with
  | SwConnectorElement_Assembly e => write_assembly_sw_connector v e
  | SwConnectorElement_Delegation e => write_delegation_sw_connector v e
  | SwConnectorElement_PassThrough e => write_passthrough_sw_connector v e
  end.
(** The if/elif chain of _read_composition_sw_component_type_group, reader.py:4441-4446 *)
Definition select_sw_connector_element (v : N) (tag : string) : option (xml -> result SwConnectorElement) :=
  if String.eqb tag "ASSEMBLY-SW-CONNECTOR"
  then Some (fun x => let* e := read_assembly_sw_connector v x in Ok (SwConnectorElement_Assembly e))
  else if String.eqb tag "DELEGATION-SW-CONNECTOR"
  then Some (fun x => let* e := read_delegation_sw_connector v x in Ok (SwConnectorElement_Delegation e))
  else if String.eqb tag "PASS-THROUGH-SW-CONNECTOR"
  then Some (fun x => let* e := read_pass_through_sw_connector v x in Ok (SwConnectorElement_PassThrough e))
  else None.

(** ** ModeAccessPoint *)

(** ModeGroupInAtomicSwcInstanceRef: one of the two classes, element.py:5552-5600 *)
Inductive ModeGroupInAtomicSwcInstanceRef :=
| ModeGroup_P (e : PModeGroupInAtomicSwcInstanceRef)
| ModeGroup_R (e : RModeGroupInAtomicSwcInstanceRef).
(** Attributes of ModeAccessPoint, element.py:6255-6280 *)
Record ModeAccessPoint := mkModeAccessPoint {
  ModeAccessPoint_ident : option ModeAccessPointIdent;
  ModeAccessPoint_mode_group : option ModeGroupInAtomicSwcInstanceRef }.
(** ModeAccessPoint.is_empty, xml/base.py:17-29 *)
Definition ModeAccessPoint_is_empty (e : ModeAccessPoint) : bool :=
  unset (ModeAccessPoint_ident e) && unset (ModeAccessPoint_mode_group e).
(** The if/elif chain of _write_mode_access_point, writer.py:4307-4311 *)
Definition write_mode_group_iref (v : N) (g : ModeGroupInAtomicSwcInstanceRef) : out :=
  match g with
  | ModeGroup_P e => write_p_mode_group_in_atomic_swc_instance_ref v "P-MODE-GROUP-IN-ATOMIC-SWC-INSTANCE-REF" e
  | ModeGroup_R e => write_r_mode_group_in_atomic_swc_instance_ref v e
  end.
(** _write_mode_access_point, writer.py:4293-4315 *)
Definition write_mode_access_point (v : N) (e : ModeAccessPoint) : out :=
  if ModeAccessPoint_is_empty e then empty "MODE-ACCESS-POINT" else
  node "MODE-ACCESS-POINT" [] (cat [
    if_set (ModeAccessPoint_ident e) (write_mode_access_point_ident v);
    if_set (ModeAccessPoint_mode_group e) (fun a => node "MODE-GROUP-IREF" [] (write_mode_group_iref v a)) ]).
(** The body of the MODE-GROUP-IREF block, reader.py:4946-4951 *)
Definition read_mode_group_iref (v : N) (x : xml) : result (option ModeGroupInAtomicSwcInstanceRef) :=
  match x_kids x with
  | [] => Ok None
  | y :: _ =>
      if String.eqb (x_tag y) "P-MODE-GROUP-IN-ATOMIC-SWC-INSTANCE-REF"
      then let* e := read_p_mode_group_in_atomic_swc_instance_ref v y in Ok (Some (ModeGroup_P e))
      else if String.eqb (x_tag y) "R-MODE-GROUP-IN-ATOMIC-SWC-INSTANCE-REF"
      then let* e := read_r_mode_group_in_atomic_swc_instance_ref v y in Ok (Some (ModeGroup_R e))
      else Ok None
  end.
(** _read_mode_access_point, reader.py:4935-4955 *)
Definition read_mode_access_point (v : N) (x : xml) : result ModeAccessPoint :=
  let k := x_kids x in
  let* d_ident := child "IDENT" k (read_mode_access_point_ident v) in
  let* d_group := child "MODE-GROUP-IREF" k (read_mode_group_iref v) in
  Ok (mkModeAccessPoint d_ident (match d_group with Some o => o | None => None end)).
