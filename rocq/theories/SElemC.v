(** Instance references and connectors: what XML can carry. *)
From Verif Require Import Base MNum SNum MXml SXml MEnum MRefTab MRef SEnum MCodec SCodec MElem0 MElem1 SElem1 MElemC.

Definition good_VariableInAtomicSWCTypeInstanceRef (e : VariableInAtomicSWCTypeInstanceRef) : Prop :=
  opt_ok (good_ref rc_PortPrototypeRef) (VariableInAtomicSWCTypeInstanceRef_port_prototype_ref e) /\
  opt_ok (good_ref rc_VariableDataPrototypeRef) (VariableInAtomicSWCTypeInstanceRef_root_variable_data_prototype_ref e) /\
  all_ok (good_ref rc_ApplicationCompositeElementDataPrototypeRef) (VariableInAtomicSWCTypeInstanceRef_context_data_prototype_refs e) /\
  opt_ok (good_ref rc_DataPrototypeRef) (VariableInAtomicSWCTypeInstanceRef_target_data_prototype_ref e).
(** A port of a component: the port reference has one of the destinations [dests]. *)
Definition good_port_in_composition (dests : list IdentifiableSubTypes) (e : PortInCompositionTypeInstanceRef) : Prop :=
  opt_ok (good_ref rc_SwComponentPrototypeRef) (PortInCompositionTypeInstanceRef_component_ref e) /\
  opt_ok (fun r => good_ref rc_PortPrototypeRef r /\ In (rf_dest r) dests) (PortInCompositionTypeInstanceRef_port_ref e).
Definition provide_dests : list IdentifiableSubTypes :=
  [IdentifiableSubTypes_ABSTRACT_PROVIDED_PORT_PROTOTYPE; IdentifiableSubTypes_P_PORT_PROTOTYPE; IdentifiableSubTypes_PR_PORT_PROTOTYPE].
Definition require_dests : list IdentifiableSubTypes :=
  [IdentifiableSubTypes_ABSTRACT_REQUIRED_PORT_PROTOTYPE; IdentifiableSubTypes_R_PORT_PROTOTYPE; IdentifiableSubTypes_PR_PORT_PROTOTYPE].
Definition good_AssemblySwConnector (e : AssemblySwConnector) : Prop :=
  good_ident_no_uuid (AssemblySwConnector_ident e) /\
  opt_ok (good_port_in_composition provide_dests) (AssemblySwConnector_provide_port e) /\
  opt_ok (good_port_in_composition require_dests) (AssemblySwConnector_require_port e).
(** The inner port of a delegation must name a port: otherwise the writer drops it. *)
Definition good_DelegationSwConnector (e : DelegationSwConnector) : Prop :=
  good_ident_no_uuid (DelegationSwConnector_ident e) /\
  opt_ok (fun p => good_port_in_composition (provide_dests ++ require_dests) p /\ PortInCompositionTypeInstanceRef_port_ref p <> None)
    (DelegationSwConnector_inner_port e) /\
  opt_ok (good_ref rc_PortPrototypeRef) (DelegationSwConnector_outer_port e).
Definition good_SwConnectorElement (c : SwConnectorElement) : Prop :=
  match c with
  | SwConnectorElement_Assembly e => good_AssemblySwConnector e
  | SwConnectorElement_Delegation e => good_DelegationSwConnector e
  | SwConnectorElement_PassThrough e => good_PassThroughSwConnector e
  end.
Definition good_ModeAccessPoint (e : ModeAccessPoint) : Prop :=
  opt_ok good_ModeAccessPointIdent (ModeAccessPoint_ident e) /\
  opt_ok (fun g => match g with
                   | ModeGroup_P p => good_PModeGroupInAtomicSwcInstanceRef p
                   | ModeGroup_R r => good_RModeGroupInAtomicSwcInstanceRef r
                   end) (ModeAccessPoint_mode_group e).
