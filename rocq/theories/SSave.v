(** When an element, a package, a document can be saved, class by class: every number has a text, every inline
    element of a text is allowed where it stands, and what the writer insists on is there.  Everything not
    mentioned here can be saved whatever it is.  Nothing here mentions the writer. *)
From Verif Require Import Base MNum SNum MXml MEnum MRefTab MRef MCodec SCodec MElem0 MElem1 MElemA MElemB MElemC MElem2 MElemD MElem3 MElem4 MElemE MElem5 MElemF MArxml SSave0.

Definition savable_Unit (e : Unit) : Prop :=
  ident_savable (Unit_ident e) /\
  opt_ok names_savable (Unit_display_name e) /\
  opt_ok float_has_text (Unit_factor e) /\
  opt_ok float_has_text (Unit_offset e).
Definition savable_Code (e : Code) : Prop :=
  ident_savable (Code_ident e).
Definition savable_SwBaseType (e : SwBaseType) : Prop :=
  ident_savable (SwBaseType_ident e).
Definition savable_DataTypeMappingSet (e : DataTypeMappingSet) : Prop :=
  ident_savable (DataTypeMappingSet_ident e).
Definition savable_ModeDeclaration (e : ModeDeclaration) : Prop :=
  ident_savable (ModeDeclaration_ident e).
Definition savable_ModeTransition (e : ModeTransition) : Prop :=
  ident_savable (ModeTransition_ident e).
Definition savable_ModeDeclarationGroupPrototype (e : ModeDeclarationGroupPrototype) : Prop :=
  ident_savable (ModeDeclarationGroupPrototype_ident e).
Definition savable_ApplicationError (e : ApplicationError) : Prop :=
  ident_savable (ApplicationError_ident e).
Definition savable_ModeSwitchInterface (e : ModeSwitchInterface) : Prop :=
  ident_savable (ModeSwitchInterface_ident e) /\
  ModeSwitchInterface_service_kind e = None /\
  opt_ok savable_ModeDeclarationGroupPrototype (ModeSwitchInterface_mode_group e).
Definition savable_EndToEndTransformationComSpecProps (e : EndToEndTransformationComSpecProps) : Prop :=
  opt_ok paragraph_savable (EndToEndTransformationComSpecProps_desc e) /\
  opt_ok doc_savable (EndToEndTransformationComSpecProps_introduction e).
Definition savable_E2EProfileCompatibilityProps (e : E2EProfileCompatibilityProps) : Prop :=
  ident_savable (E2EProfileCompatibilityProps_ident e).
Definition savable_ModeSwitchedAckRequest (e : ModeSwitchedAckRequest) : Prop :=
  opt_ok float_has_text (ModeSwitchedAckRequest_timeout e).
Definition savable_ModeSwitchSenderComSpec (e : ModeSwitchSenderComSpec) : Prop :=
  opt_ok savable_ModeSwitchedAckRequest (ModeSwitchSenderComSpec_mode_switched_ack e).
Definition savable_TransmissionAcknowledgementRequest (e : TransmissionAcknowledgementRequest) : Prop :=
  opt_ok float_has_text (TransmissionAcknowledgementRequest_timeout e).
Definition savable_TransmissionComSpecProps (e : TransmissionComSpecProps) : Prop :=
  opt_ok float_has_text (TransmissionComSpecProps_data_update_period e) /\
  opt_ok float_has_text (TransmissionComSpecProps_minimum_send_interval e).
Definition savable_ServerComSpec (e : ServerComSpec) : Prop :=
  all_ok savable_EndToEndTransformationComSpecProps (ServerComSpec_transformation_com_spec_props e).
Definition savable_ClientComSpec (e : ClientComSpec) : Prop :=
  opt_ok float_has_text (ClientComSpec_e2e_call_respone_timeout e) /\
  all_ok savable_EndToEndTransformationComSpecProps (ClientComSpec_transformation_com_spec_props e).
Definition savable_PassThroughSwConnector (e : PassThroughSwConnector) : Prop :=
  ident_savable (PassThroughSwConnector_ident e).
Definition savable_SwcImplementation (e : SwcImplementation) : Prop :=
  ident_savable (SwcImplementation_ident e) /\
  all_ok savable_Code (SwcImplementation_code_descriptors e).
Definition savable_AsynchronousServerCallPoint (e : AsynchronousServerCallPoint) : Prop :=
  ident_savable (AsynchronousServerCallPoint_ident e) /\
  opt_ok number_has_text (AsynchronousServerCallPoint_timeout e).
Definition savable_SynchronousServerCallPoint (e : SynchronousServerCallPoint) : Prop :=
  ident_savable (SynchronousServerCallPoint_ident e) /\
  opt_ok number_has_text (SynchronousServerCallPoint_timeout e).
Definition savable_AsynchronousServerCallResultPoint (e : AsynchronousServerCallResultPoint) : Prop :=
  ident_savable (AsynchronousServerCallResultPoint_ident e).
Definition savable_ExternalTriggeringPointIdent (e : ExternalTriggeringPointIdent) : Prop :=
  ident_savable (ExternalTriggeringPointIdent_ident e).
Definition savable_ExternalTriggeringPoint (e : ExternalTriggeringPoint) : Prop :=
  opt_ok savable_ExternalTriggeringPointIdent (ExternalTriggeringPoint_ident e).
Definition savable_InternalTriggeringPoint (e : InternalTriggeringPoint) : Prop :=
  ident_savable (InternalTriggeringPoint_ident e).
Definition savable_ModeAccessPointIdent (e : ModeAccessPointIdent) : Prop :=
  ident_savable (ModeAccessPointIdent_ident e).
Definition savable_ModeSwitchPoint (e : ModeSwitchPoint) : Prop :=
  ident_savable (ModeSwitchPoint_ident e).
Definition savable_WaitPoint (e : WaitPoint) : Prop :=
  ident_savable (WaitPoint_ident e) /\
  opt_ok number_has_text (WaitPoint_timeout e).
Definition savable_AsynchronousServerCallReturnsEvent (e : AsynchronousServerCallReturnsEvent) : Prop :=
  ident_savable (AsynchronousServerCallReturnsEvent_ident e).
Definition savable_BackgroundEvent (e : BackgroundEvent) : Prop :=
  ident_savable (BackgroundEvent_ident e).
Definition savable_DataReceiveErrorEvent (e : DataReceiveErrorEvent) : Prop :=
  ident_savable (DataReceiveErrorEvent_ident e).
Definition savable_DataReceivedEvent (e : DataReceivedEvent) : Prop :=
  ident_savable (DataReceivedEvent_ident e).
Definition savable_DataSendCompletedEvent (e : DataSendCompletedEvent) : Prop :=
  ident_savable (DataSendCompletedEvent_ident e).
Definition savable_DataWriteCompletedEvent (e : DataWriteCompletedEvent) : Prop :=
  ident_savable (DataWriteCompletedEvent_ident e).
Definition savable_ExternalTriggerOccurredEvent (e : ExternalTriggerOccurredEvent) : Prop :=
  ident_savable (ExternalTriggerOccurredEvent_ident e).
Definition savable_InitEvent (e : InitEvent) : Prop :=
  ident_savable (InitEvent_ident e).
Definition savable_InternalTriggerOccurredEvent (e : InternalTriggerOccurredEvent) : Prop :=
  ident_savable (InternalTriggerOccurredEvent_ident e).
Definition savable_ModeSwitchedAckEvent (e : ModeSwitchedAckEvent) : Prop :=
  ident_savable (ModeSwitchedAckEvent_ident e).
Definition savable_OperationInvokedEvent (e : OperationInvokedEvent) : Prop :=
  ident_savable (OperationInvokedEvent_ident e).
Definition savable_SwcModeManagerErrorEvent (e : SwcModeManagerErrorEvent) : Prop :=
  ident_savable (SwcModeManagerErrorEvent_ident e).
Definition savable_TimingEvent (e : TimingEvent) : Prop :=
  ident_savable (TimingEvent_ident e) /\
  opt_ok number_has_text (TimingEvent_offset e) /\
  opt_ok number_has_text (TimingEvent_period e).
Definition savable_TransformerHardErrorEvent (e : TransformerHardErrorEvent) : Prop :=
  ident_savable (TransformerHardErrorEvent_ident e).
Definition savable_ExclusiveArea (e : ExclusiveArea) : Prop :=
  ident_savable (ExclusiveArea_ident e).
(** A constant has a value. *)
Definition savable_CompuConst (e : CompuConst) : Prop :=
  match CompuConst_value e with
  | Some (SNum n) => number_has_text n
  | Some (SText _) => True
  | None => False
  end.
Definition savable_CompuRational (e : CompuRational) : Prop :=
  opt_ok (all_ok number_has_text) (CompuRational_numerator e) /\
  opt_ok (all_ok number_has_text) (CompuRational_denominator e).
Definition savable_CompuScaleContent (e : CompuScaleContent) : Prop :=
  match e with ScaleConst c => savable_CompuConst c | ScaleRational r => savable_CompuRational r end.
(** The limits of a scale are numbers, not texts. *)
Definition savable_limit (s : scalar) : Prop := match s with SNum n => number_has_text n | SText _ => False end.
Definition savable_CompuScale (e : CompuScale) : Prop :=
  opt_ok savable_CompuScaleContent (CompuScale_content e) /\
  opt_ok savable_limit (CompuScale_lower_limit e) /\
  opt_ok savable_limit (CompuScale_upper_limit e) /\
  opt_ok paragraph_savable (CompuScale_desc e) /\
  opt_ok savable_CompuConst (CompuScale_inverse_value e).
Definition savable_Computation (e : Computation) : Prop :=
  opt_ok (all_ok savable_CompuScale) (Computation_compu_scales e) /\
  opt_ok savable_CompuConst (Computation_default_value e).
Definition savable_CompuMethod (e : CompuMethod) : Prop :=
  ident_savable (CompuMethod_ident e) /\
  opt_ok savable_Computation (CompuMethod_int_to_phys e) /\
  opt_ok savable_Computation (CompuMethod_phys_to_int e).
Definition savable_ScaleConstraint (e : ScaleConstraint) : Prop :=
  opt_ok number_has_text (ScaleConstraint_lower_limit e) /\
  opt_ok number_has_text (ScaleConstraint_upper_limit e) /\
  opt_ok paragraph_savable (ScaleConstraint_desc e).
Definition savable_ConstraintBase (e : ConstraintBase) : Prop :=
  opt_ok number_has_text (ConstraintBase_lower_limit e) /\
  opt_ok number_has_text (ConstraintBase_upper_limit e) /\
  all_ok savable_ScaleConstraint (ConstraintBase_scale_constrs e) /\
  opt_ok number_has_text (ConstraintBase_max_gradient e) /\
  opt_ok number_has_text (ConstraintBase_max_diff e).
Definition savable_InternalConstraint (e : InternalConstraint) : Prop :=
  savable_ConstraintBase (InternalConstraint_base e).
Definition savable_PhysicalConstraint (e : PhysicalConstraint) : Prop :=
  savable_ConstraintBase (PhysicalConstraint_base e).
Definition savable_DataConstraintRule (e : DataConstraintRule) : Prop :=
  opt_ok savable_InternalConstraint (DataConstraintRule_internal e) /\
  opt_ok savable_PhysicalConstraint (DataConstraintRule_physical e).
Definition savable_DataConstraint (e : DataConstraint) : Prop :=
  ident_savable (DataConstraint_ident e) /\
  all_ok savable_DataConstraintRule (DataConstraint_rules e).
Definition savable_ValueList (e : ValueList) : Prop :=
  all_ok value_has_text (ValueList_values e).
(** A calibration value is a text, a number, or a group of values with a label; a missing text cannot be written. *)
Fixpoint savable_sw_value (e : sw_value) : Prop :=
  match e with
  | SwText s => s <> None
  | SwNumber n => value_has_text n
  | SwGroup label values => opt_ok long_name_savable label /\ all_ok savable_sw_value values
  end.
Definition savable_SwValues (e : SwValues) : Prop :=
  all_ok savable_sw_value (SwValues_values e).
Definition savable_SwAxisCont (e : SwAxisCont) : Prop :=
  opt_ok names_savable (SwAxisCont_unit_display_name e) /\
  opt_ok savable_ValueList (SwAxisCont_sw_array_size e) /\
  opt_ok savable_SwValues (SwAxisCont_sw_values_phys e).
Definition savable_SwAddrMethod (e : SwAddrMethod) : Prop :=
  ident_savable (SwAddrMethod_ident e).
(** Data definition properties contain pointer target properties, which contain data definition properties. *)
Definition savable_SwPointerTargetProps_ {R} (ok : R -> Prop) (e : SwPointerTargetProps_ R) : Prop :=
  opt_ok ok (SwPointerTargetProps_sw_data_def_props e).
Definition savable_SwDataDefPropsConditional_ {P} (ok : P -> Prop) (e : SwDataDefPropsConditional_ P) : Prop :=
  opt_ok float_has_text (dd_step_size e) /\
  all_ok annotation_savable (dd_annotations e) /\
  opt_ok number_has_text (dd_intended_resolution e) /\
  opt_ok ok (dd_ptr_target_props e).
Fixpoint savable_SwDataDefProps (e : SwDataDefProps) : Prop :=
  match e with mkSwDataDefProps l => all_ok (savable_SwDataDefPropsConditional_ (savable_SwPointerTargetProps_ savable_SwDataDefProps)) l end.
Fixpoint savable_ImplementationDataTypeElement (e : ImplementationDataTypeElement) : Prop :=
  match e with
  | mkImplementationDataTypeElement ident props _ _ _ _ sub _ =>
      ident_savable ident /\ opt_ok savable_SwDataDefProps props /\ all_ok savable_ImplementationDataTypeElement sub
  end.
Definition savable_SwValueCont (e : SwValueCont) : Prop :=
  opt_ok names_savable (SwValueCont_unit_display_name e) /\
  opt_ok savable_ValueList (SwValueCont_sw_array_size e) /\
  opt_ok savable_SwValues (SwValueCont_sw_values_phys e).
Fixpoint savable_ValueSpecificationElement (e : ValueSpecificationElement) : Prop :=
  match e with
  | NumericalValueSpecification _ value => opt_ok value_has_text value
  | ArrayValueSpecification _ l | RecordValueSpecification _ l => all_ok savable_ValueSpecificationElement l
  | ApplicationValueSpecification _ _ axes cont => all_ok savable_SwAxisCont axes /\ opt_ok savable_SwValueCont cont
  | TextValueSpecification _ _ | NotAvailableValueSpecification _ _ | ConstantReference _ _ => True
  end.
(** An assembly connects a port that provides to a port that requires. *)
Definition is_provided (d : IdentifiableSubTypes) : Prop :=
  d = IdentifiableSubTypes_ABSTRACT_PROVIDED_PORT_PROTOTYPE \/ d = IdentifiableSubTypes_P_PORT_PROTOTYPE \/
  d = IdentifiableSubTypes_PR_PORT_PROTOTYPE.
Definition is_required (d : IdentifiableSubTypes) : Prop :=
  d = IdentifiableSubTypes_ABSTRACT_REQUIRED_PORT_PROTOTYPE \/ d = IdentifiableSubTypes_R_PORT_PROTOTYPE \/
  d = IdentifiableSubTypes_PR_PORT_PROTOTYPE.
Definition names_a (direction : IdentifiableSubTypes -> Prop) (p : PortInCompositionTypeInstanceRef) : Prop :=
  forall r, PortInCompositionTypeInstanceRef_port_ref p = Some r -> direction (rf_dest r).
Definition savable_AssemblySwConnector (e : AssemblySwConnector) : Prop :=
  ident_savable (AssemblySwConnector_ident e) /\
  opt_ok (names_a is_provided) (AssemblySwConnector_provide_port e) /\
  opt_ok (names_a is_required) (AssemblySwConnector_require_port e).
(** A delegation whose inner port has no direction is written without it. *)
Definition savable_DelegationSwConnector (e : DelegationSwConnector) : Prop :=
  ident_savable (DelegationSwConnector_ident e).
Definition savable_SwConnectorElement (c : SwConnectorElement) : Prop :=
  match c with
  | SwConnectorElement_Assembly e => savable_AssemblySwConnector e
  | SwConnectorElement_Delegation e => savable_DelegationSwConnector e
  | SwConnectorElement_PassThrough e => savable_PassThroughSwConnector e
  end.
Definition savable_ModeAccessPoint (e : ModeAccessPoint) : Prop :=
  opt_ok savable_ModeAccessPointIdent (ModeAccessPoint_ident e).
Definition savable_ImplementationDataType (e : ImplementationDataType) : Prop :=
  ident_savable (ImplementationDataType_ident e) /\
  opt_ok savable_SwDataDefProps (ImplementationDataType_sw_data_def_props e) /\
  all_ok savable_ImplementationDataTypeElement (ImplementationDataType_sub_elements e).
Definition savable_ApplicationPrimitiveDataType (e : ApplicationPrimitiveDataType) : Prop :=
  ident_savable (ApplicationPrimitiveDataType_ident e) /\
  opt_ok savable_SwDataDefProps (ApplicationPrimitiveDataType_sw_data_def_props e).
Definition savable_ApplicationArrayElement (e : ApplicationArrayElement) : Prop :=
  ident_savable (ApplicationArrayElement_ident e) /\
  opt_ok savable_SwDataDefProps (ApplicationArrayElement_sw_data_def_props e).
Definition savable_ApplicationRecordElement (e : ApplicationRecordElement) : Prop :=
  ident_savable (ApplicationRecordElement_ident e) /\
  opt_ok savable_SwDataDefProps (ApplicationRecordElement_sw_data_def_props e).
Definition savable_ApplicationArrayDataType (e : ApplicationArrayDataType) : Prop :=
  ident_savable (ApplicationArrayDataType_ident e) /\
  opt_ok savable_SwDataDefProps (ApplicationArrayDataType_sw_data_def_props e) /\
  opt_ok savable_ApplicationArrayElement (ApplicationArrayDataType_element e).
Definition savable_ApplicationRecordDataType (e : ApplicationRecordDataType) : Prop :=
  ident_savable (ApplicationRecordDataType_ident e) /\
  opt_ok savable_SwDataDefProps (ApplicationRecordDataType_sw_data_def_props e) /\
  all_ok savable_ApplicationRecordElement (ApplicationRecordDataType_elements e).
Definition savable_VariableDataPrototype (e : VariableDataPrototype) : Prop :=
  ident_savable (VariableDataPrototype_ident e) /\
  opt_ok savable_SwDataDefProps (VariableDataPrototype_sw_data_def_props e) /\
  opt_ok savable_ValueSpecificationElement (VariableDataPrototype_init_value e).
Definition savable_ParameterDataPrototype (e : ParameterDataPrototype) : Prop :=
  ident_savable (ParameterDataPrototype_ident e) /\
  opt_ok savable_SwDataDefProps (ParameterDataPrototype_sw_data_def_props e) /\
  opt_ok savable_ValueSpecificationElement (ParameterDataPrototype_init_value e).
Definition savable_ArgumentDataPrototype (e : ArgumentDataPrototype) : Prop :=
  ident_savable (ArgumentDataPrototype_ident e) /\
  opt_ok savable_SwDataDefProps (ArgumentDataPrototype_sw_data_def_props e).
Definition savable_ConstantSpecification (e : ConstantSpecification) : Prop :=
  ident_savable (ConstantSpecification_ident e) /\
  opt_ok savable_ValueSpecificationElement (ConstantSpecification_value e).
Definition savable_NvDataInterface (e : NvDataInterface) : Prop :=
  ident_savable (NvDataInterface_ident e) /\
  NvDataInterface_service_kind e = None /\
  all_ok savable_VariableDataPrototype (NvDataInterface_data_elements e).
Definition savable_ParameterInterface (e : ParameterInterface) : Prop :=
  ident_savable (ParameterInterface_ident e) /\
  ParameterInterface_service_kind e = None /\
  all_ok savable_ParameterDataPrototype (ParameterInterface_parameters e).
Definition savable_SenderReceiverInterface (e : SenderReceiverInterface) : Prop :=
  ident_savable (SenderReceiverInterface_ident e) /\
  SenderReceiverInterface_service_kind e = None /\
  all_ok savable_VariableDataPrototype (SenderReceiverInterface_data_elements e).
Definition savable_ClientServerOperation (e : ClientServerOperation) : Prop :=
  ident_savable (ClientServerOperation_ident e) /\
  all_ok savable_ArgumentDataPrototype (ClientServerOperation_arguments e).
Definition savable_ClientServerInterface (e : ClientServerInterface) : Prop :=
  ident_savable (ClientServerInterface_ident e) /\
  ClientServerInterface_service_kind e = None /\
  all_ok savable_ClientServerOperation (ClientServerInterface_operations e) /\
  all_ok savable_ApplicationError (ClientServerInterface_possible_errors e).
Definition savable_QueuedSenderComSpec (e : QueuedSenderComSpec) : Prop :=
  opt_ok savable_SwDataDefProps (QueuedSenderComSpec_network_representation e) /\
  opt_ok savable_TransmissionAcknowledgementRequest (QueuedSenderComSpec_transmission_acknowledge e) /\
  opt_ok savable_TransmissionComSpecProps (QueuedSenderComSpec_tranmsission_props e).
Definition savable_NonqueuedSenderComSpec (e : NonqueuedSenderComSpec) : Prop :=
  opt_ok savable_SwDataDefProps (NonqueuedSenderComSpec_network_representation e) /\
  opt_ok savable_TransmissionAcknowledgementRequest (NonqueuedSenderComSpec_transmission_acknowledge e) /\
  opt_ok savable_TransmissionComSpecProps (NonqueuedSenderComSpec_tranmsission_props e) /\
  opt_ok savable_ValueSpecificationElement (NonqueuedSenderComSpec_init_value e).
Definition savable_NvProvideComSpec (e : NvProvideComSpec) : Prop :=
  opt_ok savable_ValueSpecificationElement (NvProvideComSpec_ram_block_init_value e) /\
  opt_ok savable_ValueSpecificationElement (NvProvideComSpec_rom_block_init_value e).
Definition savable_ParameterProvideComSpec (e : ParameterProvideComSpec) : Prop :=
  opt_ok savable_ValueSpecificationElement (ParameterProvideComSpec_init_value e).
Definition savable_NvRequireComSpec (e : NvRequireComSpec) : Prop :=
  opt_ok savable_ValueSpecificationElement (NvRequireComSpec_init_value e).
Definition savable_ParameterRequireComSpec (e : ParameterRequireComSpec) : Prop :=
  opt_ok savable_ValueSpecificationElement (ParameterRequireComSpec_init_value e).
Definition savable_VariableAccess (e : VariableAccess) : Prop :=
  ident_savable (VariableAccess_ident e).
Definition savable_ParameterAccess (e : ParameterAccess) : Prop :=
  ident_savable (ParameterAccess_ident e) /\
  opt_ok savable_SwDataDefProps (ParameterAccess_sw_data_def_props e).
Definition savable_PortDefinedArgumentValue (e : PortDefinedArgumentValue) : Prop :=
  opt_ok savable_ValueSpecificationElement (PortDefinedArgumentValue_value e).
Definition savable_PortApiOption (e : PortApiOption) : Prop :=
  all_ok savable_PortDefinedArgumentValue (PortApiOption_port_arg_values e).
Definition savable_ReceptionComSpecProps (e : ReceptionComSpecProps) : Prop :=
  opt_ok float_has_text (ReceptionComSpecProps_data_update_period e) /\
  opt_ok float_has_text (ReceptionComSpecProps_timeout e).
Definition savable_QueuedReceiverComSpec (e : QueuedReceiverComSpec) : Prop :=
  opt_ok savable_SwDataDefProps (QueuedReceiverComSpec_network_representation e) /\
  opt_ok savable_ReceptionComSpecProps (QueuedReceiverComSpec_reception_props e) /\
  opt_ok savable_VariableAccess (QueuedReceiverComSpec_replace_with e) /\
  all_ok savable_EndToEndTransformationComSpecProps (QueuedReceiverComSpec_transformation_com_spec_props e).
Definition savable_NonqueuedReceiverComSpec (e : NonqueuedReceiverComSpec) : Prop :=
  opt_ok savable_SwDataDefProps (NonqueuedReceiverComSpec_network_representation e) /\
  opt_ok savable_ReceptionComSpecProps (NonqueuedReceiverComSpec_reception_props e) /\
  opt_ok savable_VariableAccess (NonqueuedReceiverComSpec_replace_with e) /\
  all_ok savable_EndToEndTransformationComSpecProps (NonqueuedReceiverComSpec_transformation_com_spec_props e) /\
  opt_ok float_has_text (NonqueuedReceiverComSpec_alive_timeout e) /\
  opt_ok savable_ValueSpecificationElement (NonqueuedReceiverComSpec_init_value e) /\
  opt_ok savable_ValueSpecificationElement (NonqueuedReceiverComSpec_timeout_substitution_value e).
Definition savable_ProvidePortComSpec (s : ProvidePortComSpec) : Prop :=
  match s with
  | ProvidePortComSpec_ModeSwitchSenderComSpec e => savable_ModeSwitchSenderComSpec e
  | ProvidePortComSpec_QueuedSenderComSpec e => savable_QueuedSenderComSpec e
  | ProvidePortComSpec_NonqueuedSenderComSpec e => savable_NonqueuedSenderComSpec e
  | ProvidePortComSpec_NvProvideComSpec e => savable_NvProvideComSpec e
  | ProvidePortComSpec_ParameterProvideComSpec e => savable_ParameterProvideComSpec e
  | ProvidePortComSpec_ServerComSpec e => savable_ServerComSpec e
  end.
Definition savable_RequirePortComSpec (s : RequirePortComSpec) : Prop :=
  match s with
  | RequirePortComSpec_QueuedReceiverComSpec e => savable_QueuedReceiverComSpec e
  | RequirePortComSpec_NonqueuedReceiverComSpec e => savable_NonqueuedReceiverComSpec e
  | RequirePortComSpec_NvRequireComSpec e => savable_NvRequireComSpec e
  | RequirePortComSpec_ParameterRequireComSpec e => savable_ParameterRequireComSpec e
  | RequirePortComSpec_ModeSwitchReceiverComSpec e => True
  | RequirePortComSpec_ClientComSpec e => savable_ClientComSpec e
  end.
Definition savable_ProvidePortPrototype (e : ProvidePortPrototype) : Prop :=
  ident_savable (ProvidePortPrototype_ident e) /\
  all_ok savable_ProvidePortComSpec (ProvidePortPrototype_com_spec e).
Definition savable_RequirePortPrototype (e : RequirePortPrototype) : Prop :=
  ident_savable (RequirePortPrototype_ident e) /\
  all_ok savable_RequirePortComSpec (RequirePortPrototype_com_spec e).
Definition savable_PRPortPrototype (e : PRPortPrototype) : Prop :=
  ident_savable (PRPortPrototype_ident e) /\
  all_ok savable_ProvidePortComSpec (PRPortPrototype_provided_com_spec e) /\
  all_ok savable_RequirePortComSpec (PRPortPrototype_required_com_spec e).
Definition savable_PortPrototypeElement (p : PortPrototypeElement) : Prop :=
  match p with
  | PortPrototypeElement_P e => savable_ProvidePortPrototype e
  | PortPrototypeElement_R e => savable_RequirePortPrototype e
  | PortPrototypeElement_PR e => savable_PRPortPrototype e
  end.
Definition savable_SwComponentPrototype (e : SwComponentPrototype) : Prop :=
  ident_savable (SwComponentPrototype_ident e).
Definition savable_CompositionSwComponentType (e : CompositionSwComponentType) : Prop :=
  ident_savable (CompositionSwComponentType_ident e) /\
  all_ok savable_PortPrototypeElement (CompositionSwComponentType_ports e) /\
  all_ok savable_SwComponentPrototype (CompositionSwComponentType_components e) /\
  all_ok savable_SwConnectorElement (CompositionSwComponentType_connectors e).
Definition savable_SwcModeSwitchEvent (e : SwcModeSwitchEvent) : Prop :=
  ident_savable (SwcModeSwitchEvent_ident e).
Definition savable_ServerCallPointElement (p : ServerCallPointElement) : Prop :=
  match p with
  | ServerCallPointElement_Async e => savable_AsynchronousServerCallPoint e
  | ServerCallPointElement_Sync e => savable_SynchronousServerCallPoint e
  end.
(** Before schema version 50 the writer needs the references themselves. *)
Definition savable_areas (v : N) (l : list ExclusiveAreaRefConditional) : Prop :=
  (v < 50)%N -> all_ok (fun a => ExclusiveAreaRefConditional_exclusive_area a <> None) l.
Definition savable_RunnableEntity (v : N) (e : RunnableEntity) : Prop :=
  ident_savable (RunnableEntity_ident e) /\
  savable_areas v (RunnableEntity_can_enter_leave e) /\
  opt_ok number_has_text (RunnableEntity_minimum_start_interval e) /\
  savable_areas v (RunnableEntity_runs_insides e) /\
  all_ok savable_AsynchronousServerCallResultPoint (RunnableEntity_async_server_call_result_point e) /\
  all_ok savable_VariableAccess (RunnableEntity_data_read_access e) /\
  all_ok savable_VariableAccess (RunnableEntity_data_receive_point_by_argument e) /\
  all_ok savable_VariableAccess (RunnableEntity_data_receive_point_by_value e) /\
  all_ok savable_VariableAccess (RunnableEntity_data_send_point e) /\
  all_ok savable_VariableAccess (RunnableEntity_data_write_access e) /\
  all_ok savable_ExternalTriggeringPoint (RunnableEntity_external_triggering_point e) /\
  all_ok savable_InternalTriggeringPoint (RunnableEntity_internal_triggering_point e) /\
  all_ok savable_ModeAccessPoint (RunnableEntity_mode_access_point e) /\
  all_ok savable_ModeSwitchPoint (RunnableEntity_mode_switch_point e) /\
  all_ok savable_ParameterAccess (RunnableEntity_parameter_access e) /\
  all_ok savable_VariableAccess (RunnableEntity_read_local_variable e) /\
  all_ok savable_ServerCallPointElement (RunnableEntity_server_call_point e) /\
  all_ok savable_WaitPoint (RunnableEntity_wait_point e) /\
  all_ok savable_VariableAccess (RunnableEntity_write_local_variable e).
Definition savable_RteEvent (s : RteEvent) : Prop :=
  match s with
  | RteEvent_AsynchronousServerCallReturnsEvent e => savable_AsynchronousServerCallReturnsEvent e
  | RteEvent_BackgroundEvent e => savable_BackgroundEvent e
  | RteEvent_DataReceiveErrorEvent e => savable_DataReceiveErrorEvent e
  | RteEvent_DataReceivedEvent e => savable_DataReceivedEvent e
  | RteEvent_DataSendCompletedEvent e => savable_DataSendCompletedEvent e
  | RteEvent_DataWriteCompletedEvent e => savable_DataWriteCompletedEvent e
  | RteEvent_ExternalTriggerOccurredEvent e => savable_ExternalTriggerOccurredEvent e
  | RteEvent_InitEvent e => savable_InitEvent e
  | RteEvent_InternalTriggerOccurredEvent e => savable_InternalTriggerOccurredEvent e
  | RteEvent_ModeSwitchedAckEvent e => savable_ModeSwitchedAckEvent e
  | RteEvent_OperationInvokedEvent e => savable_OperationInvokedEvent e
  | RteEvent_SwcModeManagerErrorEvent e => savable_SwcModeManagerErrorEvent e
  | RteEvent_SwcModeSwitchEvent e => savable_SwcModeSwitchEvent e
  | RteEvent_TimingEvent e => savable_TimingEvent e
  | RteEvent_TransformerHardErrorEvent e => savable_TransformerHardErrorEvent e
  end.
Definition savable_ModeDeclarationGroup (e : ModeDeclarationGroup) : Prop :=
  ident_savable (ModeDeclarationGroup_ident e) /\
  all_ok savable_ModeDeclaration (ModeDeclarationGroup_mode_declarations e) /\
  all_ok savable_ModeTransition (ModeDeclarationGroup_mode_transitions e).
Definition savable_SwcInternalBehavior (v : N) (e : SwcInternalBehavior) : Prop :=
  ident_savable (SwcInternalBehavior_ident e) /\
  all_ok savable_ExclusiveArea (SwcInternalBehavior_exclusive_areas e) /\
  all_ok savable_RteEvent (SwcInternalBehavior_events e) /\
  all_ok (fun o => savable_PortApiOption (snd o)) (SwcInternalBehavior_port_api_options e) /\
  all_ok (savable_RunnableEntity v) (SwcInternalBehavior_runnables e).
Definition savable_ApplicationSoftwareComponentType (v : N) (e : ApplicationSoftwareComponentType) : Prop :=
  ident_savable (ApplicationSoftwareComponentType_ident e) /\
  all_ok savable_PortPrototypeElement (ApplicationSoftwareComponentType_ports e) /\
  opt_ok (savable_SwcInternalBehavior v) (ApplicationSoftwareComponentType_internal_behavior e).
Definition savable_ARElement (v : N) (e : ARElement) : Prop :=
  match e with
  | AR_CompuMethod e => savable_CompuMethod e
  | AR_ApplicationArrayDataType e => savable_ApplicationArrayDataType e
  | AR_ApplicationRecordDataType e => savable_ApplicationRecordDataType e
  | AR_ApplicationPrimitiveDataType e => savable_ApplicationPrimitiveDataType e
  | AR_SwBaseType e => savable_SwBaseType e
  | AR_SwAddrMethod e => savable_SwAddrMethod e
  | AR_ImplementationDataType e => savable_ImplementationDataType e
  | AR_DataTypeMappingSet e => savable_DataTypeMappingSet e
  | AR_DataConstraint e => savable_DataConstraint e
  | AR_Unit e => savable_Unit e
  | AR_ConstantSpecification e => savable_ConstantSpecification e
  | AR_NvDataInterface e => savable_NvDataInterface e
  | AR_ParameterInterface e => savable_ParameterInterface e
  | AR_SenderReceiverInterface e => savable_SenderReceiverInterface e
  | AR_ClientServerInterface e => savable_ClientServerInterface e
  | AR_ModeSwitchInterface e => savable_ModeSwitchInterface e
  | AR_ModeDeclarationGroup e => savable_ModeDeclarationGroup e
  | AR_E2EProfileCompatibilityProps e => savable_E2EProfileCompatibilityProps e
  | AR_ApplicationSoftwareComponentType e => savable_ApplicationSoftwareComponentType v e
  | AR_CompositionSwComponentType e => savable_CompositionSwComponentType e
  | AR_SwcImplementation e => savable_SwcImplementation e
  end.
Fixpoint savable_package (v : N) (p : package) : Prop :=
  match p with
  | mkPackage ident elements packages =>
      ident_savable ident /\ all_ok (savable_ARElement v) elements /\ all_ok (savable_package v) packages
  end.
Definition savable_document (d : document) : Prop := all_ok (savable_package (doc_schema_version d)) (doc_packages d).
