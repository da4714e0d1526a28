(** Elements built from texts, numbers, enumerations and references: which objects survive a round trip (good_), and as what (norm_).
    Generated by tools/gen_codec.py from /repo/src/autosar/xml/{element,writer,reader}.py; the
    line numbers in the comments refer to these files. *)
From Verif Require Import Base MNum SNum MXml SXml MEnum MRefTab MRef SEnum MCodec SCodec MElem0  MElem1.

Definition good_Unit (e : Unit) : Prop :=
  good_ident (Unit_ident e) /\ opt_ok good_names (Unit_display_name e) /\ opt_ok (good_ref rc_PhysicalDimensionRef) (Unit_physical_dimension_ref e) /\ opt_ok good_float (Unit_factor e) /\ opt_ok good_float (Unit_offset e).
Definition norm_Unit (e : Unit) : Unit :=
  mkUnit (Unit_ident e) (option_map merged (Unit_display_name e)) (Unit_physical_dimension_ref e) (Unit_factor e) (Unit_offset e).
Definition good_DataFilter (e : DataFilter) : Prop :=
  opt_ok (fun z => (0 <= z)%Z) (DataFilter_offset e) /\ opt_ok (fun z => (0 <= z)%Z) (DataFilter_period e).
Definition good_AutosarEngineeringObject (e : AutosarEngineeringObject) : Prop :=
  opt_ok good_text (AutosarEngineeringObject_label e) /\ opt_ok good_text (AutosarEngineeringObject_category e).
Definition good_Code (e : Code) : Prop :=
  good_ident (Code_ident e) /\ all_ok good_AutosarEngineeringObject (Code_artifact_descriptors e).
Definition good_SwBaseType (e : SwBaseType) : Prop :=
  good_ident (SwBaseType_ident e) /\ opt_ok (fun z => (0 <= z)%Z) (SwBaseType_size e) /\ opt_ok (fun z => (0 <= z)%Z) (SwBaseType_max_size e) /\ opt_ok good_text (SwBaseType_encoding e) /\ opt_ok (fun z => (0 <= z)%Z) (SwBaseType_alignment e) /\ opt_ok good_text (SwBaseType_native_declaration e).
Definition good_SwBitRepresentation (e : SwBitRepresentation) : Prop :=
  True.
Definition good_SwTextProps (e : SwTextProps) : Prop :=
  opt_ok (good_ref rc_SwBaseTypeRef) (SwTextProps_base_type_ref e).
Definition good_SymbolProps (e : SymbolProps) : Prop :=
  good_text (SymbolProps_name e) /\ opt_ok good_text (SymbolProps_symbol e).
Definition good_DataTypeMap (e : DataTypeMap) : Prop :=
  opt_ok (good_ref rc_ApplicationDataTypeRef) (DataTypeMap_appl_data_type_ref e) /\ opt_ok (good_ref rc_ImplementationDataTypeRef) (DataTypeMap_impl_data_type_ref e).
Definition good_DataTypeMappingSet (e : DataTypeMappingSet) : Prop :=
  good_ident (DataTypeMappingSet_ident e) /\ all_ok good_DataTypeMap (DataTypeMappingSet_data_type_maps e).
Definition good_ModeRequestTypeMap (e : ModeRequestTypeMap) : Prop :=
  opt_ok (good_ref rc_ImplementationDataTypeRef) (ModeRequestTypeMap_implementation_data_type e) /\ opt_ok (good_ref rc_ModeDeclarationGroupRef) (ModeRequestTypeMap_mode_group e).
Definition good_ModeDeclaration (e : ModeDeclaration) : Prop :=
  good_ident_no_uuid (ModeDeclaration_ident e) /\ opt_ok (fun z => (0 <= z)%Z) (ModeDeclaration_value e).
Definition good_ModeErrorBehavior (e : ModeErrorBehavior) : Prop :=
  opt_ok (good_ref rc_ModeDeclarationRef) (ModeErrorBehavior_default_mode_ref e).
Definition good_ModeTransition (e : ModeTransition) : Prop :=
  good_ident_no_uuid (ModeTransition_ident e) /\ opt_ok (good_ref rc_ModeDeclarationRef) (ModeTransition_entered_mode_ref e) /\ opt_ok (good_ref rc_ModeDeclarationRef) (ModeTransition_exited_mode_ref e).
Definition good_ModeDeclarationGroupPrototype (e : ModeDeclarationGroupPrototype) : Prop :=
  good_ident (ModeDeclarationGroupPrototype_ident e) /\ opt_ok (good_ref rc_ModeDeclarationGroupRef) (ModeDeclarationGroupPrototype_type_ref e).
Definition good_InvalidationPolicy (e : InvalidationPolicy) : Prop :=
  opt_ok (good_ref rc_VariableDataPrototypeRef) (InvalidationPolicy_data_element_ref e).
Definition good_ApplicationError (e : ApplicationError) : Prop :=
  good_ident_no_uuid (ApplicationError_ident e).
Definition good_ModeSwitchInterface (e : ModeSwitchInterface) : Prop :=
  good_ident_no_uuid (ModeSwitchInterface_ident e) /\ ModeSwitchInterface_service_kind e = None /\ opt_ok good_ModeDeclarationGroupPrototype (ModeSwitchInterface_mode_group e).
Definition good_EndToEndTransformationComSpecProps (e : EndToEndTransformationComSpecProps) : Prop :=
  opt_ok (all_ok good_lang) (EndToEndTransformationComSpecProps_desc e) /\ opt_ok good_text (EndToEndTransformationComSpecProps_category e) /\ opt_ok good_doc (EndToEndTransformationComSpecProps_introduction e) /\ EndToEndTransformationComSpecProps_admin_data e = None /\ opt_ok (good_ref rc_E2EProfileCompatibilityPropsRef) (EndToEndTransformationComSpecProps_e2e_profile_compatibility_props_ref e) /\ opt_ok (fun z => (0 <= z)%Z) (EndToEndTransformationComSpecProps_max_delta_counter e) /\ opt_ok (fun z => (0 <= z)%Z) (EndToEndTransformationComSpecProps_max_error_state_init e) /\ opt_ok (fun z => (0 <= z)%Z) (EndToEndTransformationComSpecProps_max_error_state_invalid e) /\ opt_ok (fun z => (0 <= z)%Z) (EndToEndTransformationComSpecProps_max_error_state_valid e) /\ opt_ok (fun z => (0 <= z)%Z) (EndToEndTransformationComSpecProps_max_no_new_repeated_data e) /\ opt_ok (fun z => (0 <= z)%Z) (EndToEndTransformationComSpecProps_min_ok_state_init e) /\ opt_ok (fun z => (0 <= z)%Z) (EndToEndTransformationComSpecProps_min_ok_state_invalid e) /\ opt_ok (fun z => (0 <= z)%Z) (EndToEndTransformationComSpecProps_min_ok_state_valid e) /\ opt_ok (fun z => (0 <= z)%Z) (EndToEndTransformationComSpecProps_sync_counter_init e) /\ opt_ok (fun z => (0 <= z)%Z) (EndToEndTransformationComSpecProps_window_size e) /\ opt_ok (fun z => (0 <= z)%Z) (EndToEndTransformationComSpecProps_window_size_init e) /\ opt_ok (fun z => (0 <= z)%Z) (EndToEndTransformationComSpecProps_window_size_invalid e) /\ opt_ok (fun z => (0 <= z)%Z) (EndToEndTransformationComSpecProps_window_size_valid e).
Definition good_E2EProfileCompatibilityProps (e : E2EProfileCompatibilityProps) : Prop :=
  good_ident_no_uuid (E2EProfileCompatibilityProps_ident e).
Definition good_ModeSwitchedAckRequest (e : ModeSwitchedAckRequest) : Prop :=
  opt_ok good_real (ModeSwitchedAckRequest_timeout e).
Definition good_ModeSwitchSenderComSpec (e : ModeSwitchSenderComSpec) : Prop :=
  opt_ok (good_ref rc_ModeDeclarationGroupPrototypeRef) (ModeSwitchSenderComSpec_mode_group_ref e) /\ opt_ok good_ModeSwitchedAckRequest (ModeSwitchSenderComSpec_mode_switched_ack e) /\ opt_ok (fun z => (0 <= z)%Z) (ModeSwitchSenderComSpec_queue_length e).
Definition good_TransmissionAcknowledgementRequest (e : TransmissionAcknowledgementRequest) : Prop :=
  opt_ok good_real (TransmissionAcknowledgementRequest_timeout e).
Definition good_TransmissionComSpecProps (e : TransmissionComSpecProps) : Prop :=
  opt_ok good_real (TransmissionComSpecProps_data_update_period e) /\ opt_ok good_real (TransmissionComSpecProps_minimum_send_interval e).
Definition good_ServerComSpec (e : ServerComSpec) : Prop :=
  opt_ok (good_ref rc_ClientServerOperationRef) (ServerComSpec_operation_ref e) /\ opt_ok (fun z => (0 <= z)%Z) (ServerComSpec_queue_length e) /\ all_ok good_EndToEndTransformationComSpecProps (ServerComSpec_transformation_com_spec_props e).
Definition good_ModeSwitchReceiverComSpec (e : ModeSwitchReceiverComSpec) : Prop :=
  opt_ok (good_ref rc_ModeDeclarationGroupPrototypeRef) (ModeSwitchReceiverComSpec_mode_group_ref e).
Definition good_ClientComSpec (e : ClientComSpec) : Prop :=
  opt_ok (good_ref rc_ClientServerOperationRef) (ClientComSpec_operation_ref e) /\ opt_ok good_real (ClientComSpec_e2e_call_respone_timeout e) /\ all_ok good_EndToEndTransformationComSpecProps (ClientComSpec_transformation_com_spec_props e).
Definition good_PassThroughSwConnector (e : PassThroughSwConnector) : Prop :=
  good_ident_no_uuid (PassThroughSwConnector_ident e) /\ opt_ok (good_ref rc_PortPrototypeRef) (PassThroughSwConnector_provide_port e) /\ opt_ok (good_ref rc_PortPrototypeRef) (PassThroughSwConnector_require_port e).
Definition good_SwcImplementation (e : SwcImplementation) : Prop :=
  good_ident_no_uuid (SwcImplementation_ident e) /\ all_ok good_Code (SwcImplementation_code_descriptors e) /\ opt_ok (good_ref rc_SwcInternalBehaviorRef) (SwcImplementation_behavior_ref e) /\ opt_ok good_text (SwcImplementation_required_rte_vendor e).
Definition good_PModeGroupInAtomicSwcInstanceRef (e : PModeGroupInAtomicSwcInstanceRef) : Prop :=
  opt_ok (good_ref rc_AbstractProvidedPortPrototypeRef) (PModeGroupInAtomicSwcInstanceRef_context_port e) /\ opt_ok (good_ref rc_ModeDeclarationGroupPrototypeRef) (PModeGroupInAtomicSwcInstanceRef_target_mode_group e).
Definition good_POperationInAtomicSwcInstanceRef (e : POperationInAtomicSwcInstanceRef) : Prop :=
  opt_ok (good_ref rc_AbstractProvidedPortPrototypeRef) (POperationInAtomicSwcInstanceRef_context_port e) /\ opt_ok (good_ref rc_ClientServerOperationRef) (POperationInAtomicSwcInstanceRef_target_provided_operation e).
Definition good_PTriggerInAtomicSwcTypeInstanceRef (e : PTriggerInAtomicSwcTypeInstanceRef) : Prop :=
  opt_ok (good_ref rc_AbstractProvidedPortPrototypeRef) (PTriggerInAtomicSwcTypeInstanceRef_context_port e) /\ opt_ok (good_ref rc_TriggerRef) (PTriggerInAtomicSwcTypeInstanceRef_target_trigger e).
Definition good_RModeInAtomicSwcInstanceRef (e : RModeInAtomicSwcInstanceRef) : Prop :=
  opt_ok (good_ref rc_AbstractRequiredPortPrototypeRef) (RModeInAtomicSwcInstanceRef_context_port e) /\ opt_ok (good_ref rc_ModeDeclarationGroupPrototypeRef) (RModeInAtomicSwcInstanceRef_context_mode_declaration_group_prototype e) /\ opt_ok (good_ref rc_ModeDeclarationRef) (RModeInAtomicSwcInstanceRef_target_mode_declaration e).
Definition good_RModeGroupInAtomicSwcInstanceRef (e : RModeGroupInAtomicSwcInstanceRef) : Prop :=
  opt_ok (good_ref rc_AbstractRequiredPortPrototypeRef) (RModeGroupInAtomicSwcInstanceRef_context_port e) /\ opt_ok (good_ref rc_ModeDeclarationGroupPrototypeRef) (RModeGroupInAtomicSwcInstanceRef_target_mode_group e).
Definition good_ROperationInAtomicSwcInstanceRef (e : ROperationInAtomicSwcInstanceRef) : Prop :=
  opt_ok (good_ref rc_AbstractRequiredPortPrototypeRef) (ROperationInAtomicSwcInstanceRef_context_port e) /\ opt_ok (good_ref rc_ClientServerOperationRef) (ROperationInAtomicSwcInstanceRef_target_required_operation e).
Definition good_RVariableInAtomicSwcInstanceRef (e : RVariableInAtomicSwcInstanceRef) : Prop :=
  opt_ok (good_ref rc_AbstractRequiredPortPrototypeRef) (RVariableInAtomicSwcInstanceRef_context_port e) /\ opt_ok (good_ref rc_VariableDataPrototypeRef) (RVariableInAtomicSwcInstanceRef_target_data_element e).
Definition good_RTriggerInAtomicSwcInstanceRef (e : RTriggerInAtomicSwcInstanceRef) : Prop :=
  opt_ok (good_ref rc_AbstractRequiredPortPrototypeRef) (RTriggerInAtomicSwcInstanceRef_context_port e) /\ opt_ok (good_ref rc_TriggerRef) (RTriggerInAtomicSwcInstanceRef_target_trigger e).
Definition good_ArVariableInImplementationDataInstanceRef (e : ArVariableInImplementationDataInstanceRef) : Prop :=
  opt_ok (good_ref rc_PortPrototypeRef) (ArVariableInImplementationDataInstanceRef_port_prototype_ref e) /\ opt_ok (good_ref rc_VariableDataPrototypeRef) (ArVariableInImplementationDataInstanceRef_root_variable_data_prototype_ref e) /\ all_ok (good_ref rc_AbstractImplementationDataTypeElementRef) (ArVariableInImplementationDataInstanceRef_context_data_prototype_refs e) /\ opt_ok (good_ref rc_AbstractImplementationDataTypeElementRef) (ArVariableInImplementationDataInstanceRef_target_data_prototype_ref e).
Definition good_RunnableEntityArgument (e : RunnableEntityArgument) : Prop :=
  opt_ok good_text (RunnableEntityArgument_symbol e).
Definition good_ExecutableEntityActivationReason (e : ExecutableEntityActivationReason) : Prop :=
  good_text (ExecutableEntityActivationReason_name e) /\ opt_ok good_text (ExecutableEntityActivationReason_symbol e) /\ opt_ok (fun z => (0 <= z)%Z) (ExecutableEntityActivationReason_bit_position e).
Definition good_ExclusiveAreaRefConditional (e : ExclusiveAreaRefConditional) : Prop :=
  opt_ok (good_ref rc_ExclusiveAreaRef) (ExclusiveAreaRefConditional_exclusive_area e).
Definition good_AsynchronousServerCallPoint (e : AsynchronousServerCallPoint) : Prop :=
  good_ident_no_uuid (AsynchronousServerCallPoint_ident e) /\ opt_ok good_ROperationInAtomicSwcInstanceRef (AsynchronousServerCallPoint_operation e) /\ opt_ok good_real (AsynchronousServerCallPoint_timeout e).
Definition good_SynchronousServerCallPoint (e : SynchronousServerCallPoint) : Prop :=
  good_ident_no_uuid (SynchronousServerCallPoint_ident e) /\ opt_ok good_ROperationInAtomicSwcInstanceRef (SynchronousServerCallPoint_operation e) /\ opt_ok good_real (SynchronousServerCallPoint_timeout e) /\ opt_ok (good_ref rc_ExclusiveAreaNestingOrderRef) (SynchronousServerCallPoint_called_from_within_exclusive_area e).
Definition good_AsynchronousServerCallResultPoint (e : AsynchronousServerCallResultPoint) : Prop :=
  good_ident_no_uuid (AsynchronousServerCallResultPoint_ident e) /\ opt_ok (good_ref rc_AsynchronousServerCallPointRef) (AsynchronousServerCallResultPoint_async_server_call_point e).
Definition good_ExternalTriggeringPointIdent (e : ExternalTriggeringPointIdent) : Prop :=
  good_ident_no_uuid (ExternalTriggeringPointIdent_ident e).
Definition good_ExternalTriggeringPoint (e : ExternalTriggeringPoint) : Prop :=
  opt_ok good_ExternalTriggeringPointIdent (ExternalTriggeringPoint_ident e) /\ opt_ok good_PTriggerInAtomicSwcTypeInstanceRef (ExternalTriggeringPoint_trigger e).
Definition good_InternalTriggeringPoint (e : InternalTriggeringPoint) : Prop :=
  good_ident_no_uuid (InternalTriggeringPoint_ident e).
Definition good_ModeAccessPointIdent (e : ModeAccessPointIdent) : Prop :=
  good_ident_no_uuid (ModeAccessPointIdent_ident e).
Definition good_ModeSwitchPoint (e : ModeSwitchPoint) : Prop :=
  good_ident_no_uuid (ModeSwitchPoint_ident e) /\ opt_ok good_PModeGroupInAtomicSwcInstanceRef (ModeSwitchPoint_mode_group e).
Definition good_ParameterInAtomicSwcTypeInstanceRef (e : ParameterInAtomicSwcTypeInstanceRef) : Prop :=
  opt_ok (good_ref rc_PortPrototypeRef) (ParameterInAtomicSwcTypeInstanceRef_port_prototype e) /\ opt_ok (good_ref rc_DataPrototypeRef) (ParameterInAtomicSwcTypeInstanceRef_root_parameter_data_prototype e) /\ opt_ok (good_ref rc_ApplicationCompositeElementDataPrototypeRef) (ParameterInAtomicSwcTypeInstanceRef_context_data_prototype e) /\ opt_ok (good_ref rc_DataPrototypeRef) (ParameterInAtomicSwcTypeInstanceRef_target_data_prototype e).
Definition good_AutosarParameterRef (e : AutosarParameterRef) : Prop :=
  opt_ok good_ParameterInAtomicSwcTypeInstanceRef (AutosarParameterRef_autosar_parameter e) /\ opt_ok (good_ref rc_DataPrototypeRef) (AutosarParameterRef_local_parameter e).
Definition good_WaitPoint (e : WaitPoint) : Prop :=
  good_ident_no_uuid (WaitPoint_ident e) /\ opt_ok good_real (WaitPoint_timeout e) /\ opt_ok (good_ref rc_RteEventRef) (WaitPoint_trigger e).
Definition good_AsynchronousServerCallReturnsEvent (e : AsynchronousServerCallReturnsEvent) : Prop :=
  good_ident_no_uuid (AsynchronousServerCallReturnsEvent_ident e) /\ all_ok good_RModeInAtomicSwcInstanceRef (AsynchronousServerCallReturnsEvent_disabled_modes e) /\ opt_ok (good_ref rc_RunnableEntityRef) (AsynchronousServerCallReturnsEvent_start_on_event e) /\ opt_ok (good_ref rc_AsynchronousServerCallResultPointRef) (AsynchronousServerCallReturnsEvent_event_source e).
Definition good_BackgroundEvent (e : BackgroundEvent) : Prop :=
  good_ident_no_uuid (BackgroundEvent_ident e) /\ all_ok good_RModeInAtomicSwcInstanceRef (BackgroundEvent_disabled_modes e) /\ opt_ok (good_ref rc_RunnableEntityRef) (BackgroundEvent_start_on_event e).
Definition good_DataReceiveErrorEvent (e : DataReceiveErrorEvent) : Prop :=
  good_ident_no_uuid (DataReceiveErrorEvent_ident e) /\ all_ok good_RModeInAtomicSwcInstanceRef (DataReceiveErrorEvent_disabled_modes e) /\ opt_ok (good_ref rc_RunnableEntityRef) (DataReceiveErrorEvent_start_on_event e) /\ opt_ok good_RVariableInAtomicSwcInstanceRef (DataReceiveErrorEvent_data e).
Definition good_DataReceivedEvent (e : DataReceivedEvent) : Prop :=
  good_ident_no_uuid (DataReceivedEvent_ident e) /\ all_ok good_RModeInAtomicSwcInstanceRef (DataReceivedEvent_disabled_modes e) /\ opt_ok (good_ref rc_RunnableEntityRef) (DataReceivedEvent_start_on_event e) /\ opt_ok good_RVariableInAtomicSwcInstanceRef (DataReceivedEvent_data e).
Definition good_DataSendCompletedEvent (e : DataSendCompletedEvent) : Prop :=
  good_ident_no_uuid (DataSendCompletedEvent_ident e) /\ all_ok good_RModeInAtomicSwcInstanceRef (DataSendCompletedEvent_disabled_modes e) /\ opt_ok (good_ref rc_RunnableEntityRef) (DataSendCompletedEvent_start_on_event e) /\ opt_ok (good_ref rc_VariableAccessRef) (DataSendCompletedEvent_event_source e).
Definition good_DataWriteCompletedEvent (e : DataWriteCompletedEvent) : Prop :=
  good_ident_no_uuid (DataWriteCompletedEvent_ident e) /\ all_ok good_RModeInAtomicSwcInstanceRef (DataWriteCompletedEvent_disabled_modes e) /\ opt_ok (good_ref rc_RunnableEntityRef) (DataWriteCompletedEvent_start_on_event e) /\ opt_ok (good_ref rc_VariableAccessRef) (DataWriteCompletedEvent_event_source e).
Definition good_ExternalTriggerOccurredEvent (e : ExternalTriggerOccurredEvent) : Prop :=
  good_ident_no_uuid (ExternalTriggerOccurredEvent_ident e) /\ all_ok good_RModeInAtomicSwcInstanceRef (ExternalTriggerOccurredEvent_disabled_modes e) /\ opt_ok (good_ref rc_RunnableEntityRef) (ExternalTriggerOccurredEvent_start_on_event e) /\ opt_ok good_RTriggerInAtomicSwcInstanceRef (ExternalTriggerOccurredEvent_trigger e).
Definition good_InitEvent (e : InitEvent) : Prop :=
  good_ident_no_uuid (InitEvent_ident e) /\ all_ok good_RModeInAtomicSwcInstanceRef (InitEvent_disabled_modes e) /\ opt_ok (good_ref rc_RunnableEntityRef) (InitEvent_start_on_event e).
Definition good_InternalTriggerOccurredEvent (e : InternalTriggerOccurredEvent) : Prop :=
  good_ident_no_uuid (InternalTriggerOccurredEvent_ident e) /\ all_ok good_RModeInAtomicSwcInstanceRef (InternalTriggerOccurredEvent_disabled_modes e) /\ opt_ok (good_ref rc_RunnableEntityRef) (InternalTriggerOccurredEvent_start_on_event e) /\ opt_ok (good_ref rc_InternalTriggeringPointRef) (InternalTriggerOccurredEvent_event_source e).
Definition good_ModeSwitchedAckEvent (e : ModeSwitchedAckEvent) : Prop :=
  good_ident_no_uuid (ModeSwitchedAckEvent_ident e) /\ all_ok good_RModeInAtomicSwcInstanceRef (ModeSwitchedAckEvent_disabled_modes e) /\ opt_ok (good_ref rc_RunnableEntityRef) (ModeSwitchedAckEvent_start_on_event e) /\ opt_ok (good_ref rc_ModeSwitchPointRef) (ModeSwitchedAckEvent_event_source e).
Definition good_OperationInvokedEvent (e : OperationInvokedEvent) : Prop :=
  good_ident_no_uuid (OperationInvokedEvent_ident e) /\ all_ok good_RModeInAtomicSwcInstanceRef (OperationInvokedEvent_disabled_modes e) /\ opt_ok (good_ref rc_RunnableEntityRef) (OperationInvokedEvent_start_on_event e) /\ opt_ok good_POperationInAtomicSwcInstanceRef (OperationInvokedEvent_operation e).
Definition good_SwcModeManagerErrorEvent (e : SwcModeManagerErrorEvent) : Prop :=
  good_ident_no_uuid (SwcModeManagerErrorEvent_ident e) /\ all_ok good_RModeInAtomicSwcInstanceRef (SwcModeManagerErrorEvent_disabled_modes e) /\ opt_ok (good_ref rc_RunnableEntityRef) (SwcModeManagerErrorEvent_start_on_event e) /\ opt_ok good_PModeGroupInAtomicSwcInstanceRef (SwcModeManagerErrorEvent_mode_group e).
Definition good_TimingEvent (e : TimingEvent) : Prop :=
  good_ident_no_uuid (TimingEvent_ident e) /\ all_ok good_RModeInAtomicSwcInstanceRef (TimingEvent_disabled_modes e) /\ opt_ok (good_ref rc_RunnableEntityRef) (TimingEvent_start_on_event e) /\ opt_ok good_real (TimingEvent_offset e) /\ opt_ok good_real (TimingEvent_period e).
Definition good_TransformerHardErrorEvent (e : TransformerHardErrorEvent) : Prop :=
  good_ident_no_uuid (TransformerHardErrorEvent_ident e) /\ all_ok good_RModeInAtomicSwcInstanceRef (TransformerHardErrorEvent_disabled_modes e) /\ opt_ok (good_ref rc_RunnableEntityRef) (TransformerHardErrorEvent_start_on_event e) /\ opt_ok good_POperationInAtomicSwcInstanceRef (TransformerHardErrorEvent_operation e) /\ opt_ok good_RTriggerInAtomicSwcInstanceRef (TransformerHardErrorEvent_required_trigger e) /\ opt_ok good_PTriggerInAtomicSwcTypeInstanceRef (TransformerHardErrorEvent_trigger e).
Definition good_CommunicationBufferLocking (e : CommunicationBufferLocking) : Prop :=
  True.
Definition good_ExclusiveArea (e : ExclusiveArea) : Prop :=
  good_ident_no_uuid (ExclusiveArea_ident e).
