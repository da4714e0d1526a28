(** Writing and reading single elements: write_str_elem, write_file_elem and read_str_elem with the
    tables they look the methods up in.  No proofs in this file. *)
From Verif Require Import Base MNum MXml MNs MEnum MRefTab MRef MCodec MStr MElem0 MElemA MElemB MElemC MElemD MElem1 MElem2 MElem3 MElem4 MElem5 MElemE MElemF MArxml.

(** An object of one of the classes in the tables of Writer (writer.py:191-399), or of some other class,
    [An_other], of which only the name matters here.  The classes of value specifications, of inline
    elements of a text and of the items of a documentation block are each one type of the model
    (element.py: class definitions of the same names). *)
Inductive any_object :=
| An_CompuMethod (e : CompuMethod)
| An_DataFilter (e : DataFilter)
| An_AutosarEngineeringObject (e : AutosarEngineeringObject)
| An_Code (e : Code)
| An_ApplicationArrayDataType (e : ApplicationArrayDataType)
| An_ApplicationRecordDataType (e : ApplicationRecordDataType)
| An_ApplicationPrimitiveDataType (e : ApplicationPrimitiveDataType)
| An_SwBaseType (e : SwBaseType)
| An_SwAddrMethod (e : SwAddrMethod)
| An_ImplementationDataType (e : ImplementationDataType)
| An_DataTypeMappingSet (e : DataTypeMappingSet)
| An_DataConstraint (e : DataConstraint)
| An_Unit (e : Unit)
| An_ConstantSpecification (e : ConstantSpecification)
| An_NvDataInterface (e : NvDataInterface)
| An_ParameterInterface (e : ParameterInterface)
| An_SenderReceiverInterface (e : SenderReceiverInterface)
| An_ClientServerInterface (e : ClientServerInterface)
| An_ModeSwitchInterface (e : ModeSwitchInterface)
| An_ModeDeclarationGroup (e : ModeDeclarationGroup)
| An_E2EProfileCompatibilityProps (e : E2EProfileCompatibilityProps)
| An_ApplicationSoftwareComponentType (e : ApplicationSoftwareComponentType)
| An_CompositionSwComponentType (e : CompositionSwComponentType)
| An_SwcImplementation (e : SwcImplementation)
| An_ModeSwitchSenderComSpec (e : ModeSwitchSenderComSpec)
| An_QueuedSenderComSpec (e : QueuedSenderComSpec)
| An_NonqueuedSenderComSpec (e : NonqueuedSenderComSpec)
| An_NvProvideComSpec (e : NvProvideComSpec)
| An_ParameterProvideComSpec (e : ParameterProvideComSpec)
| An_ServerComSpec (e : ServerComSpec)
| An_QueuedReceiverComSpec (e : QueuedReceiverComSpec)
| An_NonqueuedReceiverComSpec (e : NonqueuedReceiverComSpec)
| An_NvRequireComSpec (e : NvRequireComSpec)
| An_ParameterRequireComSpec (e : ParameterRequireComSpec)
| An_ModeSwitchReceiverComSpec (e : ModeSwitchReceiverComSpec)
| An_ClientComSpec (e : ClientComSpec)
| An_AsynchronousServerCallReturnsEvent (e : AsynchronousServerCallReturnsEvent)
| An_BackgroundEvent (e : BackgroundEvent)
| An_DataReceiveErrorEvent (e : DataReceiveErrorEvent)
| An_DataReceivedEvent (e : DataReceivedEvent)
| An_DataSendCompletedEvent (e : DataSendCompletedEvent)
| An_DataWriteCompletedEvent (e : DataWriteCompletedEvent)
| An_ExternalTriggerOccurredEvent (e : ExternalTriggerOccurredEvent)
| An_InitEvent (e : InitEvent)
| An_InternalTriggerOccurredEvent (e : InternalTriggerOccurredEvent)
| An_ModeSwitchedAckEvent (e : ModeSwitchedAckEvent)
| An_OperationInvokedEvent (e : OperationInvokedEvent)
| An_SwcModeManagerErrorEvent (e : SwcModeManagerErrorEvent)
| An_SwcModeSwitchEvent (e : SwcModeSwitchEvent)
| An_TimingEvent (e : TimingEvent)
| An_TransformerHardErrorEvent (e : TransformerHardErrorEvent)
| An_Computation (e : Computation)
| An_CompuRational (e : CompuRational)
| An_CompuScale (e : CompuScale)
| An_ScaleConstraint (e : ScaleConstraint)
| An_InternalConstraint (e : InternalConstraint)
| An_PhysicalConstraint (e : PhysicalConstraint)
| An_DataConstraintRule (e : DataConstraintRule)
| An_SwDataDefPropsConditional (e : SwDataDefPropsConditional)
| An_SwBitRepresentation (e : SwBitRepresentation)
| An_SwTextProps (e : SwTextProps)
| An_SwPointerTargetProps (e : SwPointerTargetProps)
| An_SymbolProps (e : SymbolProps)
| An_ImplementationDataTypeElement (e : ImplementationDataTypeElement)
| An_ApplicationArrayElement (e : ApplicationArrayElement)
| An_ApplicationRecordElement (e : ApplicationRecordElement)
| An_DataTypeMap (e : DataTypeMap)
| An_ValueList (e : ValueList)
| An_VariableDataPrototype (e : VariableDataPrototype)
| An_ParameterDataPrototype (e : ParameterDataPrototype)
| An_ArgumentDataPrototype (e : ArgumentDataPrototype)
| An_ModeRequestTypeMap (e : ModeRequestTypeMap)
| An_SwValues (e : SwValues)
| An_SwAxisCont (e : SwAxisCont)
| An_SwValueCont (e : SwValueCont)
| An_InvalidationPolicy (e : InvalidationPolicy)
| An_ApplicationError (e : ApplicationError)
| An_ClientServerOperation (e : ClientServerOperation)
| An_ModeDeclaration (e : ModeDeclaration)
| An_ModeErrorBehavior (e : ModeErrorBehavior)
| An_ModeTransition (e : ModeTransition)
| An_ModeDeclarationGroupPrototype (e : ModeDeclarationGroupPrototype)
| An_EndToEndTransformationComSpecProps (e : EndToEndTransformationComSpecProps)
| An_ModeSwitchedAckRequest (e : ModeSwitchedAckRequest)
| An_TransmissionAcknowledgementRequest (e : TransmissionAcknowledgementRequest)
| An_TransmissionComSpecProps (e : TransmissionComSpecProps)
| An_ReceptionComSpecProps (e : ReceptionComSpecProps)
| An_ProvidePortPrototype (e : ProvidePortPrototype)
| An_RequirePortPrototype (e : RequirePortPrototype)
| An_PRPortPrototype (e : PRPortPrototype)
| An_SwComponentPrototype (e : SwComponentPrototype)
| An_AssemblySwConnector (e : AssemblySwConnector)
| An_DelegationSwConnector (e : DelegationSwConnector)
| An_PassThroughSwConnector (e : PassThroughSwConnector)
| An_RModeInAtomicSwcInstanceRef (e : RModeInAtomicSwcInstanceRef)
| An_RModeGroupInAtomicSwcInstanceRef (e : RModeGroupInAtomicSwcInstanceRef)
| An_ArVariableInImplementationDataInstanceRef (e : ArVariableInImplementationDataInstanceRef)
| An_VariableInAtomicSWCTypeInstanceRef (e : VariableInAtomicSWCTypeInstanceRef)
| An_AutosarVariableRef (e : AutosarVariableRef)
| An_VariableAccess (e : VariableAccess)
| An_SwcInternalBehavior (e : SwcInternalBehavior)
| An_ExecutableEntityActivationReason (e : ExecutableEntityActivationReason)
| An_ExclusiveAreaRefConditional (e : ExclusiveAreaRefConditional)
| An_RunnableEntityArgument (e : RunnableEntityArgument)
| An_RunnableEntity (e : RunnableEntity)
| An_PortDefinedArgumentValue (e : PortDefinedArgumentValue)
| An_CommunicationBufferLocking (e : CommunicationBufferLocking)
| An_PortApiOption (e : PortApiOption)
| An_AsynchronousServerCallPoint (e : AsynchronousServerCallPoint)
| An_SynchronousServerCallPoint (e : SynchronousServerCallPoint)
| An_AsynchronousServerCallResultPoint (e : AsynchronousServerCallResultPoint)
| An_ExternalTriggeringPoint (e : ExternalTriggeringPoint)
| An_InternalTriggeringPoint (e : InternalTriggeringPoint)
| An_ModeAccessPoint (e : ModeAccessPoint)
| An_ModeSwitchPoint (e : ModeSwitchPoint)
| An_ParameterInAtomicSwcTypeInstanceRef (e : ParameterInAtomicSwcTypeInstanceRef)
| An_AutosarParameterRef (e : AutosarParameterRef)
| An_ParameterAccess (e : ParameterAccess)
| An_WaitPoint (e : WaitPoint)
| An_value (e : ValueSpecificationElement)
| An_inline (e : inline_elem)
| An_doc_item (e : doc_item)
| An_Annotation (e : Annotation)
| An_DocumentationBlock (e : DocumentationBlock)
| An_MultilanguageLongName (e : list lang_text)
| An_MultiLanguageOverviewParagraph (e : list lang_text)
| An_LanguageLongName (e : lang_text)
| An_LanguageParagraph (e : lang_text)
| An_LanguageVerbatim (e : lang_text)
| An_SingleLanguageUnitNames (e : SingleLanguageUnitNames)
| An_SwBaseTypeRef (e : ref)
| An_PhysicalDimensionRef (e : ref)
| An_ApplicationDataTypeRef (e : ref)
| An_ConstantRef (e : ref)
| An_PortInCompositionTypeInstanceRef (e : PortInCompositionTypeInstanceRef)
| An_Package (e : package)
| An_other (name : string).

(** elem.__class__.__name__ (writer.py:421): the classes of the sum types *)
Definition value_class (e : ValueSpecificationElement) : string :=
  match e with
  | TextValueSpecification _ _ => "TextValueSpecification"
  | NumericalValueSpecification _ _ => "NumericalValueSpecification"
  | NotAvailableValueSpecification _ _ => "NotAvailableValueSpecification"
  | ArrayValueSpecification _ _ => "ArrayValueSpecification"
  | RecordValueSpecification _ _ => "RecordValueSpecification"
  | ApplicationValueSpecification _ _ _ _ => "ApplicationValueSpecification"
  | ConstantReference _ _ => "ConstantReference"
  end.
(** The classes of inline elements, element.py:476-572 *)
Definition inline_class (i : inline_elem) : string :=
  match i with
  | IBreak => "Break"
  | IEmphasis _ _ _ _ => "EmphasisText"
  | IIndexEntry _ => "IndexEntry"
  | ISubscript _ => "Subscript"
  | ISuperscript _ => "Superscript"
  | ITechnicalTerm _ _ _ => "TechnicalTerm"
  end.
(** The classes of the items of a documentation block, element.py:812-944 *)
Definition doc_item_class (i : doc_item) : string :=
  match i with Paragraph _ _ _ => "MultiLanguageParagraph" | Verbatim _ _ _ _ _ _ => "MultiLanguageVerbatim" end.
(** elem.__class__.__name__, writer.py:421, 439 *)
Definition class_name (o : any_object) : string :=
  match o with
  | An_CompuMethod _ => "CompuMethod"
  | An_DataFilter _ => "DataFilter"
  | An_AutosarEngineeringObject _ => "AutosarEngineeringObject"
  | An_Code _ => "Code"
  | An_ApplicationArrayDataType _ => "ApplicationArrayDataType"
  | An_ApplicationRecordDataType _ => "ApplicationRecordDataType"
  | An_ApplicationPrimitiveDataType _ => "ApplicationPrimitiveDataType"
  | An_SwBaseType _ => "SwBaseType"
  | An_SwAddrMethod _ => "SwAddrMethod"
  | An_ImplementationDataType _ => "ImplementationDataType"
  | An_DataTypeMappingSet _ => "DataTypeMappingSet"
  | An_DataConstraint _ => "DataConstraint"
  | An_Unit _ => "Unit"
  | An_ConstantSpecification _ => "ConstantSpecification"
  | An_NvDataInterface _ => "NvDataInterface"
  | An_ParameterInterface _ => "ParameterInterface"
  | An_SenderReceiverInterface _ => "SenderReceiverInterface"
  | An_ClientServerInterface _ => "ClientServerInterface"
  | An_ModeSwitchInterface _ => "ModeSwitchInterface"
  | An_ModeDeclarationGroup _ => "ModeDeclarationGroup"
  | An_E2EProfileCompatibilityProps _ => "E2EProfileCompatibilityProps"
  | An_ApplicationSoftwareComponentType _ => "ApplicationSoftwareComponentType"
  | An_CompositionSwComponentType _ => "CompositionSwComponentType"
  | An_SwcImplementation _ => "SwcImplementation"
  | An_ModeSwitchSenderComSpec _ => "ModeSwitchSenderComSpec"
  | An_QueuedSenderComSpec _ => "QueuedSenderComSpec"
  | An_NonqueuedSenderComSpec _ => "NonqueuedSenderComSpec"
  | An_NvProvideComSpec _ => "NvProvideComSpec"
  | An_ParameterProvideComSpec _ => "ParameterProvideComSpec"
  | An_ServerComSpec _ => "ServerComSpec"
  | An_QueuedReceiverComSpec _ => "QueuedReceiverComSpec"
  | An_NonqueuedReceiverComSpec _ => "NonqueuedReceiverComSpec"
  | An_NvRequireComSpec _ => "NvRequireComSpec"
  | An_ParameterRequireComSpec _ => "ParameterRequireComSpec"
  | An_ModeSwitchReceiverComSpec _ => "ModeSwitchReceiverComSpec"
  | An_ClientComSpec _ => "ClientComSpec"
  | An_AsynchronousServerCallReturnsEvent _ => "AsynchronousServerCallReturnsEvent"
  | An_BackgroundEvent _ => "BackgroundEvent"
  | An_DataReceiveErrorEvent _ => "DataReceiveErrorEvent"
  | An_DataReceivedEvent _ => "DataReceivedEvent"
  | An_DataSendCompletedEvent _ => "DataSendCompletedEvent"
  | An_DataWriteCompletedEvent _ => "DataWriteCompletedEvent"
  | An_ExternalTriggerOccurredEvent _ => "ExternalTriggerOccurredEvent"
  | An_InitEvent _ => "InitEvent"
  | An_InternalTriggerOccurredEvent _ => "InternalTriggerOccurredEvent"
  | An_ModeSwitchedAckEvent _ => "ModeSwitchedAckEvent"
  | An_OperationInvokedEvent _ => "OperationInvokedEvent"
  | An_SwcModeManagerErrorEvent _ => "SwcModeManagerErrorEvent"
  | An_SwcModeSwitchEvent _ => "SwcModeSwitchEvent"
  | An_TimingEvent _ => "TimingEvent"
  | An_TransformerHardErrorEvent _ => "TransformerHardErrorEvent"
  | An_Computation _ => "Computation"
  | An_CompuRational _ => "CompuRational"
  | An_CompuScale _ => "CompuScale"
  | An_ScaleConstraint _ => "ScaleConstraint"
  | An_InternalConstraint _ => "InternalConstraint"
  | An_PhysicalConstraint _ => "PhysicalConstraint"
  | An_DataConstraintRule _ => "DataConstraintRule"
  | An_SwDataDefPropsConditional _ => "SwDataDefPropsConditional"
  | An_SwBitRepresentation _ => "SwBitRepresentation"
  | An_SwTextProps _ => "SwTextProps"
  | An_SwPointerTargetProps _ => "SwPointerTargetProps"
  | An_SymbolProps _ => "SymbolProps"
  | An_ImplementationDataTypeElement _ => "ImplementationDataTypeElement"
  | An_ApplicationArrayElement _ => "ApplicationArrayElement"
  | An_ApplicationRecordElement _ => "ApplicationRecordElement"
  | An_DataTypeMap _ => "DataTypeMap"
  | An_ValueList _ => "ValueList"
  | An_VariableDataPrototype _ => "VariableDataPrototype"
  | An_ParameterDataPrototype _ => "ParameterDataPrototype"
  | An_ArgumentDataPrototype _ => "ArgumentDataPrototype"
  | An_ModeRequestTypeMap _ => "ModeRequestTypeMap"
  | An_SwValues _ => "SwValues"
  | An_SwAxisCont _ => "SwAxisCont"
  | An_SwValueCont _ => "SwValueCont"
  | An_InvalidationPolicy _ => "InvalidationPolicy"
  | An_ApplicationError _ => "ApplicationError"
  | An_ClientServerOperation _ => "ClientServerOperation"
  | An_ModeDeclaration _ => "ModeDeclaration"
  | An_ModeErrorBehavior _ => "ModeErrorBehavior"
  | An_ModeTransition _ => "ModeTransition"
  | An_ModeDeclarationGroupPrototype _ => "ModeDeclarationGroupPrototype"
  | An_EndToEndTransformationComSpecProps _ => "EndToEndTransformationComSpecProps"
  | An_ModeSwitchedAckRequest _ => "ModeSwitchedAckRequest"
  | An_TransmissionAcknowledgementRequest _ => "TransmissionAcknowledgementRequest"
  | An_TransmissionComSpecProps _ => "TransmissionComSpecProps"
  | An_ReceptionComSpecProps _ => "ReceptionComSpecProps"
  | An_ProvidePortPrototype _ => "ProvidePortPrototype"
  | An_RequirePortPrototype _ => "RequirePortPrototype"
  | An_PRPortPrototype _ => "PRPortPrototype"
  | An_SwComponentPrototype _ => "SwComponentPrototype"
  | An_AssemblySwConnector _ => "AssemblySwConnector"
  | An_DelegationSwConnector _ => "DelegationSwConnector"
  | An_PassThroughSwConnector _ => "PassThroughSwConnector"
  | An_RModeInAtomicSwcInstanceRef _ => "RModeInAtomicSwcInstanceRef"
  | An_RModeGroupInAtomicSwcInstanceRef _ => "RModeGroupInAtomicSwcInstanceRef"
  | An_ArVariableInImplementationDataInstanceRef _ => "ArVariableInImplementationDataInstanceRef"
  | An_VariableInAtomicSWCTypeInstanceRef _ => "VariableInAtomicSWCTypeInstanceRef"
  | An_AutosarVariableRef _ => "AutosarVariableRef"
  | An_VariableAccess _ => "VariableAccess"
  | An_SwcInternalBehavior _ => "SwcInternalBehavior"
  | An_ExecutableEntityActivationReason _ => "ExecutableEntityActivationReason"
  | An_ExclusiveAreaRefConditional _ => "ExclusiveAreaRefConditional"
  | An_RunnableEntityArgument _ => "RunnableEntityArgument"
  | An_RunnableEntity _ => "RunnableEntity"
  | An_PortDefinedArgumentValue _ => "PortDefinedArgumentValue"
  | An_CommunicationBufferLocking _ => "CommunicationBufferLocking"
  | An_PortApiOption _ => "PortApiOption"
  | An_AsynchronousServerCallPoint _ => "AsynchronousServerCallPoint"
  | An_SynchronousServerCallPoint _ => "SynchronousServerCallPoint"
  | An_AsynchronousServerCallResultPoint _ => "AsynchronousServerCallResultPoint"
  | An_ExternalTriggeringPoint _ => "ExternalTriggeringPoint"
  | An_InternalTriggeringPoint _ => "InternalTriggeringPoint"
  | An_ModeAccessPoint _ => "ModeAccessPoint"
  | An_ModeSwitchPoint _ => "ModeSwitchPoint"
  | An_ParameterInAtomicSwcTypeInstanceRef _ => "ParameterInAtomicSwcTypeInstanceRef"
  | An_AutosarParameterRef _ => "AutosarParameterRef"
  | An_ParameterAccess _ => "ParameterAccess"
  | An_WaitPoint _ => "WaitPoint"
  | An_value e => value_class e
  | An_inline i => inline_class i
  | An_doc_item i => doc_item_class i
  | An_Annotation _ => "Annotation"
  | An_DocumentationBlock _ => "DocumentationBlock"
  | An_MultilanguageLongName _ => "MultilanguageLongName"
  | An_MultiLanguageOverviewParagraph _ => "MultiLanguageOverviewParagraph"
  | An_LanguageLongName _ => "LanguageLongName"
  | An_LanguageParagraph _ => "LanguageParagraph"
  | An_LanguageVerbatim _ => "LanguageVerbatim"
  | An_SingleLanguageUnitNames _ => "SingleLanguageUnitNames"
  | An_SwBaseTypeRef _ => "SwBaseTypeRef"
  | An_PhysicalDimensionRef _ => "PhysicalDimensionRef"
  | An_ApplicationDataTypeRef _ => "ApplicationDataTypeRef"
  | An_ConstantRef _ => "ConstantRef"
  | An_PortInCompositionTypeInstanceRef _ => "PortInCompositionTypeInstanceRef"
  | An_Package _ => "Package"
  | An_other name => name
  end.

(** The _write_* methods in the tables of Writer.__init__, writer.py:191-399 *)
Inductive wmethod :=
| W_package | W_compu_method | W_data_filter | W_autosar_engineering_object | W_code
| W_application_array_data_type | W_application_record_data_type | W_application_primitive_data_type
| W_sw_base_type | W_sw_addr_method | W_implementation_data_type | W_data_type_mapping_set
| W_data_constraint | W_unit | W_constant_specification | W_nv_data_interface | W_parameter_interface
| W_sender_receiver_interface | W_client_server_interface | W_mode_switch_interface
| W_mode_declaration_group | W_e2e_profile_compatibility_props | W_application_software_component_type
| W_composition_sw_component_type | W_swc_implementation | W_text_value_specification
| W_numerical_value_specification | W_not_available_value_specification | W_array_value_specification
| W_record_value_specification | W_application_value_specification | W_constant_reference
| W_mode_switch_sender_com_spec | W_queued_sender_com_spec | W_non_queued_sender_com_spec
| W_nv_provide_com_spec | W_parameter_provide_com_spec | W_server_com_spec | W_queued_receiver_com_spec
| W_nonqueued_receiver_com_spec | W_nv_require_com_spec | W_parameter_require_com_spec
| W_mode_switch_receiver_com_spec | W_client_com_spec | W_async_server_call_returns_event
| W_background_event | W_data_receive_error_event | W_data_received_event | W_data_send_completed_event
| W_data_write_completed_event | W_external_trigger_occured_event | W_init_event
| W_internal_trigger_occured_event | W_mode_switched_ack_event | W_operation_invoked_event
| W_swc_mode_manager_error_event | W_swc_mode_switch_event | W_timing_event | W_transformer_hard_error_event
| W_annotation | W_break | W_documentation_block | W_emphasis_text | W_index_entry
| W_multi_language_long_name | W_multi_language_overview_paragraph | W_multi_language_paragraph
| W_multi_language_verbatim | W_language_long_name | W_language_paragraph | W_language_verbatim
| W_single_language_unit_names | W_superscript | W_subscript | W_technical_term | W_computation
| W_compu_rational | W_compu_scale | W_scale_constraint | W_internal_constraint | W_physical_constraint
| W_data_constraint_rule | W_sw_data_def_props_conditional | W_sw_base_type_ref | W_sw_bit_represenation
| W_sw_text_props | W_sw_pointer_target_props | W_symbol_props | W_implementation_data_type_element
| W_application_array_element | W_application_record_element | W_data_type_map | W_value_list
| W_variable_data_prototype | W_parameter_data_prototype | W_argument_data_prototype
| W_mode_request_type_map | W_sw_values | W_sw_axis_cont | W_sw_value_cont | W_physical_dimension_ref
| W_application_data_type_ref | W_constant_ref | W_invalidation_policy | W_application_error
| W_client_server_operation | W_mode_declaration | W_mode_error_behavior | W_mode_transition
| W_mode_declaration_group_prototype | W_e2e_transformation_com_spec_props | W_mode_switched_ack_request
| W_transmission_acknowledgement_request | W_tranmsission_com_spec_props | W_reception_com_spec_props
| W_provide_port_prototype | W_require_port_prototype | W_pr_port_prototype | W_sw_component_prototype
| W_port_in_composition_type_instance_ref | W_assembly_sw_connector | W_delegation_sw_connector
| W_passthrough_sw_connector | W_r_mode_in_atomic_swc_instance_ref
| W_r_mode_group_in_atomic_swc_instance_ref | W_variable_in_impl_data_instance_ref
| W_variable_in_atomic_swc_type_instance_ref | W_autosar_variable_ref | W_variable_access
| W_swc_internal_behavior | W_executable_entity_activation_reason | W_exclusive_area_ref_conditional
| W_runnable_entity_argument | W_runnable_entity | W_port_defined_argument_value
| W_communication_buffer_locking | W_port_api_option | W_async_server_call_point | W_sync_server_call_point
| W_async_server_call_result_point | W_external_triggering_point | W_internal_triggering_point
| W_mode_access_point | W_mode_switch_point | W_parameter_in_atomic_swc_type_instance_ref
| W_autosar_parameter_ref | W_parameter_access | W_wait_point.
(** The _read_* methods in the tables of Reader.__init__, reader.py:130-348 *)
Inductive rmethod :=
| R_compu_method | R_data_filter | R_autosar_engineering_object | R_code | R_application_array_data_type
| R_application_record_data_type | R_application_primitive_data_type | R_sw_base_type | R_sw_addr_method
| R_implementation_data_type | R_data_type_mapping_set | R_data_constraint | R_nv_data_interface
| R_parameter_interface | R_sender_receiver_interface | R_client_server_interface | R_mode_switch_interface
| R_unit | R_constant_specification | R_mode_declaration_group | R_e2e_profile_compatibility_props
| R_application_sw_component_type | R_composition_sw_component_type | R_swc_implementation
| R_text_value_specification | R_numerical_value_specification | R_not_available_value_specification
| R_array_value_specification | R_record_value_specification | R_application_value_specification
| R_constant_reference | R_queued_sender_com_spec | R_mode_switch_sender_com_spec
| R_nonqueued_sender_com_spec | R_nv_provider_com_spec | R_parameter_provide_com_spec | R_server_com_spec
| R_queued_receiver_com_spec | R_nonqueued_receiver_com_spec | R_nv_require_com_spec
| R_parameter_require_com_spec | R_mode_switch_receiver_com_spec | R_client_com_spec
| R_async_server_call_returns_event | R_background_event | R_data_receive_error_event | R_data_received_event
| R_data_send_completed_event | R_data_write_completed_event | R_external_trigger_occured_event
| R_init_event | R_internal_trigger_occured_event | R_mode_switched_ack_event | R_operation_invoked_event
| R_swc_mode_manager_error_event | R_swc_mode_switch_event | R_timing_event | R_transformer_hard_error_event
| R_annotation | R_documentation_block | R_break | R_multi_language_overview_paragraph | R_emphasis_text
| R_index_entry | R_language_long_name | R_language_paragraph | R_language_verbatim
| R_multi_language_long_name | R_multi_language_paragraph | R_single_language_unit_names | R_superscript
| R_subscript | R_technical_term | R_multi_language_verbatim | R_computation | R_compu_rational
| R_compu_scale | R_scale_constraint | R_internal_constraint | R_physical_constraint | R_data_constraint_rule
| R_sw_base_type_ref | R_sw_bit_representation | R_sw_data_def_props_conditional | R_sw_text_props
| R_sw_pointer_target_props | R_symbol_props | R_implementation_data_type_element
| R_application_record_element | R_argument_data_prototype | R_data_type_map | R_value_list
| R_mode_request_type_map | R_sw_values | R_sw_axis_cont | R_sw_value_cont | R_physical_dimension_ref
| R_application_data_type_ref | R_constant_ref | R_invalidation_policy | R_application_error
| R_client_server_operation | R_mode_declaration | R_mode_error_behavior | R_mode_transition
| R_mode_declaration_group_prototype | R_e2e_transformation_com_spec_props | R_mode_switched_ack_request
| R_tranmsission_com_spec_props | R_transmission_acknowledgement_request | R_reception_com_spec_props
| R_provide_port_prototype | R_require_port_prototype | R_pr_port_prototype | R_sw_component_prototype
| R_port_in_composition_type_instance_ref | R_assembly_sw_connector | R_delegation_sw_connector
| R_pass_through_sw_connector | R_r_mode_group_in_atomic_swc_instance_ref
| R_variable_in_impl_data_instance_ref | R_variable_in_atomic_swc_type_instance_ref | R_autosar_variable_ref
| R_variable_access | R_executable_entity_activation_reason | R_exclusive_area_ref_conditional
| R_r_mode_in_atomic_swc_instance_ref | R_swc_internal_behavior | R_runnable_entity_argument
| R_runnable_entity | R_port_defined_argument_value | R_communication_buffer_locking | R_port_api_option
| R_async_server_call_point | R_sync_server_call_point | R_async_server_call_result_point
| R_external_triggering_point | R_internal_triggering_point | R_mode_access_point | R_mode_switch_point
| R_parameter_in_atomic_swc_type_instance_ref | R_autosar_parameter_ref | R_parameter_access | R_wait_point
| R_application_array_element | R_parameter_data_prototype | R_variable_data_prototype.

(** d.update(e): the entries of [e] come first.  A dict of the code is a list of pairs here. *)
Definition update {A} (d e : list (string * A)) : list (string * A) := (e ++ d)%list.

(** self.switcher_collectable, writer.py:191-228 *)
Definition writer_collectable : list (string * wmethod) := [
  ("Package", W_package); ("CompuMethod", W_compu_method); ("DataFilter", W_data_filter);
  ("AutosarEngineeringObject", W_autosar_engineering_object); ("Code", W_code);
  ("ApplicationArrayDataType", W_application_array_data_type);
  ("ApplicationRecordDataType", W_application_record_data_type);
  ("ApplicationPrimitiveDataType", W_application_primitive_data_type); ("SwBaseType", W_sw_base_type);
  ("SwAddrMethod", W_sw_addr_method); ("ImplementationDataType", W_implementation_data_type);
  ("DataTypeMappingSet", W_data_type_mapping_set); ("DataConstraint", W_data_constraint); ("Unit", W_unit);
  ("ConstantSpecification", W_constant_specification); ("NvDataInterface", W_nv_data_interface);
  ("ParameterInterface", W_parameter_interface); ("SenderReceiverInterface", W_sender_receiver_interface);
  ("ClientServerInterface", W_client_server_interface); ("ModeSwitchInterface", W_mode_switch_interface);
  ("ModeDeclarationGroup", W_mode_declaration_group);
  ("E2EProfileCompatibilityProps", W_e2e_profile_compatibility_props);
  ("ApplicationSoftwareComponentType", W_application_software_component_type);
  ("CompositionSwComponentType", W_composition_sw_component_type);
  ("SwcImplementation", W_swc_implementation) ].
(** self.switcher_value_specification, writer.py:230-238 *)
Definition writer_value_specification : list (string * wmethod) := [
  ("TextValueSpecification", W_text_value_specification);
  ("NumericalValueSpecification", W_numerical_value_specification);
  ("NotAvailableValueSpecification", W_not_available_value_specification);
  ("ArrayValueSpecification", W_array_value_specification);
  ("RecordValueSpecification", W_record_value_specification);
  ("ApplicationValueSpecification", W_application_value_specification);
  ("ConstantReference", W_constant_reference) ].
(** self.switcher_provided_com_spec, writer.py:240-247 *)
Definition writer_provided_com_spec : list (string * wmethod) := [
  ("ModeSwitchSenderComSpec", W_mode_switch_sender_com_spec);
  ("QueuedSenderComSpec", W_queued_sender_com_spec);
  ("NonqueuedSenderComSpec", W_non_queued_sender_com_spec); ("NvProvideComSpec", W_nv_provide_com_spec);
  ("ParameterProvideComSpec", W_parameter_provide_com_spec); ("ServerComSpec", W_server_com_spec) ].
(** self.switcher_required_com_spec, writer.py:248-255 *)
Definition writer_required_com_spec : list (string * wmethod) := [
  ("QueuedReceiverComSpec", W_queued_receiver_com_spec);
  ("NonqueuedReceiverComSpec", W_nonqueued_receiver_com_spec); ("NvRequireComSpec", W_nv_require_com_spec);
  ("ParameterRequireComSpec", W_parameter_require_com_spec);
  ("ModeSwitchReceiverComSpec", W_mode_switch_receiver_com_spec); ("ClientComSpec", W_client_com_spec) ].
(** self.switcher_non_collectable, writer.py:274-392 *)
Definition writer_non_collectable : list (string * wmethod) := [
  ("Annotation", W_annotation); ("Break", W_break); ("DocumentationBlock", W_documentation_block);
  ("EmphasisText", W_emphasis_text); ("IndexEntry", W_index_entry);
  ("MultilanguageLongName", W_multi_language_long_name);
  ("MultiLanguageOverviewParagraph", W_multi_language_overview_paragraph);
  ("MultiLanguageParagraph", W_multi_language_paragraph);
  ("MultiLanguageVerbatim", W_multi_language_verbatim); ("LanguageLongName", W_language_long_name);
  ("LanguageParagraph", W_language_paragraph); ("LanguageVerbatim", W_language_verbatim);
  ("Package", W_package); ("SingleLanguageUnitNames", W_single_language_unit_names);
  ("Superscript", W_superscript); ("Subscript", W_subscript); ("TechnicalTerm", W_technical_term);
  ("Computation", W_computation); ("CompuRational", W_compu_rational); ("CompuScale", W_compu_scale);
  ("ScaleConstraint", W_scale_constraint); ("InternalConstraint", W_internal_constraint);
  ("PhysicalConstraint", W_physical_constraint); ("DataConstraintRule", W_data_constraint_rule);
  ("SwDataDefPropsConditional", W_sw_data_def_props_conditional); ("SwBaseTypeRef", W_sw_base_type_ref);
  ("SwBitRepresentation", W_sw_bit_represenation); ("SwTextProps", W_sw_text_props);
  ("SwPointerTargetProps", W_sw_pointer_target_props); ("SymbolProps", W_symbol_props);
  ("ImplementationDataTypeElement", W_implementation_data_type_element);
  ("ApplicationArrayElement", W_application_array_element);
  ("ApplicationRecordElement", W_application_record_element); ("DataTypeMap", W_data_type_map);
  ("ValueList", W_value_list); ("VariableDataPrototype", W_variable_data_prototype);
  ("ParameterDataPrototype", W_parameter_data_prototype);
  ("ArgumentDataPrototype", W_argument_data_prototype); ("ModeRequestTypeMap", W_mode_request_type_map);
  ("SwValues", W_sw_values); ("SwAxisCont", W_sw_axis_cont); ("SwValueCont", W_sw_value_cont);
  ("PhysicalDimensionRef", W_physical_dimension_ref);
  ("ApplicationDataTypeRef", W_application_data_type_ref); ("ConstantRef", W_constant_ref);
  ("InvalidationPolicy", W_invalidation_policy); ("ApplicationError", W_application_error);
  ("ClientServerOperation", W_client_server_operation); ("ModeDeclaration", W_mode_declaration);
  ("ModeErrorBehavior", W_mode_error_behavior); ("ModeTransition", W_mode_transition);
  ("ModeDeclarationGroupPrototype", W_mode_declaration_group_prototype);
  ("EndToEndTransformationComSpecProps", W_e2e_transformation_com_spec_props);
  ("ModeSwitchedAckRequest", W_mode_switched_ack_request);
  ("TransmissionAcknowledgementRequest", W_transmission_acknowledgement_request);
  ("TransmissionComSpecProps", W_tranmsission_com_spec_props);
  ("ReceptionComSpecProps", W_reception_com_spec_props); ("ClientComSpec", W_client_com_spec);
  ("ProvidePortPrototype", W_provide_port_prototype); ("RequirePortPrototype", W_require_port_prototype);
  ("PRPortPrototype", W_pr_port_prototype); ("SwComponentPrototype", W_sw_component_prototype);
  ("PortInCompositionTypeInstanceRef", W_port_in_composition_type_instance_ref);
  ("AssemblySwConnector", W_assembly_sw_connector); ("DelegationSwConnector", W_delegation_sw_connector);
  ("PassThroughSwConnector", W_passthrough_sw_connector);
  ("RModeInAtomicSwcInstanceRef", W_r_mode_in_atomic_swc_instance_ref);
  ("RModeGroupInAtomicSwcInstanceRef", W_r_mode_group_in_atomic_swc_instance_ref);
  ("ArVariableInImplementationDataInstanceRef", W_variable_in_impl_data_instance_ref);
  ("VariableInAtomicSWCTypeInstanceRef", W_variable_in_atomic_swc_type_instance_ref);
  ("AutosarVariableRef", W_autosar_variable_ref); ("VariableAccess", W_variable_access);
  ("SwcInternalBehavior", W_swc_internal_behavior);
  ("ExecutableEntityActivationReason", W_executable_entity_activation_reason);
  ("ExclusiveAreaRefConditional", W_exclusive_area_ref_conditional);
  ("RunnableEntityArgument", W_runnable_entity_argument); ("RunnableEntity", W_runnable_entity);
  ("AsynchronousServerCallReturnsEvent", W_async_server_call_returns_event);
  ("BackgroundEvent", W_background_event); ("DataReceiveErrorEvent", W_data_receive_error_event);
  ("DataReceivedEvent", W_data_received_event); ("DataSendCompletedEvent", W_data_send_completed_event);
  ("DataWriteCompletedEvent", W_data_write_completed_event);
  ("ExternalTriggerOccurredEvent", W_external_trigger_occured_event); ("InitEvent", W_init_event);
  ("InternalTriggerOccurredEvent", W_internal_trigger_occured_event);
  ("ModeSwitchedAckEvent", W_mode_switched_ack_event); ("OperationInvokedEvent", W_operation_invoked_event);
  ("SwcModeManagerErrorEvent", W_swc_mode_manager_error_event);
  ("SwcModeSwitchEvent", W_swc_mode_switch_event); ("TimingEvent", W_timing_event);
  ("TransformerHardErrorEvent", W_transformer_hard_error_event);
  ("PortDefinedArgumentValue", W_port_defined_argument_value);
  ("CommunicationBufferLocking", W_communication_buffer_locking); ("PortApiOption", W_port_api_option);
  ("AsynchronousServerCallPoint", W_async_server_call_point);
  ("SynchronousServerCallPoint", W_sync_server_call_point);
  ("AsynchronousServerCallResultPoint", W_async_server_call_result_point);
  ("ExternalTriggeringPoint", W_external_triggering_point);
  ("InternalTriggeringPoint", W_internal_triggering_point); ("ModeAccessPoint", W_mode_access_point);
  ("ModeSwitchPoint", W_mode_switch_point);
  ("ParameterInAtomicSwcTypeInstanceRef", W_parameter_in_atomic_swc_type_instance_ref);
  ("AutosarParameterRef", W_autosar_parameter_ref); ("ParameterAccess", W_parameter_access);
  ("WaitPoint", W_wait_point) ].
(** self.switcher_all, writer.py:394-399 *)
Definition writer_all : list (string * wmethod) :=
  update (update (update (update (update [] writer_collectable) writer_value_specification) writer_provided_com_spec) writer_required_com_spec)
    writer_non_collectable.
(** self.switcher_collectable, reader.py:130-175 *)
Definition reader_collectable : list (string * rmethod) := [
  ("COMPU-METHOD", R_compu_method); ("DATA-FILTER", R_data_filter);
  ("AUTOSAR-ENGINEERING-OBJECT", R_autosar_engineering_object); ("CODE", R_code);
  ("APPLICATION-ARRAY-DATA-TYPE", R_application_array_data_type);
  ("APPLICATION-RECORD-DATA-TYPE", R_application_record_data_type);
  ("APPLICATION-PRIMITIVE-DATA-TYPE", R_application_primitive_data_type); ("SW-BASE-TYPE", R_sw_base_type);
  ("SW-ADDR-METHOD", R_sw_addr_method); ("IMPLEMENTATION-DATA-TYPE", R_implementation_data_type);
  ("DATA-TYPE-MAPPING-SET", R_data_type_mapping_set); ("DATA-CONSTR", R_data_constraint);
  ("NV-DATA-INTERFACE", R_nv_data_interface); ("PARAMETER-INTERFACE", R_parameter_interface);
  ("SENDER-RECEIVER-INTERFACE", R_sender_receiver_interface);
  ("CLIENT-SERVER-INTERFACE", R_client_server_interface); ("MODE-SWITCH-INTERFACE", R_mode_switch_interface);
  ("UNIT", R_unit); ("CONSTANT-SPECIFICATION", R_constant_specification);
  ("MODE-DECLARATION-GROUP", R_mode_declaration_group);
  ("E-2-E-PROFILE-COMPATIBILITY-PROPS", R_e2e_profile_compatibility_props);
  ("APPLICATION-SW-COMPONENT-TYPE", R_application_sw_component_type);
  ("COMPOSITION-SW-COMPONENT-TYPE", R_composition_sw_component_type);
  ("SWC-IMPLEMENTATION", R_swc_implementation) ].
(** self.switcher_value_specification, reader.py:178-186 *)
Definition reader_value_specification : list (string * rmethod) := [
  ("TEXT-VALUE-SPECIFICATION", R_text_value_specification);
  ("NUMERICAL-VALUE-SPECIFICATION", R_numerical_value_specification);
  ("NOT-AVAILABLE-VALUE-SPECIFICATION", R_not_available_value_specification);
  ("ARRAY-VALUE-SPECIFICATION", R_array_value_specification);
  ("RECORD-VALUE-SPECIFICATION", R_record_value_specification);
  ("APPLICATION-VALUE-SPECIFICATION", R_application_value_specification);
  ("CONSTANT-REFERENCE", R_constant_reference) ].
(** self.switcher_provided_com_spec, reader.py:188-195 *)
Definition reader_provided_com_spec : list (string * rmethod) := [
  ("QUEUED-SENDER-COM-SPEC", R_queued_sender_com_spec);
  ("MODE-SWITCH-SENDER-COM-SPEC", R_mode_switch_sender_com_spec);
  ("NONQUEUED-SENDER-COM-SPEC", R_nonqueued_sender_com_spec);
  ("NV-PROVIDE-COM-SPEC", R_nv_provider_com_spec);
  ("PARAMETER-PROVIDE-COM-SPEC", R_parameter_provide_com_spec); ("SERVER-COM-SPEC", R_server_com_spec) ].
(** self.switcher_required_com_spec, reader.py:196-203 *)
Definition reader_required_com_spec : list (string * rmethod) := [
  ("QUEUED-RECEIVER-COM-SPEC", R_queued_receiver_com_spec);
  ("NONQUEUED-RECEIVER-COM-SPEC", R_nonqueued_receiver_com_spec);
  ("NV-REQUIRE-COM-SPEC", R_nv_require_com_spec);
  ("PARAMETER-REQUIRE-COM-SPEC", R_parameter_require_com_spec);
  ("MODE-SWITCH-RECEIVER-COM-SPEC", R_mode_switch_receiver_com_spec); ("CLIENT-COM-SPEC", R_client_com_spec) ].
(** self.switcher_non_collectable, reader.py:221-337 *)
Definition reader_non_collectable : list (string * rmethod) := [
  ("ANNOTATION", R_annotation); ("ANNOTATION-TEXT", R_documentation_block); ("BR", R_break);
  ("DESC", R_multi_language_overview_paragraph); ("E", R_emphasis_text); ("IE", R_index_entry);
  ("L-4", R_language_long_name); ("L-1", R_language_paragraph); ("L-5", R_language_verbatim);
  ("LABEL", R_multi_language_long_name); ("LONG-NAME", R_multi_language_long_name);
  ("P", R_multi_language_paragraph); ("DISPLAY-NAME", R_single_language_unit_names); ("SUP", R_superscript);
  ("SUB", R_subscript); ("TT", R_technical_term); ("VERBATIM", R_multi_language_verbatim);
  ("COMPU-INTERNAL-TO-PHYS", R_computation); ("COMPU-RATIONAL-COEFFS", R_compu_rational);
  ("COMPU-SCALE", R_compu_scale); ("SCALE-CONSTR", R_scale_constraint);
  ("INTERNAL-CONSTRS", R_internal_constraint); ("PHYS-CONSTRS", R_physical_constraint);
  ("DATA-CONSTR-RULE", R_data_constraint_rule); ("BASE-TYPE-REF", R_sw_base_type_ref);
  ("SW-BIT-REPRESENTATION", R_sw_bit_representation);
  ("SW-DATA-DEF-PROPS-CONDITIONAL", R_sw_data_def_props_conditional); ("SW-TEXT-PROPS", R_sw_text_props);
  ("SW-POINTER-TARGET-PROPS", R_sw_pointer_target_props); ("SYMBOL-PROPS", R_symbol_props);
  ("IMPLEMENTATION-DATA-TYPE-ELEMENT", R_implementation_data_type_element);
  ("APPLICATION-RECORD-ELEMENT", R_application_record_element);
  ("ARGUMENT-DATA-PROTOTYPE", R_argument_data_prototype); ("DATA-TYPE-MAP", R_data_type_map);
  ("SW-ARRAYSIZE", R_value_list); ("MODE-REQUEST-TYPE-MAP", R_mode_request_type_map);
  ("SW-VALUES-PHYS", R_sw_values); ("SW-AXIS-CONT", R_sw_axis_cont); ("SW-VALUE-CONT", R_sw_value_cont);
  ("PHYSICAL-DIMENSION-REF", R_physical_dimension_ref);
  ("APPLICATION-DATA-TYPE-REF", R_application_data_type_ref); ("CONSTANT-REF", R_constant_ref);
  ("INVALIDATION-POLICY", R_invalidation_policy); ("APPLICATION-ERROR", R_application_error);
  ("CLIENT-SERVER-OPERATION", R_client_server_operation); ("MODE-DECLARATION", R_mode_declaration);
  ("MODE-MANAGER-ERROR-BEHAVIOR", R_mode_error_behavior);
  ("MODE-USER-ERROR-BEHAVIOR", R_mode_error_behavior); ("MODE-TRANSITION", R_mode_transition);
  ("MODE-DECLARATION-GROUP-PROTOTYPE", R_mode_declaration_group_prototype);
  ("END-TO-END-TRANSFORMATION-COM-SPEC-PROPS", R_e2e_transformation_com_spec_props);
  ("MODE-SWITCHED-ACK", R_mode_switched_ack_request); ("TRANSMISSION-PROPS", R_tranmsission_com_spec_props);
  ("TRANSMISSION-ACKNOWLEDGE", R_transmission_acknowledgement_request);
  ("RECEPTION-PROPS", R_reception_com_spec_props); ("P-PORT-PROTOTYPE", R_provide_port_prototype);
  ("R-PORT-PROTOTYPE", R_require_port_prototype); ("PR-PORT-PROTOTYPE", R_pr_port_prototype);
  ("SW-COMPONENT-PROTOTYPE", R_sw_component_prototype);
  ("PROVIDER-IREF", R_port_in_composition_type_instance_ref);
  ("REQUESTER-IREF", R_port_in_composition_type_instance_ref);
  ("ASSEMBLY-SW-CONNECTOR", R_assembly_sw_connector); ("DELEGATION-SW-CONNECTOR", R_delegation_sw_connector);
  ("PASS-THROUGH-SW-CONNECTOR", R_pass_through_sw_connector);
  ("R-MODE-GROUP-IN-ATOMIC-SWC-INSTANCE-REF", R_r_mode_group_in_atomic_swc_instance_ref);
  ("AUTOSAR-VARIABLE-IN-IMPL-DATATYPE", R_variable_in_impl_data_instance_ref);
  ("AUTOSAR-VARIABLE-IREF", R_variable_in_atomic_swc_type_instance_ref);
  ("ACCESSED-VARIABLE", R_autosar_variable_ref); ("VARIABLE-ACCESS", R_variable_access);
  ("EXECUTABLE-ENTITY-ACTIVATION-REASON", R_executable_entity_activation_reason);
  ("EXCLUSIVE-AREA-REF-CONDITIONAL", R_exclusive_area_ref_conditional);
  ("DISABLED-MODE-IREF", R_r_mode_in_atomic_swc_instance_ref);
  ("SWC-INTERNAL-BEHAVIOR", R_swc_internal_behavior);
  ("RUNNABLE-ENTITY-ARGUMENT", R_runnable_entity_argument); ("RUNNABLE-ENTITY", R_runnable_entity);
  ("ASYNCHRONOUS-SERVER-CALL-RETURNS-EVENT", R_async_server_call_returns_event);
  ("BACKGROUND-EVENT", R_background_event); ("DATA-RECEIVE-ERROR-EVENT", R_data_receive_error_event);
  ("DATA-RECEIVED-EVENT", R_data_received_event); ("DATA-SEND-COMPLETED-EVENT", R_data_send_completed_event);
  ("DATA-WRITE-COMPLETED-EVENT", R_data_write_completed_event);
  ("EXTERNAL-TRIGGER-OCCURRED-EVENT", R_external_trigger_occured_event); ("INIT-EVENT", R_init_event);
  ("INTERNAL-TRIGGER-OCCURRED-EVENT", R_internal_trigger_occured_event);
  ("MODE-SWITCHED-ACK-EVENT", R_mode_switched_ack_event);
  ("OPERATION-INVOKED-EVENT", R_operation_invoked_event);
  ("SWC-MODE-MANAGER-ERROR-EVENT", R_swc_mode_manager_error_event);
  ("SWC-MODE-SWITCH-EVENT", R_swc_mode_switch_event); ("TIMING-EVENT", R_timing_event);
  ("TRANSFORMER-HARD-ERROR-EVENT", R_transformer_hard_error_event);
  ("PORT-DEFINED-ARGUMENT-VALUE", R_port_defined_argument_value);
  ("COMMUNICATION-BUFFER-LOCKING", R_communication_buffer_locking); ("PORT-API-OPTION", R_port_api_option);
  ("ASYNCHRONOUS-SERVER-CALL-POINT", R_async_server_call_point);
  ("SYNCHRONOUS-SERVER-CALL-POINT", R_sync_server_call_point);
  ("ASYNCHRONOUS-SERVER-CALL-RESULT-POINT", R_async_server_call_result_point);
  ("EXTERNAL-TRIGGERING-POINT", R_external_triggering_point);
  ("INTERNAL-TRIGGERING-POINT", R_internal_triggering_point); ("MODE-ACCESS-POINT", R_mode_access_point);
  ("MODE-SWITCH-POINT", R_mode_switch_point);
  ("AUTOSAR-PARAMETER-IREF", R_parameter_in_atomic_swc_type_instance_ref);
  ("ACCESSED-PARAMETER", R_autosar_parameter_ref); ("PARAMETER-ACCESS", R_parameter_access);
  ("WAIT-POINT", R_wait_point) ].
(** self.switcher_all, reader.py:338-343 *)
Definition reader_all : list (string * rmethod) :=
  update (update (update (update (update [] reader_collectable) reader_value_specification) reader_provided_com_spec) reader_required_com_spec)
    reader_non_collectable.
(** self._switcher_type_name, reader.py:344-348 *)
Definition reader_type_name : list (string * rmethod) := [
  ("ApplicationArrayElement", R_application_array_element);
  ("ParameterDataPrototype", R_parameter_data_prototype);
  ("VariableDataPrototype", R_variable_data_prototype) ].

(** Calling a method with the parameters (self, elem, tag), and one with (self, elem): a missing or a
    superfluous argument is a TypeError (writer.py:424-427) *)
Definition with_tag (tag : option string) (m : string -> out) : out := match tag with Some t => m t | None => Err TypeError end.
Definition without_tag (tag : option string) (m : out) : out := match tag with Some _ => Err TypeError | None => m end.
(** _write_break and the other writers of inline elements (writer.py:586-592, 614-682) have a second
    parameter inline, which a tag given to write_str_elem ends up in.  At the beginning of the text the
    same characters are written whether it is true or not: there is no line break and no indentation
    before them (writer.py:68-76, 103-118). *)
Definition inline_alone (i : inline_elem) : out := let* (tag, a, text) := write_inline i in Ok [Leaf tag a text].

(** write_method(elem, tag) and write_method(elem), writer.py:424-427.  The methods start with an
    assertion about the class.  Simplification: the few without one (_write_package,
    _write_multi_language_long_name, _write_computation, _write_sw_bit_represenation,
    _write_sw_text_props, _write_sw_pointer_target_props, _write_swc_internal_behavior) are given one;
    C72 shows that the tables never lead to an object of another class. *)
Definition run_writer (v : N) (m : wmethod) (o : any_object) (tag : option string) : out :=
  match m with
  | W_package => without_tag tag (match o with An_Package e => write_package v e | _ => Err AssertionError end)
  | W_compu_method => without_tag tag (match o with An_CompuMethod e => write_compu_method v e | _ => Err AssertionError end)
  | W_data_filter => with_tag tag (fun t => match o with An_DataFilter e => write_data_filter v t e | _ => Err AssertionError end)
  | W_autosar_engineering_object => with_tag tag (fun t => match o with An_AutosarEngineeringObject e => write_autosar_engineering_object v t e | _ => Err AssertionError end)
  | W_code => without_tag tag (match o with An_Code e => write_code v e | _ => Err AssertionError end)
  | W_application_array_data_type => without_tag tag (match o with An_ApplicationArrayDataType e => write_application_array_data_type v e | _ => Err AssertionError end)
  | W_application_record_data_type => without_tag tag (match o with An_ApplicationRecordDataType e => write_application_record_data_type v e | _ => Err AssertionError end)
  | W_application_primitive_data_type => without_tag tag (match o with An_ApplicationPrimitiveDataType e => write_application_primitive_data_type v e | _ => Err AssertionError end)
  | W_sw_base_type => without_tag tag (match o with An_SwBaseType e => write_sw_base_type v e | _ => Err AssertionError end)
  | W_sw_addr_method => without_tag tag (match o with An_SwAddrMethod e => write_sw_addr_method v e | _ => Err AssertionError end)
  | W_implementation_data_type => without_tag tag (match o with An_ImplementationDataType e => write_implementation_data_type v e | _ => Err AssertionError end)
  | W_data_type_mapping_set => without_tag tag (match o with An_DataTypeMappingSet e => write_data_type_mapping_set v e | _ => Err AssertionError end)
  | W_data_constraint => without_tag tag (match o with An_DataConstraint e => write_data_constraint v e | _ => Err AssertionError end)
  | W_unit => without_tag tag (match o with An_Unit e => write_unit v e | _ => Err AssertionError end)
  | W_constant_specification => without_tag tag (match o with An_ConstantSpecification e => write_constant_specification v e | _ => Err AssertionError end)
  | W_nv_data_interface => without_tag tag (match o with An_NvDataInterface e => write_nv_data_interface v e | _ => Err AssertionError end)
  | W_parameter_interface => without_tag tag (match o with An_ParameterInterface e => write_parameter_interface v e | _ => Err AssertionError end)
  | W_sender_receiver_interface => without_tag tag (match o with An_SenderReceiverInterface e => write_sender_receiver_interface v e | _ => Err AssertionError end)
  | W_client_server_interface => without_tag tag (match o with An_ClientServerInterface e => write_client_server_interface v e | _ => Err AssertionError end)
  | W_mode_switch_interface => without_tag tag (match o with An_ModeSwitchInterface e => write_mode_switch_interface v e | _ => Err AssertionError end)
  | W_mode_declaration_group => without_tag tag (match o with An_ModeDeclarationGroup e => write_mode_declaration_group v e | _ => Err AssertionError end)
  | W_e2e_profile_compatibility_props => without_tag tag (match o with An_E2EProfileCompatibilityProps e => write_e2e_profile_compatibility_props v e | _ => Err AssertionError end)
  | W_application_software_component_type => without_tag tag (match o with An_ApplicationSoftwareComponentType e => write_application_software_component_type v e | _ => Err AssertionError end)
  | W_composition_sw_component_type => without_tag tag (match o with An_CompositionSwComponentType e => write_composition_sw_component_type v e | _ => Err AssertionError end)
  | W_swc_implementation => without_tag tag (match o with An_SwcImplementation e => write_swc_implementation v e | _ => Err AssertionError end)
  | W_text_value_specification => without_tag tag (match o with An_value (TextValueSpecification _ _ as e) => write_value_specification_element v e | _ => Err AssertionError end)
  | W_numerical_value_specification => without_tag tag (match o with An_value (NumericalValueSpecification _ _ as e) => write_value_specification_element v e | _ => Err AssertionError end)
  | W_not_available_value_specification => without_tag tag (match o with An_value (NotAvailableValueSpecification _ _ as e) => write_value_specification_element v e | _ => Err AssertionError end)
  | W_array_value_specification => without_tag tag (match o with An_value (ArrayValueSpecification _ _ as e) => write_value_specification_element v e | _ => Err AssertionError end)
  | W_record_value_specification => without_tag tag (match o with An_value (RecordValueSpecification _ _ as e) => write_value_specification_element v e | _ => Err AssertionError end)
  | W_application_value_specification => without_tag tag (match o with An_value (ApplicationValueSpecification _ _ _ _ as e) => write_value_specification_element v e | _ => Err AssertionError end)
  | W_constant_reference => without_tag tag (match o with An_value (ConstantReference _ _ as e) => write_value_specification_element v e | _ => Err AssertionError end)
  | W_mode_switch_sender_com_spec => without_tag tag (match o with An_ModeSwitchSenderComSpec e => write_mode_switch_sender_com_spec v e | _ => Err AssertionError end)
  | W_queued_sender_com_spec => without_tag tag (match o with An_QueuedSenderComSpec e => write_queued_sender_com_spec v e | _ => Err AssertionError end)
  | W_non_queued_sender_com_spec => without_tag tag (match o with An_NonqueuedSenderComSpec e => write_non_queued_sender_com_spec v e | _ => Err AssertionError end)
  | W_nv_provide_com_spec => without_tag tag (match o with An_NvProvideComSpec e => write_nv_provide_com_spec v e | _ => Err AssertionError end)
  | W_parameter_provide_com_spec => without_tag tag (match o with An_ParameterProvideComSpec e => write_parameter_provide_com_spec v e | _ => Err AssertionError end)
  | W_server_com_spec => without_tag tag (match o with An_ServerComSpec e => write_server_com_spec v e | _ => Err AssertionError end)
  | W_queued_receiver_com_spec => without_tag tag (match o with An_QueuedReceiverComSpec e => write_queued_receiver_com_spec v e | _ => Err AssertionError end)
  | W_nonqueued_receiver_com_spec => without_tag tag (match o with An_NonqueuedReceiverComSpec e => write_nonqueued_receiver_com_spec v e | _ => Err AssertionError end)
  | W_nv_require_com_spec => without_tag tag (match o with An_NvRequireComSpec e => write_nv_require_com_spec v e | _ => Err AssertionError end)
  | W_parameter_require_com_spec => without_tag tag (match o with An_ParameterRequireComSpec e => write_parameter_require_com_spec v e | _ => Err AssertionError end)
  | W_mode_switch_receiver_com_spec => without_tag tag (match o with An_ModeSwitchReceiverComSpec e => write_mode_switch_receiver_com_spec v e | _ => Err AssertionError end)
  | W_client_com_spec => without_tag tag (match o with An_ClientComSpec e => write_client_com_spec v e | _ => Err AssertionError end)
  | W_async_server_call_returns_event => without_tag tag (match o with An_AsynchronousServerCallReturnsEvent e => write_async_server_call_returns_event v e | _ => Err AssertionError end)
  | W_background_event => without_tag tag (match o with An_BackgroundEvent e => write_background_event v e | _ => Err AssertionError end)
  | W_data_receive_error_event => without_tag tag (match o with An_DataReceiveErrorEvent e => write_data_receive_error_event v e | _ => Err AssertionError end)
  | W_data_received_event => without_tag tag (match o with An_DataReceivedEvent e => write_data_received_event v e | _ => Err AssertionError end)
  | W_data_send_completed_event => without_tag tag (match o with An_DataSendCompletedEvent e => write_data_send_completed_event v e | _ => Err AssertionError end)
  | W_data_write_completed_event => without_tag tag (match o with An_DataWriteCompletedEvent e => write_data_write_completed_event v e | _ => Err AssertionError end)
  | W_external_trigger_occured_event => without_tag tag (match o with An_ExternalTriggerOccurredEvent e => write_external_trigger_occured_event v e | _ => Err AssertionError end)
  | W_init_event => without_tag tag (match o with An_InitEvent e => write_init_event v e | _ => Err AssertionError end)
  | W_internal_trigger_occured_event => without_tag tag (match o with An_InternalTriggerOccurredEvent e => write_internal_trigger_occured_event v e | _ => Err AssertionError end)
  | W_mode_switched_ack_event => without_tag tag (match o with An_ModeSwitchedAckEvent e => write_mode_switched_ack_event v e | _ => Err AssertionError end)
  | W_operation_invoked_event => without_tag tag (match o with An_OperationInvokedEvent e => write_operation_invoked_event v e | _ => Err AssertionError end)
  | W_swc_mode_manager_error_event => without_tag tag (match o with An_SwcModeManagerErrorEvent e => write_swc_mode_manager_error_event v e | _ => Err AssertionError end)
  | W_swc_mode_switch_event => without_tag tag (match o with An_SwcModeSwitchEvent e => write_swc_mode_switch_event v e | _ => Err AssertionError end)
  | W_timing_event => without_tag tag (match o with An_TimingEvent e => write_timing_event v e | _ => Err AssertionError end)
  | W_transformer_hard_error_event => without_tag tag (match o with An_TransformerHardErrorEvent e => write_transformer_hard_error_event v e | _ => Err AssertionError end)
  | W_annotation => without_tag tag (match o with An_Annotation e => write_annotation e | _ => Err AssertionError end)
  | W_break => match o with An_inline (IBreak as i) => inline_alone i | _ => Err AssertionError end
  | W_documentation_block => with_tag tag (fun t => match o with An_DocumentationBlock e => write_doc t e | _ => Err AssertionError end)
  | W_emphasis_text => match o with An_inline (IEmphasis _ _ _ _ as i) => inline_alone i | _ => Err AssertionError end
  | W_index_entry => match o with An_inline (IIndexEntry _ as i) => inline_alone i | _ => Err AssertionError end
  | W_multi_language_long_name => with_tag tag (fun t => match o with An_MultilanguageLongName e => write_langs t "L-4" e | _ => Err AssertionError end)
  | W_multi_language_overview_paragraph => with_tag tag (fun t => match o with An_MultiLanguageOverviewParagraph e => write_langs t "L-2" e | _ => Err AssertionError end)
  | W_multi_language_paragraph => without_tag tag (match o with An_doc_item (Paragraph _ _ _ as i) => write_doc_item i | _ => Err AssertionError end)
  | W_multi_language_verbatim => without_tag tag (match o with An_doc_item (Verbatim _ _ _ _ _ _ as i) => write_doc_item i | _ => Err AssertionError end)
  | W_language_long_name => without_tag tag (match o with An_LanguageLongName e => write_lang "L-4" e | _ => Err AssertionError end)
  | W_language_paragraph => without_tag tag (match o with An_LanguageParagraph e => write_lang "L-1" e | _ => Err AssertionError end)
  | W_language_verbatim => without_tag tag (match o with An_LanguageVerbatim e => write_lang "L-5" e | _ => Err AssertionError end)
  | W_single_language_unit_names => with_tag tag (fun t => match o with An_SingleLanguageUnitNames e => write_unit_names t e | _ => Err AssertionError end)
  | W_superscript => match o with An_inline (ISuperscript _ as i) => inline_alone i | _ => Err AssertionError end
  | W_subscript => match o with An_inline (ISubscript _ as i) => inline_alone i | _ => Err AssertionError end
  | W_technical_term => match o with An_inline (ITechnicalTerm _ _ _ as i) => inline_alone i | _ => Err AssertionError end
  | W_computation => with_tag tag (fun t => match o with An_Computation e => write_computation v t e | _ => Err AssertionError end)
  | W_compu_rational => without_tag tag (match o with An_CompuRational e => write_compu_rational v e | _ => Err AssertionError end)
  | W_compu_scale => without_tag tag (match o with An_CompuScale e => write_compu_scale v e | _ => Err AssertionError end)
  | W_scale_constraint => without_tag tag (match o with An_ScaleConstraint e => write_scale_constraint v e | _ => Err AssertionError end)
  | W_internal_constraint => without_tag tag (match o with An_InternalConstraint e => write_internal_constraint v e | _ => Err AssertionError end)
  | W_physical_constraint => without_tag tag (match o with An_PhysicalConstraint e => write_physical_constraint v e | _ => Err AssertionError end)
  | W_data_constraint_rule => without_tag tag (match o with An_DataConstraintRule e => write_data_constraint_rule v e | _ => Err AssertionError end)
  | W_sw_data_def_props_conditional => without_tag tag (match o with An_SwDataDefPropsConditional e => write_sw_data_def_props_conditional v e | _ => Err AssertionError end)
  | W_sw_base_type_ref => without_tag tag (match o with An_SwBaseTypeRef e => write_ref "BASE-TYPE-REF" e | _ => Err AssertionError end)
  | W_sw_bit_represenation => without_tag tag (match o with An_SwBitRepresentation e => write_sw_bit_represenation v e | _ => Err AssertionError end)
  | W_sw_text_props => without_tag tag (match o with An_SwTextProps e => write_sw_text_props v e | _ => Err AssertionError end)
  | W_sw_pointer_target_props => without_tag tag (match o with An_SwPointerTargetProps e => write_sw_pointer_target_props v e | _ => Err AssertionError end)
  | W_symbol_props => with_tag tag (fun t => match o with An_SymbolProps e => write_symbol_props v t e | _ => Err AssertionError end)
  | W_implementation_data_type_element => without_tag tag (match o with An_ImplementationDataTypeElement e => write_implementation_data_type_element v e | _ => Err AssertionError end)
  | W_application_array_element => without_tag tag (match o with An_ApplicationArrayElement e => write_application_array_element v e | _ => Err AssertionError end)
  | W_application_record_element => without_tag tag (match o with An_ApplicationRecordElement e => write_application_record_element v e | _ => Err AssertionError end)
  | W_data_type_map => without_tag tag (match o with An_DataTypeMap e => write_data_type_map v e | _ => Err AssertionError end)
  | W_value_list => without_tag tag (match o with An_ValueList e => write_value_list v e | _ => Err AssertionError end)
  | W_variable_data_prototype => with_tag tag (fun t => match o with An_VariableDataPrototype e => write_variable_data_prototype v t e | _ => Err AssertionError end)
  | W_parameter_data_prototype => with_tag tag (fun t => match o with An_ParameterDataPrototype e => write_parameter_data_prototype v t e | _ => Err AssertionError end)
  | W_argument_data_prototype => without_tag tag (match o with An_ArgumentDataPrototype e => write_argument_data_prototype v e | _ => Err AssertionError end)
  | W_mode_request_type_map => without_tag tag (match o with An_ModeRequestTypeMap e => write_mode_request_type_map v e | _ => Err AssertionError end)
  | W_sw_values => without_tag tag (match o with An_SwValues e => write_sw_values v e | _ => Err AssertionError end)
  | W_sw_axis_cont => without_tag tag (match o with An_SwAxisCont e => write_sw_axis_cont v e | _ => Err AssertionError end)
  | W_sw_value_cont => without_tag tag (match o with An_SwValueCont e => write_sw_value_cont v e | _ => Err AssertionError end)
  | W_physical_dimension_ref => without_tag tag (match o with An_PhysicalDimensionRef e => write_ref "PHYSICAL-DIMENSION-REF" e | _ => Err AssertionError end)
  | W_application_data_type_ref => with_tag tag (fun t => match o with An_ApplicationDataTypeRef e => write_ref t e | _ => Err AssertionError end)
  | W_constant_ref => with_tag tag (fun t => match o with An_ConstantRef e => write_ref t e | _ => Err AssertionError end)
  | W_invalidation_policy => without_tag tag (match o with An_InvalidationPolicy e => write_invalidation_policy v e | _ => Err AssertionError end)
  | W_application_error => without_tag tag (match o with An_ApplicationError e => write_application_error v e | _ => Err AssertionError end)
  | W_client_server_operation => without_tag tag (match o with An_ClientServerOperation e => write_client_server_operation v e | _ => Err AssertionError end)
  | W_mode_declaration => without_tag tag (match o with An_ModeDeclaration e => write_mode_declaration v e | _ => Err AssertionError end)
  | W_mode_error_behavior => with_tag tag (fun t => match o with An_ModeErrorBehavior e => write_mode_error_behavior v t e | _ => Err AssertionError end)
  | W_mode_transition => without_tag tag (match o with An_ModeTransition e => write_mode_transition v e | _ => Err AssertionError end)
  | W_mode_declaration_group_prototype => with_tag tag (fun t => match o with An_ModeDeclarationGroupPrototype e => write_mode_declaration_group_prototype v t e | _ => Err AssertionError end)
  | W_e2e_transformation_com_spec_props => without_tag tag (match o with An_EndToEndTransformationComSpecProps e => write_e2e_transformation_com_spec_props v e | _ => Err AssertionError end)
  | W_mode_switched_ack_request => without_tag tag (match o with An_ModeSwitchedAckRequest e => write_mode_switched_ack_request v e | _ => Err AssertionError end)
  | W_transmission_acknowledgement_request => without_tag tag (match o with An_TransmissionAcknowledgementRequest e => write_transmission_acknowledgement_request v e | _ => Err AssertionError end)
  | W_tranmsission_com_spec_props => without_tag tag (match o with An_TransmissionComSpecProps e => write_tranmsission_com_spec_props v e | _ => Err AssertionError end)
  | W_reception_com_spec_props => without_tag tag (match o with An_ReceptionComSpecProps e => write_reception_com_spec_props v e | _ => Err AssertionError end)
  | W_provide_port_prototype => without_tag tag (match o with An_ProvidePortPrototype e => write_provide_port_prototype v e | _ => Err AssertionError end)
  | W_require_port_prototype => without_tag tag (match o with An_RequirePortPrototype e => write_require_port_prototype v e | _ => Err AssertionError end)
  | W_pr_port_prototype => without_tag tag (match o with An_PRPortPrototype e => write_pr_port_prototype v e | _ => Err AssertionError end)
  | W_sw_component_prototype => without_tag tag (match o with An_SwComponentPrototype e => write_sw_component_prototype v e | _ => Err AssertionError end)
  | W_port_in_composition_type_instance_ref => with_tag tag (fun t => match o with An_PortInCompositionTypeInstanceRef e => write_port_in_composition_type_instance_ref v t e | _ => Err AssertionError end)
  | W_assembly_sw_connector => without_tag tag (match o with An_AssemblySwConnector e => write_assembly_sw_connector v e | _ => Err AssertionError end)
  | W_delegation_sw_connector => without_tag tag (match o with An_DelegationSwConnector e => write_delegation_sw_connector v e | _ => Err AssertionError end)
  | W_passthrough_sw_connector => without_tag tag (match o with An_PassThroughSwConnector e => write_passthrough_sw_connector v e | _ => Err AssertionError end)
  | W_r_mode_in_atomic_swc_instance_ref => with_tag tag (fun t => match o with An_RModeInAtomicSwcInstanceRef e => write_r_mode_in_atomic_swc_instance_ref v t e | _ => Err AssertionError end)
  | W_r_mode_group_in_atomic_swc_instance_ref => without_tag tag (match o with An_RModeGroupInAtomicSwcInstanceRef e => write_r_mode_group_in_atomic_swc_instance_ref v e | _ => Err AssertionError end)
  | W_variable_in_impl_data_instance_ref => with_tag tag (fun t => match o with An_ArVariableInImplementationDataInstanceRef e => write_variable_in_impl_data_instance_ref v t e | _ => Err AssertionError end)
  | W_variable_in_atomic_swc_type_instance_ref => without_tag tag (match o with An_VariableInAtomicSWCTypeInstanceRef e => write_variable_in_atomic_swc_type_instance_ref v e | _ => Err AssertionError end)
  | W_autosar_variable_ref => with_tag tag (fun t => match o with An_AutosarVariableRef e => write_autosar_variable_ref v t e | _ => Err AssertionError end)
  | W_variable_access => with_tag tag (fun t => match o with An_VariableAccess e => write_variable_access v t e | _ => Err AssertionError end)
  | W_swc_internal_behavior => without_tag tag (match o with An_SwcInternalBehavior e => write_swc_internal_behavior v e | _ => Err AssertionError end)
  | W_executable_entity_activation_reason => without_tag tag (match o with An_ExecutableEntityActivationReason e => write_executable_entity_activation_reason v e | _ => Err AssertionError end)
  | W_exclusive_area_ref_conditional => without_tag tag (match o with An_ExclusiveAreaRefConditional e => write_exclusive_area_ref_conditional v e | _ => Err AssertionError end)
  | W_runnable_entity_argument => without_tag tag (match o with An_RunnableEntityArgument e => write_runnable_entity_argument v e | _ => Err AssertionError end)
  | W_runnable_entity => without_tag tag (match o with An_RunnableEntity e => write_runnable_entity v e | _ => Err AssertionError end)
  | W_port_defined_argument_value => without_tag tag (match o with An_PortDefinedArgumentValue e => write_port_defined_argument_value v e | _ => Err AssertionError end)
  | W_communication_buffer_locking => without_tag tag (match o with An_CommunicationBufferLocking e => write_communication_buffer_locking v e | _ => Err AssertionError end)
  | W_port_api_option => without_tag tag (match o with An_PortApiOption e => write_port_api_option v e | _ => Err AssertionError end)
  | W_async_server_call_point => without_tag tag (match o with An_AsynchronousServerCallPoint e => write_async_server_call_point v e | _ => Err AssertionError end)
  | W_sync_server_call_point => without_tag tag (match o with An_SynchronousServerCallPoint e => write_sync_server_call_point v e | _ => Err AssertionError end)
  | W_async_server_call_result_point => without_tag tag (match o with An_AsynchronousServerCallResultPoint e => write_async_server_call_result_point v e | _ => Err AssertionError end)
  | W_external_triggering_point => without_tag tag (match o with An_ExternalTriggeringPoint e => write_external_triggering_point v e | _ => Err AssertionError end)
  | W_internal_triggering_point => without_tag tag (match o with An_InternalTriggeringPoint e => write_internal_triggering_point v e | _ => Err AssertionError end)
  | W_mode_access_point => without_tag tag (match o with An_ModeAccessPoint e => write_mode_access_point v e | _ => Err AssertionError end)
  | W_mode_switch_point => without_tag tag (match o with An_ModeSwitchPoint e => write_mode_switch_point v e | _ => Err AssertionError end)
  | W_parameter_in_atomic_swc_type_instance_ref => without_tag tag (match o with An_ParameterInAtomicSwcTypeInstanceRef e => write_parameter_in_atomic_swc_type_instance_ref v e | _ => Err AssertionError end)
  | W_autosar_parameter_ref => with_tag tag (fun t => match o with An_AutosarParameterRef e => write_autosar_parameter_ref v t e | _ => Err AssertionError end)
  | W_parameter_access => without_tag tag (match o with An_ParameterAccess e => write_parameter_access v e | _ => Err AssertionError end)
  | W_wait_point => without_tag tag (match o with An_WaitPoint e => write_wait_point v e | _ => Err AssertionError end)
  end.

(** The object a method returns *)
Definition made {A} (f : A -> any_object) (read : xml -> result A) (x : xml) : result any_object := let* a := read x in Ok (f a).
(** assert xml_elem.tag in {...}, reader.py:822, 884 *)
Definition tagged {A} (tags : list string) (read : xml -> result A) (x : xml) : result A :=
  if existsb (String.eqb (x_tag x)) tags then read x else Err AssertionError.
(** The reader of one class of value specification is the branch of [read_value_specification_element]
    for its tag; it does not look at the tag itself (reader.py:2834-3003, 3042-3063). *)
Definition retag (tag : string) (x : xml) : xml := match x with Elem _ a s k l => Elem tag a s k l end.

(** read_method(elem), reader.py:393-394 *)
Definition run_reader (v : N) (m : rmethod) : xml -> result any_object :=
  match m with
  | R_compu_method => made An_CompuMethod (read_compu_method v)
  | R_data_filter => made An_DataFilter (read_data_filter v)
  | R_autosar_engineering_object => made An_AutosarEngineeringObject (read_autosar_engineering_object v)
  | R_code => made An_Code (read_code v)
  | R_application_array_data_type => made An_ApplicationArrayDataType (read_application_array_data_type v)
  | R_application_record_data_type => made An_ApplicationRecordDataType (read_application_record_data_type v)
  | R_application_primitive_data_type => made An_ApplicationPrimitiveDataType (read_application_primitive_data_type v)
  | R_sw_base_type => made An_SwBaseType (read_sw_base_type v)
  | R_sw_addr_method => made An_SwAddrMethod (read_sw_addr_method v)
  | R_implementation_data_type => made An_ImplementationDataType (read_implementation_data_type v)
  | R_data_type_mapping_set => made An_DataTypeMappingSet (read_data_type_mapping_set v)
  | R_data_constraint => made An_DataConstraint (read_data_constraint v)
  | R_nv_data_interface => made An_NvDataInterface (read_nv_data_interface v)
  | R_parameter_interface => made An_ParameterInterface (read_parameter_interface v)
  | R_sender_receiver_interface => made An_SenderReceiverInterface (read_sender_receiver_interface v)
  | R_client_server_interface => made An_ClientServerInterface (read_client_server_interface v)
  | R_mode_switch_interface => made An_ModeSwitchInterface (read_mode_switch_interface v)
  | R_unit => made An_Unit (read_unit v)
  | R_constant_specification => made An_ConstantSpecification (read_constant_specification v)
  | R_mode_declaration_group => made An_ModeDeclarationGroup (read_mode_declaration_group v)
  | R_e2e_profile_compatibility_props => made An_E2EProfileCompatibilityProps (read_e2e_profile_compatibility_props v)
  | R_application_sw_component_type => made An_ApplicationSoftwareComponentType (read_application_sw_component_type v)
  | R_composition_sw_component_type => made An_CompositionSwComponentType (read_composition_sw_component_type v)
  | R_swc_implementation => made An_SwcImplementation (read_swc_implementation v)
  | R_text_value_specification => made An_value (fun x => read_value_specification_element v (retag "TEXT-VALUE-SPECIFICATION" x))
  | R_numerical_value_specification => made An_value (fun x => read_value_specification_element v (retag "NUMERICAL-VALUE-SPECIFICATION" x))
  | R_not_available_value_specification => made An_value (fun x => read_value_specification_element v (retag "NOT-AVAILABLE-VALUE-SPECIFICATION" x))
  | R_array_value_specification => made An_value (fun x => read_value_specification_element v (retag "ARRAY-VALUE-SPECIFICATION" x))
  | R_record_value_specification => made An_value (fun x => read_value_specification_element v (retag "RECORD-VALUE-SPECIFICATION" x))
  | R_application_value_specification => made An_value (fun x => read_value_specification_element v (retag "APPLICATION-VALUE-SPECIFICATION" x))
  | R_constant_reference => made An_value (fun x => read_value_specification_element v (retag "CONSTANT-REFERENCE" x))
  | R_queued_sender_com_spec => made An_QueuedSenderComSpec (read_queued_sender_com_spec v)
  | R_mode_switch_sender_com_spec => made An_ModeSwitchSenderComSpec (read_mode_switch_sender_com_spec v)
  | R_nonqueued_sender_com_spec => made An_NonqueuedSenderComSpec (read_nonqueued_sender_com_spec v)
  | R_nv_provider_com_spec => made An_NvProvideComSpec (read_nv_provider_com_spec v)
  | R_parameter_provide_com_spec => made An_ParameterProvideComSpec (read_parameter_provide_com_spec v)
  | R_server_com_spec => made An_ServerComSpec (read_server_com_spec v)
  | R_queued_receiver_com_spec => made An_QueuedReceiverComSpec (read_queued_receiver_com_spec v)
  | R_nonqueued_receiver_com_spec => made An_NonqueuedReceiverComSpec (read_nonqueued_receiver_com_spec v)
  | R_nv_require_com_spec => made An_NvRequireComSpec (read_nv_require_com_spec v)
  | R_parameter_require_com_spec => made An_ParameterRequireComSpec (read_parameter_require_com_spec v)
  | R_mode_switch_receiver_com_spec => made An_ModeSwitchReceiverComSpec (read_mode_switch_receiver_com_spec v)
  | R_client_com_spec => made An_ClientComSpec (read_client_com_spec v)
  | R_async_server_call_returns_event => made An_AsynchronousServerCallReturnsEvent (read_async_server_call_returns_event v)
  | R_background_event => made An_BackgroundEvent (read_background_event v)
  | R_data_receive_error_event => made An_DataReceiveErrorEvent (read_data_receive_error_event v)
  | R_data_received_event => made An_DataReceivedEvent (read_data_received_event v)
  | R_data_send_completed_event => made An_DataSendCompletedEvent (read_data_send_completed_event v)
  | R_data_write_completed_event => made An_DataWriteCompletedEvent (read_data_write_completed_event v)
  | R_external_trigger_occured_event => made An_ExternalTriggerOccurredEvent (read_external_trigger_occured_event v)
  | R_init_event => made An_InitEvent (read_init_event v)
  | R_internal_trigger_occured_event => made An_InternalTriggerOccurredEvent (read_internal_trigger_occured_event v)
  | R_mode_switched_ack_event => made An_ModeSwitchedAckEvent (read_mode_switched_ack_event v)
  | R_operation_invoked_event => made An_OperationInvokedEvent (read_operation_invoked_event v)
  | R_swc_mode_manager_error_event => made An_SwcModeManagerErrorEvent (read_swc_mode_manager_error_event v)
  | R_swc_mode_switch_event => made An_SwcModeSwitchEvent (read_swc_mode_switch_event v)
  | R_timing_event => made An_TimingEvent (read_timing_event v)
  | R_transformer_hard_error_event => made An_TransformerHardErrorEvent (read_transformer_hard_error_event v)
  | R_annotation => made An_Annotation read_annotation
  | R_documentation_block => made An_DocumentationBlock read_doc
  | R_break => made An_inline (fun x => Ok IBreak)
  | R_multi_language_overview_paragraph => made An_MultiLanguageOverviewParagraph (tagged ["DESC"; "ITEM-LABEL"; "CHANGE"; "REASON"] (read_langs "L-2"))
  | R_emphasis_text => made An_inline read_emphasis
  | R_index_entry => made An_inline (fun x => Ok (IIndexEntry (text_opt x)))
  | R_language_long_name => made An_LanguageLongName (read_lang "L-4")
  | R_language_paragraph => made An_LanguageParagraph (read_lang "L-1")
  | R_language_verbatim => made An_LanguageVerbatim (read_lang "L-5")
  | R_multi_language_long_name => made An_MultilanguageLongName (tagged ["LONG-NAME"; "LABEL"] (read_langs "L-4"))
  | R_multi_language_paragraph => made An_doc_item read_paragraph
  | R_single_language_unit_names => made An_SingleLanguageUnitNames read_unit_names
  | R_superscript => made An_inline (fun x => Ok (ISuperscript (text_opt x)))
  | R_subscript => made An_inline (fun x => Ok (ISubscript (text_opt x)))
  | R_technical_term => made An_inline read_term
  | R_multi_language_verbatim => made An_doc_item read_verbatim
  | R_computation => made An_Computation (read_computation v)
  | R_compu_rational => made An_CompuRational (read_compu_rational v)
  | R_compu_scale => made An_CompuScale (read_compu_scale v)
  | R_scale_constraint => made An_ScaleConstraint (read_scale_constraint v)
  | R_internal_constraint => made An_InternalConstraint (read_internal_constraint v)
  | R_physical_constraint => made An_PhysicalConstraint (read_physical_constraint v)
  | R_data_constraint_rule => made An_DataConstraintRule (read_data_constraint_rule v)
  | R_sw_base_type_ref => made An_SwBaseTypeRef (read_ref rc_SwBaseTypeRef v)
  | R_sw_bit_representation => made An_SwBitRepresentation (read_sw_bit_representation v)
  | R_sw_data_def_props_conditional => made An_SwDataDefPropsConditional (read_sw_data_def_props_conditional v)
  | R_sw_text_props => made An_SwTextProps (read_sw_text_props v)
  | R_sw_pointer_target_props => made An_SwPointerTargetProps (read_sw_pointer_target_props v)
  | R_symbol_props => made An_SymbolProps (read_symbol_props v)
  | R_implementation_data_type_element => made An_ImplementationDataTypeElement (read_implementation_data_type_element v)
  | R_application_record_element => made An_ApplicationRecordElement (read_application_record_element v)
  | R_argument_data_prototype => made An_ArgumentDataPrototype (read_argument_data_prototype v)
  | R_data_type_map => made An_DataTypeMap (read_data_type_map v)
  | R_value_list => made An_ValueList (read_value_list v)
  | R_mode_request_type_map => made An_ModeRequestTypeMap (read_mode_request_type_map v)
  | R_sw_values => made An_SwValues (read_sw_values v)
  | R_sw_axis_cont => made An_SwAxisCont (read_sw_axis_cont v)
  | R_sw_value_cont => made An_SwValueCont (read_sw_value_cont v)
  | R_physical_dimension_ref => made An_PhysicalDimensionRef (read_ref rc_PhysicalDimensionRef v)
  | R_application_data_type_ref => made An_ApplicationDataTypeRef (read_ref rc_ApplicationDataTypeRef v)
  | R_constant_ref => made An_ConstantRef (read_ref rc_ConstantRef v)
  | R_invalidation_policy => made An_InvalidationPolicy (read_invalidation_policy v)
  | R_application_error => made An_ApplicationError (read_application_error v)
  | R_client_server_operation => made An_ClientServerOperation (read_client_server_operation v)
  | R_mode_declaration => made An_ModeDeclaration (read_mode_declaration v)
  | R_mode_error_behavior => made An_ModeErrorBehavior (read_mode_error_behavior v)
  | R_mode_transition => made An_ModeTransition (read_mode_transition v)
  | R_mode_declaration_group_prototype => made An_ModeDeclarationGroupPrototype (read_mode_declaration_group_prototype v)
  | R_e2e_transformation_com_spec_props => made An_EndToEndTransformationComSpecProps (read_e2e_transformation_com_spec_props v)
  | R_mode_switched_ack_request => made An_ModeSwitchedAckRequest (read_mode_switched_ack_request v)
  | R_tranmsission_com_spec_props => made An_TransmissionComSpecProps (read_tranmsission_com_spec_props v)
  | R_transmission_acknowledgement_request => made An_TransmissionAcknowledgementRequest (read_transmission_acknowledgement_request v)
  | R_reception_com_spec_props => made An_ReceptionComSpecProps (read_reception_com_spec_props v)
  | R_provide_port_prototype => made An_ProvidePortPrototype (read_provide_port_prototype v)
  | R_require_port_prototype => made An_RequirePortPrototype (read_require_port_prototype v)
  | R_pr_port_prototype => made An_PRPortPrototype (read_pr_port_prototype v)
  | R_sw_component_prototype => made An_SwComponentPrototype (read_sw_component_prototype v)
  | R_port_in_composition_type_instance_ref => made An_PortInCompositionTypeInstanceRef (read_port_in_composition_type_instance_ref v)
  | R_assembly_sw_connector => made An_AssemblySwConnector (read_assembly_sw_connector v)
  | R_delegation_sw_connector => made An_DelegationSwConnector (read_delegation_sw_connector v)
  | R_pass_through_sw_connector => made An_PassThroughSwConnector (read_pass_through_sw_connector v)
  | R_r_mode_group_in_atomic_swc_instance_ref => made An_RModeGroupInAtomicSwcInstanceRef (read_r_mode_group_in_atomic_swc_instance_ref v)
  | R_variable_in_impl_data_instance_ref => made An_ArVariableInImplementationDataInstanceRef (read_variable_in_impl_data_instance_ref v)
  | R_variable_in_atomic_swc_type_instance_ref => made An_VariableInAtomicSWCTypeInstanceRef (read_variable_in_atomic_swc_type_instance_ref v)
  | R_autosar_variable_ref => made An_AutosarVariableRef (read_autosar_variable_ref v)
  | R_variable_access => made An_VariableAccess (read_variable_access v)
  | R_executable_entity_activation_reason => made An_ExecutableEntityActivationReason (read_executable_entity_activation_reason v)
  | R_exclusive_area_ref_conditional => made An_ExclusiveAreaRefConditional (read_exclusive_area_ref_conditional v)
  | R_r_mode_in_atomic_swc_instance_ref => made An_RModeInAtomicSwcInstanceRef (read_r_mode_in_atomic_swc_instance_ref v)
  | R_swc_internal_behavior => made An_SwcInternalBehavior (read_swc_internal_behavior v)
  | R_runnable_entity_argument => made An_RunnableEntityArgument (read_runnable_entity_argument v)
  | R_runnable_entity => made An_RunnableEntity (read_runnable_entity v)
  | R_port_defined_argument_value => made An_PortDefinedArgumentValue (read_port_defined_argument_value v)
  | R_communication_buffer_locking => made An_CommunicationBufferLocking (read_communication_buffer_locking v)
  | R_port_api_option => made An_PortApiOption (read_port_api_option v)
  | R_async_server_call_point => made An_AsynchronousServerCallPoint (read_async_server_call_point v)
  | R_sync_server_call_point => made An_SynchronousServerCallPoint (read_sync_server_call_point v)
  | R_async_server_call_result_point => made An_AsynchronousServerCallResultPoint (read_async_server_call_result_point v)
  | R_external_triggering_point => made An_ExternalTriggeringPoint (read_external_triggering_point v)
  | R_internal_triggering_point => made An_InternalTriggeringPoint (read_internal_triggering_point v)
  | R_mode_access_point => made An_ModeAccessPoint (read_mode_access_point v)
  | R_mode_switch_point => made An_ModeSwitchPoint (read_mode_switch_point v)
  | R_parameter_in_atomic_swc_type_instance_ref => made An_ParameterInAtomicSwcTypeInstanceRef (read_parameter_in_atomic_swc_type_instance_ref v)
  | R_autosar_parameter_ref => made An_AutosarParameterRef (read_autosar_parameter_ref v)
  | R_parameter_access => made An_ParameterAccess (read_parameter_access v)
  | R_wait_point => made An_WaitPoint (read_wait_point v)
  | R_application_array_element => made An_ApplicationArrayElement (read_application_array_element v)
  | R_parameter_data_prototype => made An_ParameterDataPrototype (read_parameter_data_prototype v)
  | R_variable_data_prototype => made An_VariableDataPrototype (read_variable_data_prototype v)
  end.

(** write_str_elem, writer.py:416-432; [v] is the schema version of the writer *)
Definition write_str_elem (v : N) (o : any_object) (tag : option string) : result string :=
  match assoc (class_name o) writer_all with
  | Some m => element_text (run_writer v m o tag)
  | None => Err NotImplementedError
  end.
(** write_file_elem, writer.py:434-445: the contents of the file *)
Definition write_file_elem (v : N) (o : any_object) : result string :=
  match assoc (class_name o) writer_collectable with
  | Some m => element_text (run_writer v m o None)
  | None => Err NotImplementedError
  end.
(** The lookup of read_str_elem, reader.py:387-392 *)
Definition find_reader (type_name : option string) (tag : string) : option rmethod :=
  match type_name with Some t => assoc t reader_type_name | None => assoc tag reader_all end.
(** read_str_elem, reader.py:380-396 *)
Definition read_str_elem (v : N) (text : string) (type_name : option string) : result any_object :=
  let* x := parse_names text in
  match find_reader type_name (x_tag x) with
  | Some m => run_reader v m x
  | None => Err NotImplementedError
  end.
