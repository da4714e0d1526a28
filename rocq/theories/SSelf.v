(** What the classes are called in files, and under which name each is written. *)
From Verif Require Import Base MNum MXml MEnum MRefTab MRef MCodec MElem0 MElem1 MElemA MElemB MElemC MElem2 MElemD MElem3 MElem4 MElemE MElem5 MElemF MArxml MHeap MSelf.
Open Scope string_scope.

(** The names of the classes in the AUTOSAR schema. *)
Definition schema_name (c : self_class) : string :=
  match c with
  | Self_CompuMethod => "COMPU-METHOD"
  | Self_DataConstraint => "DATA-CONSTR"
  | Self_Unit => "UNIT"
  | Self_SwBaseType => "SW-BASE-TYPE"
  | Self_ImplementationDataTypeElement => "IMPLEMENTATION-DATA-TYPE-ELEMENT"
  | Self_ImplementationDataType => "IMPLEMENTATION-DATA-TYPE"
  | Self_VariableDataPrototype => "VARIABLE-DATA-PROTOTYPE"
  | Self_ParameterDataPrototype => "PARAMETER-DATA-PROTOTYPE"
  | Self_ArgumentDataPrototype => "ARGUMENT-DATA-PROTOTYPE"
  | Self_ApplicationPrimitiveDataType => "APPLICATION-PRIMITIVE-DATA-TYPE"
  | Self_ApplicationArrayElement => "APPLICATION-ARRAY-ELEMENT"
  | Self_ApplicationArrayDataType => "APPLICATION-ARRAY-DATA-TYPE"
  | Self_ApplicationRecordElement => "APPLICATION-RECORD-ELEMENT"
  | Self_ApplicationRecordDataType => "APPLICATION-RECORD-DATA-TYPE"
  | Self_DataTypeMappingSet => "DATA-TYPE-MAPPING-SET"
  | Self_SwAddrMethod => "SW-ADDR-METHOD"
  | Self_ConstantSpecification => "CONSTANT-SPECIFICATION"
  | Self_Package => "AR-PACKAGE"
  | Self_ModeDeclaration => "MODE-DECLARATION"
  | Self_ModeDeclarationGroup => "MODE-DECLARATION-GROUP"
  | Self_ModeDeclarationGroupPrototype => "MODE-DECLARATION-GROUP-PROTOTYPE"
  | Self_SenderReceiverInterface => "SENDER-RECEIVER-INTERFACE"
  | Self_NvDataInterface => "NV-DATA-INTERFACE"
  | Self_ParameterInterface => "PARAMETER-INTERFACE"
  | Self_ApplicationError => "APPLICATION-ERROR"
  | Self_ClientServerOperation => "CLIENT-SERVER-OPERATION"
  | Self_ClientServerInterface => "CLIENT-SERVER-INTERFACE"
  | Self_ModeSwitchInterface => "MODE-SWITCH-INTERFACE"
  | Self_E2EProfileCompatibilityProps => "E-2-E-PROFILE-COMPATIBILITY-PROPS"
  | Self_ProvidePortPrototype => "P-PORT-PROTOTYPE"
  | Self_RequirePortPrototype => "R-PORT-PROTOTYPE"
  | Self_PRPortPrototype => "PR-PORT-PROTOTYPE"
  | Self_ApplicationSoftwareComponentType => "APPLICATION-SW-COMPONENT-TYPE"
  | Self_SwComponentPrototype => "SW-COMPONENT-PROTOTYPE"
  | Self_CompositionSwComponentType => "COMPOSITION-SW-COMPONENT-TYPE"
  | Self_VariableAccess => "VARIABLE-ACCESS"
  | Self_SwcImplementation => "SWC-IMPLEMENTATION"
  | Self_AsynchronousServerCallPoint => "ASYNCHRONOUS-SERVER-CALL-POINT"
  | Self_AsynchronousServerCallResultPoint => "ASYNCHRONOUS-SERVER-CALL-RESULT-POINT"
  | Self_ModeSwitchPoint => "MODE-SWITCH-POINT"
  | Self_RunnableEntity => "RUNNABLE-ENTITY"
  | Self_AsynchronousServerCallReturnsEvent => "ASYNCHRONOUS-SERVER-CALL-RETURNS-EVENT"
  | Self_BackgroundEvent => "BACKGROUND-EVENT"
  | Self_DataReceiveErrorEvent => "DATA-RECEIVE-ERROR-EVENT"
  | Self_DataReceivedEvent => "DATA-RECEIVED-EVENT"
  | Self_DataSendCompletedEvent => "DATA-SEND-COMPLETED-EVENT"
  | Self_DataWriteCompletedEvent => "DATA-WRITE-COMPLETED-EVENT"
  | Self_ExternalTriggerOccurredEvent => "EXTERNAL-TRIGGER-OCCURRED-EVENT"
  | Self_InitEvent => "INIT-EVENT"
  | Self_InternalTriggerOccurredEvent => "INTERNAL-TRIGGER-OCCURRED-EVENT"
  | Self_ModeSwitchedAckEvent => "MODE-SWITCHED-ACK-EVENT"
  | Self_OperationInvokedEvent => "OPERATION-INVOKED-EVENT"
  | Self_SwcModeManagerErrorEvent => "SWC-MODE-MANAGER-ERROR-EVENT"
  | Self_SwcModeSwitchEvent => "SWC-MODE-SWITCH-EVENT"
  | Self_TimingEvent => "TIMING-EVENT"
  | Self_TransformerHardErrorEvent => "TRANSFORMER-HARD-ERROR-EVENT"
  | Self_ExclusiveArea => "EXCLUSIVE-AREA"
  | Self_SwcInternalBehavior => "SWC-INTERNAL-BEHAVIOR"
  end.
(** What writing an object of a class gives.  Four classes have no name of their own in files: the tag
    of their objects is chosen by where they stand, and array elements are always called ELEMENT. *)
Inductive written : self_class -> list wt -> Prop :=
| written_CompuMethod v e l : write_compu_method v e = Ok l -> written Self_CompuMethod l
| written_DataConstraint v e l : write_data_constraint v e = Ok l -> written Self_DataConstraint l
| written_Unit v e l : write_unit v e = Ok l -> written Self_Unit l
| written_SwBaseType v e l : write_sw_base_type v e = Ok l -> written Self_SwBaseType l
| written_ImplementationDataTypeElement v e l : write_implementation_data_type_element v e = Ok l -> written Self_ImplementationDataTypeElement l
| written_ImplementationDataType v e l : write_implementation_data_type v e = Ok l -> written Self_ImplementationDataType l
| written_ArgumentDataPrototype v e l : write_argument_data_prototype v e = Ok l -> written Self_ArgumentDataPrototype l
| written_ApplicationPrimitiveDataType v e l : write_application_primitive_data_type v e = Ok l -> written Self_ApplicationPrimitiveDataType l
| written_ApplicationArrayDataType v e l : write_application_array_data_type v e = Ok l -> written Self_ApplicationArrayDataType l
| written_ApplicationRecordElement v e l : write_application_record_element v e = Ok l -> written Self_ApplicationRecordElement l
| written_ApplicationRecordDataType v e l : write_application_record_data_type v e = Ok l -> written Self_ApplicationRecordDataType l
| written_DataTypeMappingSet v e l : write_data_type_mapping_set v e = Ok l -> written Self_DataTypeMappingSet l
| written_SwAddrMethod v e l : write_sw_addr_method v e = Ok l -> written Self_SwAddrMethod l
| written_ConstantSpecification v e l : write_constant_specification v e = Ok l -> written Self_ConstantSpecification l
| written_Package v e l : write_package v e = Ok l -> written Self_Package l
| written_ModeDeclaration v e l : write_mode_declaration v e = Ok l -> written Self_ModeDeclaration l
| written_ModeDeclarationGroup v e l : write_mode_declaration_group v e = Ok l -> written Self_ModeDeclarationGroup l
| written_SenderReceiverInterface v e l : write_sender_receiver_interface v e = Ok l -> written Self_SenderReceiverInterface l
| written_NvDataInterface v e l : write_nv_data_interface v e = Ok l -> written Self_NvDataInterface l
| written_ParameterInterface v e l : write_parameter_interface v e = Ok l -> written Self_ParameterInterface l
| written_ApplicationError v e l : write_application_error v e = Ok l -> written Self_ApplicationError l
| written_ClientServerOperation v e l : write_client_server_operation v e = Ok l -> written Self_ClientServerOperation l
| written_ClientServerInterface v e l : write_client_server_interface v e = Ok l -> written Self_ClientServerInterface l
| written_ModeSwitchInterface v e l : write_mode_switch_interface v e = Ok l -> written Self_ModeSwitchInterface l
| written_E2EProfileCompatibilityProps v e l : write_e2e_profile_compatibility_props v e = Ok l -> written Self_E2EProfileCompatibilityProps l
| written_ProvidePortPrototype v e l : write_provide_port_prototype v e = Ok l -> written Self_ProvidePortPrototype l
| written_RequirePortPrototype v e l : write_require_port_prototype v e = Ok l -> written Self_RequirePortPrototype l
| written_PRPortPrototype v e l : write_pr_port_prototype v e = Ok l -> written Self_PRPortPrototype l
| written_ApplicationSoftwareComponentType v e l : write_application_software_component_type v e = Ok l -> written Self_ApplicationSoftwareComponentType l
| written_SwComponentPrototype v e l : write_sw_component_prototype v e = Ok l -> written Self_SwComponentPrototype l
| written_CompositionSwComponentType v e l : write_composition_sw_component_type v e = Ok l -> written Self_CompositionSwComponentType l
| written_SwcImplementation v e l : write_swc_implementation v e = Ok l -> written Self_SwcImplementation l
| written_AsynchronousServerCallPoint v e l : write_async_server_call_point v e = Ok l -> written Self_AsynchronousServerCallPoint l
| written_AsynchronousServerCallResultPoint v e l : write_async_server_call_result_point v e = Ok l -> written Self_AsynchronousServerCallResultPoint l
| written_ModeSwitchPoint v e l : write_mode_switch_point v e = Ok l -> written Self_ModeSwitchPoint l
| written_RunnableEntity v e l : write_runnable_entity v e = Ok l -> written Self_RunnableEntity l
| written_AsynchronousServerCallReturnsEvent v e l : write_async_server_call_returns_event v e = Ok l -> written Self_AsynchronousServerCallReturnsEvent l
| written_BackgroundEvent v e l : write_background_event v e = Ok l -> written Self_BackgroundEvent l
| written_DataReceiveErrorEvent v e l : write_data_receive_error_event v e = Ok l -> written Self_DataReceiveErrorEvent l
| written_DataReceivedEvent v e l : write_data_received_event v e = Ok l -> written Self_DataReceivedEvent l
| written_DataSendCompletedEvent v e l : write_data_send_completed_event v e = Ok l -> written Self_DataSendCompletedEvent l
| written_DataWriteCompletedEvent v e l : write_data_write_completed_event v e = Ok l -> written Self_DataWriteCompletedEvent l
| written_ExternalTriggerOccurredEvent v e l : write_external_trigger_occured_event v e = Ok l -> written Self_ExternalTriggerOccurredEvent l
| written_InitEvent v e l : write_init_event v e = Ok l -> written Self_InitEvent l
| written_InternalTriggerOccurredEvent v e l : write_internal_trigger_occured_event v e = Ok l -> written Self_InternalTriggerOccurredEvent l
| written_ModeSwitchedAckEvent v e l : write_mode_switched_ack_event v e = Ok l -> written Self_ModeSwitchedAckEvent l
| written_OperationInvokedEvent v e l : write_operation_invoked_event v e = Ok l -> written Self_OperationInvokedEvent l
| written_SwcModeManagerErrorEvent v e l : write_swc_mode_manager_error_event v e = Ok l -> written Self_SwcModeManagerErrorEvent l
| written_SwcModeSwitchEvent v e l : write_swc_mode_switch_event v e = Ok l -> written Self_SwcModeSwitchEvent l
| written_TimingEvent v e l : write_timing_event v e = Ok l -> written Self_TimingEvent l
| written_TransformerHardErrorEvent v e l : write_transformer_hard_error_event v e = Ok l -> written Self_TransformerHardErrorEvent l
| written_ExclusiveArea v e l : write_exclusive_area v e = Ok l -> written Self_ExclusiveArea l
| written_SwcInternalBehavior v e l : write_swc_internal_behavior v e = Ok l -> written Self_SwcInternalBehavior l.
