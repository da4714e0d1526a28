(** Which references into components and parts of runnables given arguments describe, independently of how they are made. *)
From Verif Require Import Base MNum MXml MEnum MRefTab MRef MCodec MElem0 MElem1 MElemA MElemB MElemC MElem2 MElemD MElem3 MElem4 MElemE MElem5 MElemF MArxml MFind MValue MEvent MPort SPort MAccess SAccess MRunnable SRunnable MIface SIface MData SFormat SData MConst SConst MParts SParts.
Open Scope list_scope.

(** ** What references may point to *)
Definition kinds_of_AbstractProvidedPortPrototypeRef : list IdentifiableSubTypes :=
  [IdentifiableSubTypes_ABSTRACT_PROVIDED_PORT_PROTOTYPE; IdentifiableSubTypes_P_PORT_PROTOTYPE; IdentifiableSubTypes_PR_PORT_PROTOTYPE].
Definition kinds_of_AbstractRequiredPortPrototypeRef : list IdentifiableSubTypes :=
  [IdentifiableSubTypes_ABSTRACT_REQUIRED_PORT_PROTOTYPE; IdentifiableSubTypes_PR_PORT_PROTOTYPE; IdentifiableSubTypes_R_PORT_PROTOTYPE].
Definition kinds_of_PortPrototypeRef : list IdentifiableSubTypes :=
  [IdentifiableSubTypes_ABSTRACT_PROVIDED_PORT_PROTOTYPE; IdentifiableSubTypes_ABSTRACT_REQUIRED_PORT_PROTOTYPE; IdentifiableSubTypes_P_PORT_PROTOTYPE; IdentifiableSubTypes_PR_PORT_PROTOTYPE; IdentifiableSubTypes_R_PORT_PROTOTYPE].
Definition kinds_of_DataPrototypeRef : list IdentifiableSubTypes :=
  [IdentifiableSubTypes_APPLICATION_ARRAY_ELEMENT; IdentifiableSubTypes_APPLICATION_COMPOSITE_ELEMENT_DATA_PROTOTYPE; IdentifiableSubTypes_APPLICATION_RECORD_ELEMENT; IdentifiableSubTypes_ARGUMENT_DATA_PROTOTYPE; IdentifiableSubTypes_AUTOSAR_DATA_PROTOTYPE; IdentifiableSubTypes_DATA_PROTOTYPE; IdentifiableSubTypes_PARAMETER_DATA_PROTOTYPE; IdentifiableSubTypes_VARIABLE_DATA_PROTOTYPE].
Definition kinds_of_ApplicationCompositeElementDataPrototypeRef : list IdentifiableSubTypes :=
  [IdentifiableSubTypes_APPLICATION_ARRAY_ELEMENT; IdentifiableSubTypes_APPLICATION_COMPOSITE_ELEMENT_DATA_PROTOTYPE; IdentifiableSubTypes_APPLICATION_RECORD_ELEMENT].
Definition kinds_of_RteEventRef : list IdentifiableSubTypes :=
  [IdentifiableSubTypes_ASYNCHRONOUS_SERVER_CALL_RETURNS_EVENT; IdentifiableSubTypes_BACKGROUND_EVENT; IdentifiableSubTypes_DATA_RECEIVE_ERROR_EVENT; IdentifiableSubTypes_DATA_RECEIVED_EVENT; IdentifiableSubTypes_DATA_SEND_COMPLETED_EVENT; IdentifiableSubTypes_DATA_WRITE_COMPLETED_EVENT; IdentifiableSubTypes_EXTERNAL_TRIGGER_OCCURRED_EVENT; IdentifiableSubTypes_INIT_EVENT; IdentifiableSubTypes_INTERNAL_TRIGGER_OCCURRED_EVENT; IdentifiableSubTypes_MODE_SWITCHED_ACK_EVENT; IdentifiableSubTypes_OPERATION_INVOKED_EVENT; IdentifiableSubTypes_SWC_MODE_MANAGER_ERROR_EVENT; IdentifiableSubTypes_SWC_MODE_SWITCH_EVENT; IdentifiableSubTypes_TIMING_EVENT; IdentifiableSubTypes_TRANSFORMER_HARD_ERROR_EVENT].

(** ** References to something in a component *)
Definition describes_POperationInAtomicSwcInstanceRef (kw : keyword_args) (x : POperationInAtomicSwcInstanceRef) : Prop :=
  only ["context_port"; "target_provided_operation"] kw /\
  holds (means_ref kinds_of_AbstractProvidedPortPrototypeRef) kw "context_port" (POperationInAtomicSwcInstanceRef_context_port x) /\
  holds (means_ref [IdentifiableSubTypes_CLIENT_SERVER_OPERATION]) kw "target_provided_operation" (POperationInAtomicSwcInstanceRef_target_provided_operation x).
Definition describes_PModeGroupInAtomicSwcInstanceRef (kw : keyword_args) (x : PModeGroupInAtomicSwcInstanceRef) : Prop :=
  only ["context_port"; "target_mode_group"] kw /\
  holds (means_ref kinds_of_AbstractProvidedPortPrototypeRef) kw "context_port" (PModeGroupInAtomicSwcInstanceRef_context_port x) /\
  holds (means_ref [IdentifiableSubTypes_MODE_DECLARATION_GROUP_PROTOTYPE]) kw "target_mode_group" (PModeGroupInAtomicSwcInstanceRef_target_mode_group x).
Definition describes_PTriggerInAtomicSwcTypeInstanceRef (kw : keyword_args) (x : PTriggerInAtomicSwcTypeInstanceRef) : Prop :=
  only ["context_port"; "target_trigger"] kw /\
  holds (means_ref kinds_of_AbstractProvidedPortPrototypeRef) kw "context_port" (PTriggerInAtomicSwcTypeInstanceRef_context_port x) /\
  holds (means_ref [IdentifiableSubTypes_TRIGGER]) kw "target_trigger" (PTriggerInAtomicSwcTypeInstanceRef_target_trigger x).
Definition describes_ROperationInAtomicSwcInstanceRef (kw : keyword_args) (x : ROperationInAtomicSwcInstanceRef) : Prop :=
  only ["context_port"; "target_required_operation"] kw /\
  holds (means_ref kinds_of_AbstractRequiredPortPrototypeRef) kw "context_port" (ROperationInAtomicSwcInstanceRef_context_port x) /\
  holds (means_ref [IdentifiableSubTypes_CLIENT_SERVER_OPERATION]) kw "target_required_operation" (ROperationInAtomicSwcInstanceRef_target_required_operation x).
Definition describes_RModeInAtomicSwcInstanceRef (kw : keyword_args) (x : RModeInAtomicSwcInstanceRef) : Prop :=
  only ["context_port"; "context_mode_declaration_group_prototype"; "target_mode_declaration"] kw /\
  holds (means_ref kinds_of_AbstractRequiredPortPrototypeRef) kw "context_port" (RModeInAtomicSwcInstanceRef_context_port x) /\
  holds (means_ref [IdentifiableSubTypes_MODE_DECLARATION_GROUP_PROTOTYPE]) kw "context_mode_declaration_group_prototype" (RModeInAtomicSwcInstanceRef_context_mode_declaration_group_prototype x) /\
  holds (means_ref [IdentifiableSubTypes_MODE_DECLARATION]) kw "target_mode_declaration" (RModeInAtomicSwcInstanceRef_target_mode_declaration x).
Definition describes_RModeGroupInAtomicSwcInstanceRef (kw : keyword_args) (x : RModeGroupInAtomicSwcInstanceRef) : Prop :=
  only ["context_port"; "target_mode_group"] kw /\
  holds (means_ref kinds_of_AbstractRequiredPortPrototypeRef) kw "context_port" (RModeGroupInAtomicSwcInstanceRef_context_port x) /\
  holds (means_ref [IdentifiableSubTypes_MODE_DECLARATION_GROUP_PROTOTYPE]) kw "target_mode_group" (RModeGroupInAtomicSwcInstanceRef_target_mode_group x).
Definition describes_RVariableInAtomicSwcInstanceRef (kw : keyword_args) (x : RVariableInAtomicSwcInstanceRef) : Prop :=
  only ["context_port"; "target_data_element"] kw /\
  holds (means_ref kinds_of_AbstractRequiredPortPrototypeRef) kw "context_port" (RVariableInAtomicSwcInstanceRef_context_port x) /\
  holds (means_ref [IdentifiableSubTypes_VARIABLE_DATA_PROTOTYPE]) kw "target_data_element" (RVariableInAtomicSwcInstanceRef_target_data_element x).
Definition describes_RTriggerInAtomicSwcInstanceRef (kw : keyword_args) (x : RTriggerInAtomicSwcInstanceRef) : Prop :=
  only ["context_port"; "target_trigger"] kw /\
  holds (means_ref kinds_of_AbstractRequiredPortPrototypeRef) kw "context_port" (RTriggerInAtomicSwcInstanceRef_context_port x) /\
  holds (means_ref [IdentifiableSubTypes_TRIGGER]) kw "target_trigger" (RTriggerInAtomicSwcInstanceRef_target_trigger x).
Definition describes_ArVariableInImplementationDataInstanceRef (kw : keyword_args) (x : ArVariableInImplementationDataInstanceRef) : Prop :=
  only ["port_prototype_ref"; "root_variable_data_prototype_ref"; "context_data_prototype_refs"; "target_data_prototype_ref"] kw /\
  holds (of_class "PortPrototypeRef") kw "port_prototype_ref" (ArVariableInImplementationDataInstanceRef_port_prototype_ref x) /\
  holds (of_class "VariableDataPrototypeRef") kw "root_variable_data_prototype_ref" (ArVariableInImplementationDataInstanceRef_root_variable_data_prototype_ref x) /\
  holds_list (means_if_any (of_class "AbstractImplementationDataTypeElementRef")) kw "context_data_prototype_refs" (ArVariableInImplementationDataInstanceRef_context_data_prototype_refs x) /\
  holds (of_class "AbstractImplementationDataTypeElementRef") kw "target_data_prototype_ref" (ArVariableInImplementationDataInstanceRef_target_data_prototype_ref x).
Definition describes_VariableInAtomicSWCTypeInstanceRef (kw : keyword_args) (x : VariableInAtomicSWCTypeInstanceRef) : Prop :=
  only ["port_prototype_ref"; "root_variable_data_prototype_ref"; "context_data_prototype_refs"; "target_data_prototype_ref"] kw /\
  holds (means_ref kinds_of_PortPrototypeRef) kw "port_prototype_ref" (VariableInAtomicSWCTypeInstanceRef_port_prototype_ref x) /\
  holds (means_ref [IdentifiableSubTypes_VARIABLE_DATA_PROTOTYPE]) kw "root_variable_data_prototype_ref" (VariableInAtomicSWCTypeInstanceRef_root_variable_data_prototype_ref x) /\
  holds_list (means_if_any (of_class "ApplicationCompositeElementDataPrototypeRef")) kw "context_data_prototype_refs" (VariableInAtomicSWCTypeInstanceRef_context_data_prototype_refs x) /\
  holds (means_ref kinds_of_DataPrototypeRef) kw "target_data_prototype_ref" (VariableInAtomicSWCTypeInstanceRef_target_data_prototype_ref x).
Definition describes_AutosarVariableRef (kw : keyword_args) (x : AutosarVariableRef) : Prop :=
  only ["ar_variable_in_impl_datatype"; "ar_variable_iref"; "local_variable_ref"] kw /\
  holds (is_a OArVariableInImplementationDataInstanceRef) kw "ar_variable_in_impl_datatype" (AutosarVariableRef_ar_variable_in_impl_datatype x) /\
  holds (is_a OVariableInAtomicSWCTypeInstanceRef) kw "ar_variable_iref" (AutosarVariableRef_ar_variable_iref x) /\
  holds (of_class "VariableDataPrototypeRef") kw "local_variable_ref" (AutosarVariableRef_local_variable_ref x).
Definition describes_ParameterInAtomicSwcTypeInstanceRef (kw : keyword_args) (x : ParameterInAtomicSwcTypeInstanceRef) : Prop :=
  only ["port_prototype"; "root_parameter_data_prototype"; "context_data_prototype"; "target_data_prototype"] kw /\
  holds (means_ref kinds_of_PortPrototypeRef) kw "port_prototype" (ParameterInAtomicSwcTypeInstanceRef_port_prototype x) /\
  holds (means_ref kinds_of_DataPrototypeRef) kw "root_parameter_data_prototype" (ParameterInAtomicSwcTypeInstanceRef_root_parameter_data_prototype x) /\
  holds (means_ref kinds_of_ApplicationCompositeElementDataPrototypeRef) kw "context_data_prototype" (ParameterInAtomicSwcTypeInstanceRef_context_data_prototype x) /\
  holds (means_ref kinds_of_DataPrototypeRef) kw "target_data_prototype" (ParameterInAtomicSwcTypeInstanceRef_target_data_prototype x).
Definition describes_AutosarParameterRef (kw : keyword_args) (x : AutosarParameterRef) : Prop :=
  only ["autosar_parameter"; "local_parameter"] kw /\
  holds (is_a OParameterInAtomicSwcTypeInstanceRef) kw "autosar_parameter" (AutosarParameterRef_autosar_parameter x) /\
  holds (means_ref kinds_of_DataPrototypeRef) kw "local_parameter" (AutosarParameterRef_local_parameter x).
(** One more at the end of context_data_prototype_refs, nothing else changed. *)
Definition one_more_ArVariableInImplementationDataInstanceRef_context_data_prototype_refs (x : ArVariableInImplementationDataInstanceRef) (a : arg) (y : ArVariableInImplementationDataInstanceRef) : Prop :=
  exists e, of_class "AbstractImplementationDataTypeElementRef" a e /\
  ArVariableInImplementationDataInstanceRef_port_prototype_ref y = ArVariableInImplementationDataInstanceRef_port_prototype_ref x /\ ArVariableInImplementationDataInstanceRef_root_variable_data_prototype_ref y = ArVariableInImplementationDataInstanceRef_root_variable_data_prototype_ref x /\ ArVariableInImplementationDataInstanceRef_context_data_prototype_refs y = ArVariableInImplementationDataInstanceRef_context_data_prototype_refs x ++ [e] /\ ArVariableInImplementationDataInstanceRef_target_data_prototype_ref y = ArVariableInImplementationDataInstanceRef_target_data_prototype_ref x.
(** One more at the end of context_data_prototype_refs, nothing else changed. *)
Definition one_more_VariableInAtomicSWCTypeInstanceRef_context_data_prototype_refs (x : VariableInAtomicSWCTypeInstanceRef) (a : arg) (y : VariableInAtomicSWCTypeInstanceRef) : Prop :=
  exists e, of_class "ApplicationCompositeElementDataPrototypeRef" a e /\
  VariableInAtomicSWCTypeInstanceRef_port_prototype_ref y = VariableInAtomicSWCTypeInstanceRef_port_prototype_ref x /\ VariableInAtomicSWCTypeInstanceRef_root_variable_data_prototype_ref y = VariableInAtomicSWCTypeInstanceRef_root_variable_data_prototype_ref x /\ VariableInAtomicSWCTypeInstanceRef_context_data_prototype_refs y = VariableInAtomicSWCTypeInstanceRef_context_data_prototype_refs x ++ [e] /\ VariableInAtomicSWCTypeInstanceRef_target_data_prototype_ref y = VariableInAtomicSWCTypeInstanceRef_target_data_prototype_ref x.

(** ** Parts of runnables *)
Definition describes_VariableAccess (name : string) (kw : keyword_args) (x : VariableAccess) : Prop :=
  only (["accessed_variable"; "scope"] ++ common_arguments) kw /\
  identity name kw (VariableAccess_ident x) /\
  holds (is_a OAutosarVariableRef) kw "accessed_variable" (VariableAccess_accessed_variable x) /\
  holds (is_a OVariableAccessScope) kw "scope" (VariableAccess_scope x).
Definition describes_ExecutableEntityActivationReason (name : string) (kw : keyword_args) (x : ExecutableEntityActivationReason) : Prop :=
  only ["bit_position"; "symbol"] kw /\
  ExecutableEntityActivationReason_name x = name /\
  holds means_text kw "symbol" (ExecutableEntityActivationReason_symbol x) /\
  holds means_count kw "bit_position" (ExecutableEntityActivationReason_bit_position x).
Definition describes_ExclusiveAreaRefConditional (kw : keyword_args) (x : ExclusiveAreaRefConditional) : Prop :=
  only ["exclusive_area"] kw /\
  holds (means_ref [IdentifiableSubTypes_EXCLUSIVE_AREA]) kw "exclusive_area" (ExclusiveAreaRefConditional_exclusive_area x).
Definition describes_RunnableEntityArgument (kw : keyword_args) (x : RunnableEntityArgument) : Prop :=
  only ["symbol"] kw /\
  holds (fun a s => a = AStr s) kw "symbol" (RunnableEntityArgument_symbol x).
Definition describes_AsynchronousServerCallPoint (name : string) (kw : keyword_args) (x : AsynchronousServerCallPoint) : Prop :=
  only (["operation"; "timeout"; "return_value_provision"] ++ common_arguments) kw /\
  identity name kw (AsynchronousServerCallPoint_ident x) /\
  holds (is_a ORteApiReturnValueProvision) kw "return_value_provision" (AsynchronousServerCallPoint_return_value_provision x) /\
  holds (is_a OROperationInAtomicSwcInstanceRef) kw "operation" (AsynchronousServerCallPoint_operation x) /\
  holds means_float kw "timeout" (AsynchronousServerCallPoint_timeout x).
Definition describes_AsynchronousServerCallResultPoint (name : string) (kw : keyword_args) (x : AsynchronousServerCallResultPoint) : Prop :=
  only (["async_server_call_point"; "return_value_provision"] ++ common_arguments) kw /\
  identity name kw (AsynchronousServerCallResultPoint_ident x) /\
  holds (is_a ORteApiReturnValueProvision) kw "return_value_provision" (AsynchronousServerCallResultPoint_return_value_provision x) /\
  holds (means_ref [IdentifiableSubTypes_ASYNCHRONOUS_SERVER_CALL_POINT]) kw "async_server_call_point" (AsynchronousServerCallResultPoint_async_server_call_point x).
Definition describes_SynchronousServerCallPoint (name : string) (kw : keyword_args) (x : SynchronousServerCallPoint) : Prop :=
  only (["called_from_within_exclusive_area"; "operation"; "timeout"; "return_value_provision"] ++ common_arguments) kw /\
  identity name kw (SynchronousServerCallPoint_ident x) /\
  holds (is_a ORteApiReturnValueProvision) kw "return_value_provision" (SynchronousServerCallPoint_return_value_provision x) /\
  holds (is_a OROperationInAtomicSwcInstanceRef) kw "operation" (SynchronousServerCallPoint_operation x) /\
  holds means_float kw "timeout" (SynchronousServerCallPoint_timeout x) /\
  holds (means_ref [IdentifiableSubTypes_EXCLUSIVE_AREA_NESTING_ORDER]) kw "called_from_within_exclusive_area" (SynchronousServerCallPoint_called_from_within_exclusive_area x).
Definition describes_ExternalTriggeringPointIdent (name : string) (kw : keyword_args) (x : ExternalTriggeringPointIdent) : Prop :=
  only (["return_value_provision"] ++ common_arguments) kw /\
  identity name kw (ExternalTriggeringPointIdent_ident x) /\
  holds (is_a ORteApiReturnValueProvision) kw "return_value_provision" (ExternalTriggeringPointIdent_return_value_provision x).
Definition describes_ExternalTriggeringPoint (kw : keyword_args) (x : ExternalTriggeringPoint) : Prop :=
  only ["ident"; "trigger"] kw /\
  holds (is_a OExternalTriggeringPointIdent) kw "ident" (ExternalTriggeringPoint_ident x) /\
  holds (is_a OPTriggerInAtomicSwcTypeInstanceRef) kw "trigger" (ExternalTriggeringPoint_trigger x).
Definition describes_InternalTriggeringPoint (name : string) (kw : keyword_args) (x : InternalTriggeringPoint) : Prop :=
  only (["sw_impl_policy"; "return_value_provision"] ++ common_arguments) kw /\
  identity name kw (InternalTriggeringPoint_ident x) /\
  holds (is_a ORteApiReturnValueProvision) kw "return_value_provision" (InternalTriggeringPoint_return_value_provision x) /\
  holds (is_a OSwImplPolicy) kw "sw_impl_policy" (InternalTriggeringPoint_sw_impl_policy x).
Definition describes_ModeAccessPointIdent (name : string) (kw : keyword_args) (x : ModeAccessPointIdent) : Prop :=
  only (["return_value_provision"] ++ common_arguments) kw /\
  identity name kw (ModeAccessPointIdent_ident x) /\
  holds (is_a ORteApiReturnValueProvision) kw "return_value_provision" (ModeAccessPointIdent_return_value_provision x).
Definition describes_ModeAccessPoint (kw : keyword_args) (x : ModeAccessPoint) : Prop :=
  only ["ident"; "mode_group"] kw /\
  holds (is_a OModeAccessPointIdent) kw "ident" (ModeAccessPoint_ident x) /\
  holds (is_a OModeGroupInAtomicSwcInstanceRef) kw "mode_group" (ModeAccessPoint_mode_group x).
Definition describes_ModeSwitchPoint (name : string) (kw : keyword_args) (x : ModeSwitchPoint) : Prop :=
  only (["mode_group"; "return_value_provision"] ++ common_arguments) kw /\
  identity name kw (ModeSwitchPoint_ident x) /\
  holds (is_a ORteApiReturnValueProvision) kw "return_value_provision" (ModeSwitchPoint_return_value_provision x) /\
  holds (is_a (fun e => OModeGroupInAtomicSwcInstanceRef (ModeGroup_P e))) kw "mode_group" (ModeSwitchPoint_mode_group x).
Definition describes_ParameterAccess (name : string) (kw : keyword_args) (x : ParameterAccess) : Prop :=
  only (["accessed_parameter"; "sw_data_def_props"; "return_value_provision"] ++ common_arguments) kw /\
  identity name kw (ParameterAccess_ident x) /\
  holds (is_a ORteApiReturnValueProvision) kw "return_value_provision" (ParameterAccess_return_value_provision x) /\
  holds (is_a OAutosarParameterRef) kw "accessed_parameter" (ParameterAccess_accessed_parameter x) /\
  holds means_props kw "sw_data_def_props" (ParameterAccess_sw_data_def_props x).
Definition describes_WaitPoint (name : string) (kw : keyword_args) (x : WaitPoint) : Prop :=
  only (["trigger"; "timeout"] ++ common_arguments) kw /\
  identity name kw (WaitPoint_ident x) /\
  holds means_float kw "timeout" (WaitPoint_timeout x) /\
  holds (means_ref kinds_of_RteEventRef) kw "trigger" (WaitPoint_trigger x).
