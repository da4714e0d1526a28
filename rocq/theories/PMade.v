(** Objects made by the constructors from arguments that XML can carry can be carried by XML; the theorems
    are in PropsFit.v. *)
From Verif Require Import Base MNames MNum SNum PNum PNum2 PLiteral2 PRef MXml SXml PXml2 MEnum MRefTab MRef SEnum PEnum MCodec SCodec PCodec MElem0 PElem0 MElem1 MElemA MElemB MElemC MElem2 MElemD MElem3 MElem4 MElemE MElem5 MElemF MArxml
  SElem1 SElemA SElemB SElemC SElem2 SElemD SElem3 SElem4 SElemE SElem5 SElemF MFind MValue MEvent MPort MAccess MRunnable MIface MData MConst MParts MPoint MOccur MComp SFit PScope PSpell PAccess SAccess PElemE SRunnable PRunnable PArxml PFit.
Local Ltac splits := repeat match goal with |- _ /\ _ => split end.

Lemma fit_new_bit_representation v kw : fit_keywords v kw -> gives good_SwBitRepresentation (new_bit_representation kw).
Proof. intros H. unfold new_bit_representation. through H. unfold good_SwBitRepresentation. all_held. Qed.
Lemma fit_new_text_props v kw : fit_keywords v kw -> gives good_SwTextProps (new_text_props kw).
Proof. intros H. unfold new_text_props. through H. unfold good_SwTextProps. all_held. Qed.
Lemma fit_new_pointer_target_props v kw : fit_keywords v kw -> gives good_SwPointerTargetProps (new_pointer_target_props kw).
Proof. intros H. unfold new_pointer_target_props. through H. unfold good_SwPointerTargetProps. unfold good_SwPointerTargetProps_. all_held. Qed.
Lemma fit_new_conditional v kw : fit_keywords v kw -> gives good_SwDataDefPropsConditional (new_conditional kw).
Proof. intros H. unfold new_conditional. through H. unfold good_SwDataDefPropsConditional. unfold good_SwDataDefPropsConditional_. all_held. Qed.
Lemma fit_new_symbol_props v name kw : fit_keywords v kw -> fit_text name -> gives good_SymbolProps (new_symbol_props name kw).
Proof. intros H N. unfold new_symbol_props. through H. unfold good_SymbolProps. all_held. Qed.
Lemma fit_new_type_element v name kw : fit_keywords v kw -> fit_text name -> no_uuid kw -> gives good_ImplementationDataTypeElement (new_type_element name kw).
Proof. intros H N U. unfold new_type_element. through H. unfold good_ImplementationDataTypeElement. all_held. Qed.
Lemma fit_new_implementation_type v name kw : fit_keywords v kw -> fit_text name -> no_uuid kw -> gives good_ImplementationDataType (new_implementation_type name kw).
Proof. intros H N U. unfold new_implementation_type. through H. unfold good_ImplementationDataType. all_held. Qed.
Lemma fit_new_primitive_type v name kw : fit_keywords v kw -> fit_text name -> no_uuid kw -> gives good_ApplicationPrimitiveDataType (new_primitive_type name kw).
Proof. intros H N U. unfold new_primitive_type. through H. unfold good_ApplicationPrimitiveDataType. all_held. Qed.
Lemma fit_new_array_element v name kw : fit_keywords v kw -> fit_text name -> no_uuid kw -> gives good_ApplicationArrayElement (new_array_element name kw).
Proof. intros H N U. unfold new_array_element. through H. unfold good_ApplicationArrayElement. all_held. Qed.
Lemma fit_new_array_type v name kw : fit_keywords v kw -> fit_text name -> no_uuid kw -> gives good_ApplicationArrayDataType (new_array_type name kw).
Proof. intros H N U. unfold new_array_type. through H. unfold good_ApplicationArrayDataType. all_held. Qed.
Lemma fit_new_record_element v name kw : fit_keywords v kw -> fit_text name -> no_uuid kw -> gives good_ApplicationRecordElement (new_record_element name kw).
Proof. intros H N U. unfold new_record_element. through H. unfold good_ApplicationRecordElement. all_held. Qed.
Lemma fit_new_record_type v name kw : fit_keywords v kw -> fit_text name -> no_uuid kw -> gives good_ApplicationRecordDataType (new_record_type name kw).
Proof. intros H N U. unfold new_record_type. through H. unfold good_ApplicationRecordDataType. all_held. Qed.
Lemma fit_new_mapping_set v name kw : fit_keywords v kw -> fit_text name -> gives good_DataTypeMappingSet (new_mapping_set name kw).
Proof. intros H N. unfold new_mapping_set. through H. unfold good_DataTypeMappingSet. all_held. Qed.
Lemma fit_new_variable v name kw : fit_keywords v kw -> fit_text name -> gives good_VariableDataPrototype (new_variable name kw).
Proof. intros H N. unfold new_variable. through H. unfold good_VariableDataPrototype. all_held. Qed.
Lemma fit_new_parameter v name kw : fit_keywords v kw -> fit_text name -> gives good_ParameterDataPrototype (new_parameter name kw).
Proof. intros H N. unfold new_parameter. through H. unfold good_ParameterDataPrototype. all_held. Qed.
Lemma fit_new_argument v name direction kw : fit_keywords v kw -> fit_text name -> gives good_ArgumentDataPrototype (new_argument name direction kw).
Proof. intros H N. unfold new_argument. through H. unfold good_ArgumentDataPrototype. all_held. Qed.
Lemma fit_new_policy v kw : fit_keywords v kw -> gives good_InvalidationPolicy (new_policy kw).
Proof. intros H. unfold new_policy. through H. unfold good_InvalidationPolicy. all_held. Qed.
Lemma fit_new_sender_receiver_interface v name kw : fit_keywords v kw -> fit_text name -> no_uuid kw -> gives good_SenderReceiverInterface (new_sender_receiver_interface name kw).
Proof. intros H N U. unfold new_sender_receiver_interface. through H. unfold good_SenderReceiverInterface. all_held. Qed.
Lemma fit_new_nv_data_interface v name kw : fit_keywords v kw -> fit_text name -> no_uuid kw -> gives good_NvDataInterface (new_nv_data_interface name kw).
Proof. intros H N U. unfold new_nv_data_interface. through H. unfold good_NvDataInterface. all_held. Qed.
Lemma fit_new_parameter_interface v name kw : fit_keywords v kw -> fit_text name -> no_uuid kw -> gives good_ParameterInterface (new_parameter_interface name kw).
Proof. intros H N U. unfold new_parameter_interface. through H. unfold good_ParameterInterface. all_held. Qed.
Lemma fit_new_mode_switch_interface v name kw : fit_keywords v kw -> fit_text name -> no_uuid kw -> gives good_ModeSwitchInterface (new_mode_switch_interface name kw).
Proof. intros H N U. unfold new_mode_switch_interface. through H. unfold good_ModeSwitchInterface. all_held. Qed.
Lemma fit_new_application_error v name kw : fit_keywords v kw -> fit_text name -> no_uuid kw -> gives good_ApplicationError (new_application_error name kw).
Proof. intros H N U. unfold new_application_error. through H. unfold good_ApplicationError. all_held. Qed.
Lemma fit_new_operation v name kw : fit_keywords v kw -> fit_text name -> no_uuid kw -> gives good_ClientServerOperation (new_operation name kw).
Proof. intros H N U. unfold new_operation. through H. unfold good_ClientServerOperation. all_held. Qed.
Lemma fit_new_client_server_interface v name kw : fit_keywords v kw -> fit_text name -> no_uuid kw -> gives good_ClientServerInterface (new_client_server_interface name kw).
Proof. intros H N U. unfold new_client_server_interface. through H. unfold good_ClientServerInterface. all_held. Qed.
Lemma fit_new_group_prototype v name kw : fit_keywords v kw -> fit_text name -> gives good_ModeDeclarationGroupPrototype (new_group_prototype name kw).
Proof. intros H N. unfold new_group_prototype. through H. unfold good_ModeDeclarationGroupPrototype. all_held. Qed.
Lemma fit_new_mode v name kw : fit_keywords v kw -> fit_text name -> no_uuid kw -> gives good_ModeDeclaration (new_mode name kw).
Proof. intros H N U. unfold new_mode. through H. unfold good_ModeDeclaration. all_held. Qed.
Lemma fit_new_error_behavior v kw : fit_keywords v kw -> gives good_ModeErrorBehavior (new_error_behavior kw).
Proof. intros H. unfold new_error_behavior. through H. unfold good_ModeErrorBehavior. all_held. Qed.
Lemma fit_new_transition v name kw : fit_keywords v kw -> fit_text name -> no_uuid kw -> gives good_ModeTransition (new_transition name kw).
Proof. intros H N U. unfold new_transition. through H. unfold good_ModeTransition. all_held. Qed.
Lemma fit_new_mode_declaration_group v name kw : fit_keywords v kw -> fit_text name -> gives good_ModeDeclarationGroup (new_mode_declaration_group name kw).
Proof. intros H N. unfold new_mode_declaration_group. through H. unfold good_ModeDeclarationGroup. all_held. Qed.
Lemma fit_new_axis_cont v kw : fit_keywords v kw -> gives good_SwAxisCont (new_axis_cont kw).
Proof. intros H. unfold new_axis_cont. through H. unfold good_SwAxisCont. all_held. Qed.
Lemma fit_new_value_cont v kw : fit_keywords v kw -> gives good_SwValueCont (new_value_cont kw).
Proof. intros H. unfold new_value_cont. through H. unfold good_SwValueCont. all_held. Qed.
Lemma fit_new_constant v name kw : fit_keywords v kw -> fit_text name -> gives good_ConstantSpecification (new_constant name kw).
Proof. intros H N. unfold new_constant. through H. unfold good_ConstantSpecification. all_held. Qed.
Lemma fit_init_AutosarEngineeringObject v kw : fit_keywords v kw -> gives good_AutosarEngineeringObject (init_AutosarEngineeringObject kw).
Proof. intros H. unfold init_AutosarEngineeringObject. through H. unfold good_AutosarEngineeringObject. all_held. Qed.
Lemma fit_init_Code v name kw : fit_keywords v kw -> fit_text name -> gives good_Code (init_Code name kw).
Proof. intros H N. unfold init_Code. through H. unfold good_Code. all_held. Qed.
Lemma fit_init_SwcImplementation v name kw : fit_keywords v kw -> fit_text name -> no_uuid kw -> gives good_SwcImplementation (init_SwcImplementation name kw).
Proof. intros H N U. unfold init_SwcImplementation. through H. unfold good_SwcImplementation. all_held. Qed.
Lemma fit_init_ModeRequestTypeMap v kw : fit_keywords v kw -> gives good_ModeRequestTypeMap (init_ModeRequestTypeMap kw).
Proof. intros H. unfold init_ModeRequestTypeMap. through H. unfold good_ModeRequestTypeMap. all_held. Qed.
Lemma fit_init_E2EProfileCompatibilityProps v name kw : fit_keywords v kw -> fit_text name -> no_uuid kw -> gives good_E2EProfileCompatibilityProps (init_E2EProfileCompatibilityProps name kw).
Proof. intros H N U. unfold init_E2EProfileCompatibilityProps. through H. unfold good_E2EProfileCompatibilityProps. all_held. Qed.
Lemma fit_init_EndToEndTransformationComSpecProps v kw : fit_keywords v kw -> gives good_EndToEndTransformationComSpecProps (init_EndToEndTransformationComSpecProps kw).
Proof. intros H. unfold init_EndToEndTransformationComSpecProps. through H. unfold good_EndToEndTransformationComSpecProps. all_held. Qed.
Lemma fit_init_ModeSwitchedAckRequest v kw : fit_keywords v kw -> gives good_ModeSwitchedAckRequest (init_ModeSwitchedAckRequest kw).
Proof. intros H. unfold init_ModeSwitchedAckRequest. through H. unfold good_ModeSwitchedAckRequest. all_held. Qed.
Lemma fit_init_TransmissionAcknowledgementRequest v kw : fit_keywords v kw -> gives good_TransmissionAcknowledgementRequest (init_TransmissionAcknowledgementRequest kw).
Proof. intros H. unfold init_TransmissionAcknowledgementRequest. through H. unfold good_TransmissionAcknowledgementRequest. all_held. Qed.
Lemma fit_init_TransmissionComSpecProps v kw : fit_keywords v kw -> gives good_TransmissionComSpecProps (init_TransmissionComSpecProps kw).
Proof. intros H. unfold init_TransmissionComSpecProps. through H. unfold good_TransmissionComSpecProps. all_held. Qed.
Lemma fit_init_ReceptionComSpecProps v kw : fit_keywords v kw -> gives good_ReceptionComSpecProps (init_ReceptionComSpecProps kw).
Proof. intros H. unfold init_ReceptionComSpecProps. through H. unfold good_ReceptionComSpecProps. all_held. Qed.
Lemma fit_init_QueuedSenderComSpec v kw : fit_keywords v kw -> gives good_QueuedSenderComSpec (init_QueuedSenderComSpec kw).
Proof. intros H. unfold init_QueuedSenderComSpec. through H. unfold good_QueuedSenderComSpec. all_held. Qed.
Lemma fit_init_NonqueuedSenderComSpec v kw : fit_keywords v kw -> gives good_NonqueuedSenderComSpec (init_NonqueuedSenderComSpec kw).
Proof. intros H. unfold init_NonqueuedSenderComSpec. through H. unfold good_NonqueuedSenderComSpec. all_held. Qed.
Lemma fit_init_ModeSwitchSenderComSpec v kw : fit_keywords v kw -> gives good_ModeSwitchSenderComSpec (init_ModeSwitchSenderComSpec kw).
Proof. intros H. unfold init_ModeSwitchSenderComSpec. through H. unfold good_ModeSwitchSenderComSpec. all_held. Qed.
Lemma fit_init_NvProvideComSpec v kw : fit_keywords v kw -> gives good_NvProvideComSpec (init_NvProvideComSpec kw).
Proof. intros H. unfold init_NvProvideComSpec. through H. unfold good_NvProvideComSpec. all_held. Qed.
Lemma fit_init_ParameterProvideComSpec v kw : fit_keywords v kw -> gives good_ParameterProvideComSpec (init_ParameterProvideComSpec kw).
Proof. intros H. unfold init_ParameterProvideComSpec. through H. unfold good_ParameterProvideComSpec. all_held. Qed.
Lemma fit_init_ServerComSpec v kw : fit_keywords v kw -> gives good_ServerComSpec (init_ServerComSpec kw).
Proof. intros H. unfold init_ServerComSpec. through H. unfold good_ServerComSpec. all_held. Qed.
Lemma fit_init_QueuedReceiverComSpec v kw : fit_keywords v kw -> gives good_QueuedReceiverComSpec (init_QueuedReceiverComSpec kw).
Proof. intros H. unfold init_QueuedReceiverComSpec. through H. unfold good_QueuedReceiverComSpec. all_held. Qed.
Lemma fit_init_NonqueuedReceiverComSpec v kw : fit_keywords v kw -> gives good_NonqueuedReceiverComSpec (init_NonqueuedReceiverComSpec kw).
Proof. intros H. unfold init_NonqueuedReceiverComSpec. through H. unfold good_NonqueuedReceiverComSpec. all_held. Qed.
Lemma fit_init_NvRequireComSpec v kw : fit_keywords v kw -> gives good_NvRequireComSpec (init_NvRequireComSpec kw).
Proof. intros H. unfold init_NvRequireComSpec. through H. unfold good_NvRequireComSpec. all_held. Qed.
Lemma fit_init_ParameterRequireComSpec v kw : fit_keywords v kw -> gives good_ParameterRequireComSpec (init_ParameterRequireComSpec kw).
Proof. intros H. unfold init_ParameterRequireComSpec. through H. unfold good_ParameterRequireComSpec. all_held. Qed.
Lemma fit_init_ModeSwitchReceiverComSpec v kw : fit_keywords v kw -> gives good_ModeSwitchReceiverComSpec (init_ModeSwitchReceiverComSpec kw).
Proof. intros H. unfold init_ModeSwitchReceiverComSpec. through H. unfold good_ModeSwitchReceiverComSpec. all_held. Qed.
Lemma fit_init_ClientComSpec v kw : fit_keywords v kw -> gives good_ClientComSpec (init_ClientComSpec kw).
Proof. intros H. unfold init_ClientComSpec. through H. unfold good_ClientComSpec. all_held. Qed.
Lemma fit_init_POperationInAtomicSwcInstanceRef v kw : fit_keywords v kw -> gives good_POperationInAtomicSwcInstanceRef (init_POperationInAtomicSwcInstanceRef kw).
Proof. intros H. unfold init_POperationInAtomicSwcInstanceRef. through H. unfold good_POperationInAtomicSwcInstanceRef. all_held. Qed.
Lemma fit_init_PModeGroupInAtomicSwcInstanceRef v kw : fit_keywords v kw -> gives good_PModeGroupInAtomicSwcInstanceRef (init_PModeGroupInAtomicSwcInstanceRef kw).
Proof. intros H. unfold init_PModeGroupInAtomicSwcInstanceRef. through H. unfold good_PModeGroupInAtomicSwcInstanceRef. all_held. Qed.
Lemma fit_init_PTriggerInAtomicSwcTypeInstanceRef v kw : fit_keywords v kw -> gives good_PTriggerInAtomicSwcTypeInstanceRef (init_PTriggerInAtomicSwcTypeInstanceRef kw).
Proof. intros H. unfold init_PTriggerInAtomicSwcTypeInstanceRef. through H. unfold good_PTriggerInAtomicSwcTypeInstanceRef. all_held. Qed.
Lemma fit_init_ROperationInAtomicSwcInstanceRef v kw : fit_keywords v kw -> gives good_ROperationInAtomicSwcInstanceRef (init_ROperationInAtomicSwcInstanceRef kw).
Proof. intros H. unfold init_ROperationInAtomicSwcInstanceRef. through H. unfold good_ROperationInAtomicSwcInstanceRef. all_held. Qed.
Lemma fit_init_RModeInAtomicSwcInstanceRef v kw : fit_keywords v kw -> gives good_RModeInAtomicSwcInstanceRef (init_RModeInAtomicSwcInstanceRef kw).
Proof. intros H. unfold init_RModeInAtomicSwcInstanceRef. through H. unfold good_RModeInAtomicSwcInstanceRef. all_held. Qed.
Lemma fit_init_RModeGroupInAtomicSwcInstanceRef v kw : fit_keywords v kw -> gives good_RModeGroupInAtomicSwcInstanceRef (init_RModeGroupInAtomicSwcInstanceRef kw).
Proof. intros H. unfold init_RModeGroupInAtomicSwcInstanceRef. through H. unfold good_RModeGroupInAtomicSwcInstanceRef. all_held. Qed.
Lemma fit_init_RVariableInAtomicSwcInstanceRef v kw : fit_keywords v kw -> gives good_RVariableInAtomicSwcInstanceRef (init_RVariableInAtomicSwcInstanceRef kw).
Proof. intros H. unfold init_RVariableInAtomicSwcInstanceRef. through H. unfold good_RVariableInAtomicSwcInstanceRef. all_held. Qed.
Lemma fit_init_RTriggerInAtomicSwcInstanceRef v kw : fit_keywords v kw -> gives good_RTriggerInAtomicSwcInstanceRef (init_RTriggerInAtomicSwcInstanceRef kw).
Proof. intros H. unfold init_RTriggerInAtomicSwcInstanceRef. through H. unfold good_RTriggerInAtomicSwcInstanceRef. all_held. Qed.
Lemma fit_init_ArVariableInImplementationDataInstanceRef v kw : fit_keywords v kw -> gives good_ArVariableInImplementationDataInstanceRef (init_ArVariableInImplementationDataInstanceRef kw).
Proof. intros H. unfold init_ArVariableInImplementationDataInstanceRef. through H. unfold good_ArVariableInImplementationDataInstanceRef. all_held. Qed.
Lemma fit_init_VariableInAtomicSWCTypeInstanceRef v kw : fit_keywords v kw -> gives good_VariableInAtomicSWCTypeInstanceRef (init_VariableInAtomicSWCTypeInstanceRef kw).
Proof. intros H. unfold init_VariableInAtomicSWCTypeInstanceRef. through H. unfold good_VariableInAtomicSWCTypeInstanceRef. all_held. Qed.
Lemma fit_init_AutosarVariableRef v kw : fit_keywords v kw -> gives good_AutosarVariableRef (init_AutosarVariableRef kw).
Proof. intros H. unfold init_AutosarVariableRef. through H. unfold good_AutosarVariableRef. all_held. Qed.
Lemma fit_init_ParameterInAtomicSwcTypeInstanceRef v kw : fit_keywords v kw -> gives good_ParameterInAtomicSwcTypeInstanceRef (init_ParameterInAtomicSwcTypeInstanceRef kw).
Proof. intros H. unfold init_ParameterInAtomicSwcTypeInstanceRef. through H. unfold good_ParameterInAtomicSwcTypeInstanceRef. all_held. Qed.
Lemma fit_init_AutosarParameterRef v kw : fit_keywords v kw -> gives good_AutosarParameterRef (init_AutosarParameterRef kw).
Proof. intros H. unfold init_AutosarParameterRef. through H. unfold good_AutosarParameterRef. all_held. Qed.
Lemma fit_init_VariableAccess v name kw : fit_keywords v kw -> fit_text name -> no_uuid kw -> gives good_VariableAccess (init_VariableAccess name kw).
Proof. intros H N U. unfold init_VariableAccess. through H. unfold good_VariableAccess. all_held. Qed.
Lemma fit_init_ExecutableEntityActivationReason v name kw : fit_keywords v kw -> fit_text name -> gives good_ExecutableEntityActivationReason (init_ExecutableEntityActivationReason name kw).
Proof. intros H N. unfold init_ExecutableEntityActivationReason. through H. unfold good_ExecutableEntityActivationReason. all_held. Qed.
Lemma fit_init_ExclusiveAreaRefConditional v kw : fit_keywords v kw -> gives good_ExclusiveAreaRefConditional (init_ExclusiveAreaRefConditional kw).
Proof. intros H. unfold init_ExclusiveAreaRefConditional. through H. unfold good_ExclusiveAreaRefConditional. all_held. Qed.
Lemma fit_init_RunnableEntityArgument v kw : fit_keywords v kw -> gives good_RunnableEntityArgument (init_RunnableEntityArgument kw).
Proof. intros H. unfold init_RunnableEntityArgument. through H. unfold good_RunnableEntityArgument. all_held. Qed.
Lemma fit_init_AsynchronousServerCallPoint v name kw : fit_keywords v kw -> fit_text name -> no_uuid kw -> gives good_AsynchronousServerCallPoint (init_AsynchronousServerCallPoint name kw).
Proof. intros H N U. unfold init_AsynchronousServerCallPoint. through H. unfold good_AsynchronousServerCallPoint. all_held. Qed.
Lemma fit_init_AsynchronousServerCallResultPoint v name kw : fit_keywords v kw -> fit_text name -> no_uuid kw -> gives good_AsynchronousServerCallResultPoint (init_AsynchronousServerCallResultPoint name kw).
Proof. intros H N U. unfold init_AsynchronousServerCallResultPoint. through H. unfold good_AsynchronousServerCallResultPoint. all_held. Qed.
Lemma fit_init_SynchronousServerCallPoint v name kw : fit_keywords v kw -> fit_text name -> no_uuid kw -> gives good_SynchronousServerCallPoint (init_SynchronousServerCallPoint name kw).
Proof. intros H N U. unfold init_SynchronousServerCallPoint. through H. unfold good_SynchronousServerCallPoint. all_held. Qed.
Lemma fit_init_ExternalTriggeringPointIdent v name kw : fit_keywords v kw -> fit_text name -> no_uuid kw -> gives good_ExternalTriggeringPointIdent (init_ExternalTriggeringPointIdent name kw).
Proof. intros H N U. unfold init_ExternalTriggeringPointIdent. through H. unfold good_ExternalTriggeringPointIdent. all_held. Qed.
Lemma fit_init_ExternalTriggeringPoint v kw : fit_keywords v kw -> gives good_ExternalTriggeringPoint (init_ExternalTriggeringPoint kw).
Proof. intros H. unfold init_ExternalTriggeringPoint. through H. unfold good_ExternalTriggeringPoint. all_held. Qed.
Lemma fit_init_InternalTriggeringPoint v name kw : fit_keywords v kw -> fit_text name -> no_uuid kw -> gives good_InternalTriggeringPoint (init_InternalTriggeringPoint name kw).
Proof. intros H N U. unfold init_InternalTriggeringPoint. through H. unfold good_InternalTriggeringPoint. all_held. Qed.
Lemma fit_init_ModeAccessPointIdent v name kw : fit_keywords v kw -> fit_text name -> no_uuid kw -> gives good_ModeAccessPointIdent (init_ModeAccessPointIdent name kw).
Proof. intros H N U. unfold init_ModeAccessPointIdent. through H. unfold good_ModeAccessPointIdent. all_held. Qed.
Lemma fit_init_ModeAccessPoint v kw : fit_keywords v kw -> gives good_ModeAccessPoint (init_ModeAccessPoint kw).
Proof. intros H. unfold init_ModeAccessPoint. through H. unfold good_ModeAccessPoint. all_held. Qed.
Lemma fit_init_ModeSwitchPoint v name kw : fit_keywords v kw -> fit_text name -> no_uuid kw -> gives good_ModeSwitchPoint (init_ModeSwitchPoint name kw).
Proof. intros H N U. unfold init_ModeSwitchPoint. through H. unfold good_ModeSwitchPoint. all_held. Qed.
Lemma fit_init_ParameterAccess v name kw : fit_keywords v kw -> fit_text name -> no_uuid kw -> gives good_ParameterAccess (init_ParameterAccess name kw).
Proof. intros H N U. unfold init_ParameterAccess. through H. unfold good_ParameterAccess. all_held. Qed.
Lemma fit_init_WaitPoint v name kw : fit_keywords v kw -> fit_text name -> no_uuid kw -> gives good_WaitPoint (init_WaitPoint name kw).
Proof. intros H N U. unfold init_WaitPoint. through H. unfold good_WaitPoint. all_held. Qed.
Lemma fit_init_AsynchronousServerCallReturnsEvent v name kw : fit_keywords v kw -> fit_text name -> no_uuid kw -> gives good_AsynchronousServerCallReturnsEvent (init_AsynchronousServerCallReturnsEvent name kw).
Proof. intros H N U. unfold init_AsynchronousServerCallReturnsEvent. through H. unfold good_AsynchronousServerCallReturnsEvent. all_held. Qed.
Lemma fit_init_BackgroundEvent v name kw : fit_keywords v kw -> fit_text name -> no_uuid kw -> gives good_BackgroundEvent (init_BackgroundEvent name kw).
Proof. intros H N U. unfold init_BackgroundEvent. through H. unfold good_BackgroundEvent. all_held. Qed.
Lemma fit_init_DataReceiveErrorEvent v name kw : fit_keywords v kw -> fit_text name -> no_uuid kw -> gives good_DataReceiveErrorEvent (init_DataReceiveErrorEvent name kw).
Proof. intros H N U. unfold init_DataReceiveErrorEvent. through H. unfold good_DataReceiveErrorEvent. all_held. Qed.
Lemma fit_make_DataReceiveErrorEvent v name kw : fit_keywords v kw -> fit_text name -> no_uuid kw -> gives good_DataReceiveErrorEvent (make_DataReceiveErrorEvent name kw).
Proof. intros H N U. unfold make_DataReceiveErrorEvent. through H. unfold good_DataReceiveErrorEvent. splits; try held; repeat split; held. Qed.
Lemma fit_init_DataReceivedEvent v name kw : fit_keywords v kw -> fit_text name -> no_uuid kw -> gives good_DataReceivedEvent (init_DataReceivedEvent name kw).
Proof. intros H N U. unfold init_DataReceivedEvent. through H. unfold good_DataReceivedEvent. all_held. Qed.
Lemma fit_make_DataReceivedEvent v name kw : fit_keywords v kw -> fit_text name -> no_uuid kw -> gives good_DataReceivedEvent (make_DataReceivedEvent name kw).
Proof. intros H N U. unfold make_DataReceivedEvent. through H. unfold good_DataReceivedEvent. splits; try held; repeat split; held. Qed.
Lemma fit_init_DataSendCompletedEvent v name kw : fit_keywords v kw -> fit_text name -> no_uuid kw -> gives good_DataSendCompletedEvent (init_DataSendCompletedEvent name kw).
Proof. intros H N U. unfold init_DataSendCompletedEvent. through H. unfold good_DataSendCompletedEvent. all_held. Qed.
Lemma fit_init_DataWriteCompletedEvent v name kw : fit_keywords v kw -> fit_text name -> no_uuid kw -> gives good_DataWriteCompletedEvent (init_DataWriteCompletedEvent name kw).
Proof. intros H N U. unfold init_DataWriteCompletedEvent. through H. unfold good_DataWriteCompletedEvent. all_held. Qed.
Lemma fit_init_ExternalTriggerOccurredEvent v name kw : fit_keywords v kw -> fit_text name -> no_uuid kw -> gives good_ExternalTriggerOccurredEvent (init_ExternalTriggerOccurredEvent name kw).
Proof. intros H N U. unfold init_ExternalTriggerOccurredEvent. through H. unfold good_ExternalTriggerOccurredEvent. all_held. Qed.
Lemma fit_make_ExternalTriggerOccurredEvent v name kw : fit_keywords v kw -> fit_text name -> no_uuid kw -> gives good_ExternalTriggerOccurredEvent (make_ExternalTriggerOccurredEvent name kw).
Proof. intros H N U. unfold make_ExternalTriggerOccurredEvent. through H. unfold good_ExternalTriggerOccurredEvent. splits; try held; repeat split; held. Qed.
Lemma fit_init_InitEvent v name kw : fit_keywords v kw -> fit_text name -> no_uuid kw -> gives good_InitEvent (init_InitEvent name kw).
Proof. intros H N U. unfold init_InitEvent. through H. unfold good_InitEvent. all_held. Qed.
Lemma fit_init_InternalTriggerOccurredEvent v name kw : fit_keywords v kw -> fit_text name -> no_uuid kw -> gives good_InternalTriggerOccurredEvent (init_InternalTriggerOccurredEvent name kw).
Proof. intros H N U. unfold init_InternalTriggerOccurredEvent. through H. unfold good_InternalTriggerOccurredEvent. all_held. Qed.
Lemma fit_init_ModeSwitchedAckEvent v name kw : fit_keywords v kw -> fit_text name -> no_uuid kw -> gives good_ModeSwitchedAckEvent (init_ModeSwitchedAckEvent name kw).
Proof. intros H N U. unfold init_ModeSwitchedAckEvent. through H. unfold good_ModeSwitchedAckEvent. all_held. Qed.
Lemma fit_init_OperationInvokedEvent v name kw : fit_keywords v kw -> fit_text name -> no_uuid kw -> gives good_OperationInvokedEvent (init_OperationInvokedEvent name kw).
Proof. intros H N U. unfold init_OperationInvokedEvent. through H. unfold good_OperationInvokedEvent. all_held. Qed.
Lemma fit_make_OperationInvokedEvent v name kw : fit_keywords v kw -> fit_text name -> no_uuid kw -> gives good_OperationInvokedEvent (make_OperationInvokedEvent name kw).
Proof. intros H N U. unfold make_OperationInvokedEvent. through H. unfold good_OperationInvokedEvent. splits; try held; repeat split; held. Qed.
Lemma fit_init_SwcModeManagerErrorEvent v name kw : fit_keywords v kw -> fit_text name -> no_uuid kw -> gives good_SwcModeManagerErrorEvent (init_SwcModeManagerErrorEvent name kw).
Proof. intros H N U. unfold init_SwcModeManagerErrorEvent. through H. unfold good_SwcModeManagerErrorEvent. all_held. Qed.
Lemma fit_make_SwcModeManagerErrorEvent v name kw : fit_keywords v kw -> fit_text name -> no_uuid kw -> gives good_SwcModeManagerErrorEvent (make_SwcModeManagerErrorEvent name kw).
Proof. intros H N U. unfold make_SwcModeManagerErrorEvent. through H. unfold good_SwcModeManagerErrorEvent. splits; try held; repeat split; held. Qed.
Lemma fit_init_SwcModeSwitchEvent v name kw : fit_keywords v kw -> fit_text name -> no_uuid kw -> gives good_SwcModeSwitchEvent (init_SwcModeSwitchEvent name kw).
Proof. intros H N U. unfold init_SwcModeSwitchEvent. through H. unfold good_SwcModeSwitchEvent. all_held. Qed.
Lemma fit_make_SwcModeSwitchEvent v name kw : fit_keywords v kw -> fit_text name -> no_uuid kw -> gives good_SwcModeSwitchEvent (make_SwcModeSwitchEvent name kw).
Proof. intros H N U. unfold make_SwcModeSwitchEvent. through H. unfold good_SwcModeSwitchEvent. splits; try held; repeat split; held. Qed.
Lemma fit_init_TimingEvent v name kw : fit_keywords v kw -> fit_text name -> no_uuid kw -> gives good_TimingEvent (init_TimingEvent name kw).
Proof. intros H N U. unfold init_TimingEvent. through H. unfold good_TimingEvent. all_held. Qed.
Lemma fit_init_TransformerHardErrorEvent v name kw : fit_keywords v kw -> fit_text name -> no_uuid kw -> gives good_TransformerHardErrorEvent (init_TransformerHardErrorEvent name kw).
Proof. intros H N U. unfold init_TransformerHardErrorEvent. through H. unfold good_TransformerHardErrorEvent. all_held. Qed.
Lemma fit_init_PortDefinedArgumentValue v kw : fit_keywords v kw -> gives good_PortDefinedArgumentValue (init_PortDefinedArgumentValue kw).
Proof. intros H. unfold init_PortDefinedArgumentValue. through H. unfold good_PortDefinedArgumentValue. all_held. Qed.
Lemma fit_init_CommunicationBufferLocking v kw : fit_keywords v kw -> gives good_CommunicationBufferLocking (init_CommunicationBufferLocking kw).
Proof. intros H. unfold init_CommunicationBufferLocking. through H. unfold good_CommunicationBufferLocking. all_held. Qed.
Lemma fit_init_PortApiOption v kw : fit_keywords v kw -> gives good_PortApiOption (init_PortApiOption kw).
Proof. intros H. unfold init_PortApiOption. through H. unfold good_PortApiOption. all_held. Qed.
Lemma fit_init_ProvidePortPrototype v name kw : fit_keywords v kw -> fit_text name -> no_uuid kw -> gives good_ProvidePortPrototype (init_ProvidePortPrototype name kw).
Proof. intros H N U. unfold init_ProvidePortPrototype. through H. unfold good_ProvidePortPrototype. all_held. Qed.
Lemma fit_init_RequirePortPrototype v name kw : fit_keywords v kw -> fit_text name -> no_uuid kw -> gives good_RequirePortPrototype (init_RequirePortPrototype name kw).
Proof. intros H N U. unfold init_RequirePortPrototype. through H. unfold good_RequirePortPrototype. all_held. Qed.
Lemma fit_init_SwComponentPrototype v name kw : fit_keywords v kw -> fit_text name -> no_uuid kw -> gives good_SwComponentPrototype (init_SwComponentPrototype name kw).
Proof. intros H N U. unfold init_SwComponentPrototype. through H. unfold good_SwComponentPrototype. all_held. Qed.
Lemma fit_init_PassThroughSwConnector v name kw : fit_keywords v kw -> fit_text name -> no_uuid kw -> gives good_PassThroughSwConnector (init_PassThroughSwConnector name kw).
Proof. intros H N U. unfold init_PassThroughSwConnector. through H. unfold good_PassThroughSwConnector. all_held. Qed.
Lemma fit_init_ApplicationSoftwareComponentType v name kw : fit_keywords v kw -> fit_text name -> no_uuid kw -> gives (good_ApplicationSoftwareComponentType v) (init_ApplicationSoftwareComponentType name kw).
Proof. intros H N U. unfold init_ApplicationSoftwareComponentType. through H. unfold good_ApplicationSoftwareComponentType. all_held. Qed.
Lemma fit_init_CompositionSwComponentType v name kw : fit_keywords v kw -> fit_text name -> no_uuid kw -> gives good_CompositionSwComponentType (init_CompositionSwComponentType name kw).
Proof. intros H N U. unfold init_CompositionSwComponentType. through H. unfold good_CompositionSwComponentType. all_held. Qed.
