(** Proofs for SSave: the writer of each class succeeds exactly on what is savable. *)
From Verif Require Import Base MNum SNum MXml SXml MEnum MRefTab MRef SEnum MCodec SCodec MElem0 MElem1 MElemA MElemB MElemC MElem2 MElemD MElem3 MElem4 MElemE MElem5 MElemF MArxml PEnum PPiece PElemA PElemB PRef PElemC PArxml PFind SSave0 PSave0 SSave.

Create HintDb saves discriminated. #[export] Hint Constants Opaque : saves. #[export] Hint Variables Opaque : saves.
Create HintDb saves_eq discriminated. #[export] Hint Constants Opaque : saves_eq. #[export] Hint Variables Opaque : saves_eq.
Ltac wtrue :=
  cbv beta;
  lazymatch goal with
  | |- W (Ok _) => apply W_ok
  | |- W (empty _) => apply W_empty
  | |- W (cat []) => apply W_nil
  | |- W (cat (_ :: _)) => apply W_cons; wtrue
  | |- W (node _ _ _) => apply W_node; wtrue
  | |- W (if_set _ _) => apply W_set; intro; wtrue
  | |- W (if_some _ _) => apply W_some; wtrue
  | |- W (for_each _ _) => apply W_each; intro; wtrue
  | |- W (content _ _) => apply W_content; wtrue
  | |- W (write_ref _ _) => apply W_ref
  | |- W (write_admin_data _) => apply W_ok
  | |- W (write_referrable _) => apply W_referrable
  | |- W (enum_text _ _) => apply W_enum; solve [auto with enums]
  | |- W (if _ then _ else _) => apply W_if; wtrue
  | |- W _ => solve [auto with saves nocore]
  end.
(** The enumeration of service kinds has no texts. *)
Lemma We_service_kind o tag : W (if_set o (fun a => content tag (enum_text em_ServiceKind a))) <-> o = None.
Proof.
  destruct o as [a|]; [|split; intros; [reflexivity|apply W_ok]]. split; [|discriminate]. intros H.
  apply (proj1 (We_content _ _ _ (iff_refl _))) in H. destruct a; now apply W_err in H.
Qed.
Ltac weq :=
  cbv beta;
  lazymatch goal with
  | |- W (cat []) <-> _ => apply We_nil
  | |- W (cat (write_referrable _ :: write_multilanguage_referrable _ :: _)) <-> _ => eapply We_ident; weq
  | |- W (cat (_ :: _)) <-> _ => first [eapply We_cons_true; [solve [wtrue]|]|eapply We_cons; [solve [weq]|]]; weq
  | |- W (node _ _ _) <-> _ => eapply We_node; weq
  | |- W (if_set _ (fun a => content _ (enum_text em_ServiceKind a))) <-> _ => apply We_service_kind
  | |- W (if_set _ _) <-> _ => eapply We_set; let a := fresh in intro a; weq
  | |- W (if_some _ _) <-> _ => eapply We_some; weq
  | |- W (for_each _ _) <-> _ => eapply We_each; let a := fresh in intro a; weq
  | |- W (content _ _) <-> _ => eapply We_content; weq
  | |- W (write_langs _ "L-4" _) <-> _ => apply We_long_name
  | |- W (write_langs _ "L-2" _) <-> _ => apply We_paragraph
  | |- W (write_unit_names _ _) <-> _ => apply We_names
  | |- W (write_doc _ _) <-> _ => apply We_doc
  | |- W (write_annotations _) <-> _ => apply We_annotations
  | |- W (format_float _) <-> _ => apply We_float
  | |- W (format_number _) <-> _ => apply We_number
  | |- W (format_any _) <-> _ => apply We_any
  | |- _ => solve [eauto with saves_eq nocore]
  end.
Ltac empties :=
  let E := fresh in intros E;
  repeat match goal with H : (_ && _)%bool = true |- _ => apply andb_prop in H as [? ?] end;
  repeat match goal with
         | H : unset ?o = true |- _ => destruct o; [discriminate H|clear H]
         | H : no_items ?o = true |- _ => destruct o; [clear H|discriminate H]
         end; cbn; tauto.

Lemma We_Unit v e : W (write_unit v e) <-> savable_Unit e.
Proof. unfold write_unit, write_unit_group, savable_Unit. eapply iff_trans; [weq|]. tauto. Qed.
#[export] Hint Resolve We_Unit : saves_eq.
Lemma W_DataFilter v tag e : W (write_data_filter v tag e).
Proof. unfold write_data_filter, write_data_filter_group. wtrue. Qed.
#[export] Hint Resolve W_DataFilter : saves.
Lemma W_AutosarEngineeringObject v tag e : W (write_autosar_engineering_object v tag e).
Proof. unfold write_autosar_engineering_object, write_engineering_object. wtrue. Qed.
#[export] Hint Resolve W_AutosarEngineeringObject : saves.
Lemma We_Code v e : W (write_code v e) <-> savable_Code e.
Proof. unfold write_code, savable_Code. eapply iff_trans; [weq|]. tauto. Qed.
#[export] Hint Resolve We_Code : saves_eq.
Lemma We_SwBaseType v e : W (write_sw_base_type v e) <-> savable_SwBaseType e.
Proof. unfold write_sw_base_type, write_base_type, savable_SwBaseType. eapply iff_trans; [weq|]. tauto. Qed.
#[export] Hint Resolve We_SwBaseType : saves_eq.
Lemma W_SwBitRepresentation v e : W (write_sw_bit_represenation v e).
Proof. unfold write_sw_bit_represenation. wtrue. Qed.
#[export] Hint Resolve W_SwBitRepresentation : saves.
Lemma W_SwTextProps v e : W (write_sw_text_props v e).
Proof. unfold write_sw_text_props. wtrue. Qed.
#[export] Hint Resolve W_SwTextProps : saves.
Lemma W_SymbolProps v tag e : W (write_symbol_props v tag e).
Proof. unfold write_symbol_props, write_implementation_props. wtrue. Qed.
#[export] Hint Resolve W_SymbolProps : saves.
Lemma W_DataTypeMap v e : W (write_data_type_map v e).
Proof. unfold write_data_type_map. wtrue. Qed.
#[export] Hint Resolve W_DataTypeMap : saves.
Lemma We_DataTypeMappingSet v e : W (write_data_type_mapping_set v e) <-> savable_DataTypeMappingSet e.
Proof. unfold write_data_type_mapping_set, savable_DataTypeMappingSet. eapply iff_trans; [weq|]. tauto. Qed.
#[export] Hint Resolve We_DataTypeMappingSet : saves_eq.
Lemma W_ModeRequestTypeMap v e : W (write_mode_request_type_map v e).
Proof. unfold write_mode_request_type_map. wtrue. Qed.
#[export] Hint Resolve W_ModeRequestTypeMap : saves.
Lemma We_ModeDeclaration v e : W (write_mode_declaration v e) <-> savable_ModeDeclaration e.
Proof. unfold write_mode_declaration, savable_ModeDeclaration. eapply iff_trans; [weq|]. tauto. Qed.
#[export] Hint Resolve We_ModeDeclaration : saves_eq.
Lemma W_ModeErrorBehavior v tag e : W (write_mode_error_behavior v tag e).
Proof. unfold write_mode_error_behavior. wtrue. Qed.
#[export] Hint Resolve W_ModeErrorBehavior : saves.
Lemma We_ModeTransition v e : W (write_mode_transition v e) <-> savable_ModeTransition e.
Proof. unfold write_mode_transition, write_mode_transition_group, savable_ModeTransition. eapply iff_trans; [weq|]. tauto. Qed.
#[export] Hint Resolve We_ModeTransition : saves_eq.
Lemma We_ModeDeclarationGroupPrototype v tag e : W (write_mode_declaration_group_prototype v tag e) <-> savable_ModeDeclarationGroupPrototype e.
Proof. unfold write_mode_declaration_group_prototype, write_mode_declaration_group_prototype_data, savable_ModeDeclarationGroupPrototype. eapply iff_trans; [weq|]. tauto. Qed.
#[export] Hint Resolve We_ModeDeclarationGroupPrototype : saves_eq.
Lemma W_InvalidationPolicy v e : W (write_invalidation_policy v e).
Proof. unfold write_invalidation_policy, write_invalidation_policy_group. wtrue. Qed.
#[export] Hint Resolve W_InvalidationPolicy : saves.
Lemma We_ApplicationError v e : W (write_application_error v e) <-> savable_ApplicationError e.
Proof. unfold write_application_error, write_application_error_group, savable_ApplicationError. eapply iff_trans; [weq|]. tauto. Qed.
#[export] Hint Resolve We_ApplicationError : saves_eq.
Lemma We_ModeSwitchInterface v e : W (write_mode_switch_interface v e) <-> savable_ModeSwitchInterface e.
Proof. unfold write_mode_switch_interface, write_port_interface, savable_ModeSwitchInterface. eapply iff_trans; [weq|]. tauto. Qed.
#[export] Hint Resolve We_ModeSwitchInterface : saves_eq.
Lemma We_EndToEndTransformationComSpecProps v e : W (write_e2e_transformation_com_spec_props v e) <-> savable_EndToEndTransformationComSpecProps e.
Proof. unfold write_e2e_transformation_com_spec_props, write_describable, write_e2e_transformation_com_spec_props_group, savable_EndToEndTransformationComSpecProps. apply We_if; [intros; apply W_empty|unfold EndToEndTransformationComSpecProps_is_empty; empties|]. eapply iff_trans; [weq|]. tauto. Qed.
#[export] Hint Resolve We_EndToEndTransformationComSpecProps : saves_eq.
Lemma We_E2EProfileCompatibilityProps v e : W (write_e2e_profile_compatibility_props v e) <-> savable_E2EProfileCompatibilityProps e.
Proof. unfold write_e2e_profile_compatibility_props, savable_E2EProfileCompatibilityProps. eapply iff_trans; [weq|]. tauto. Qed.
#[export] Hint Resolve We_E2EProfileCompatibilityProps : saves_eq.
Lemma We_ModeSwitchedAckRequest v e : W (write_mode_switched_ack_request v e) <-> savable_ModeSwitchedAckRequest e.
Proof. unfold write_mode_switched_ack_request, savable_ModeSwitchedAckRequest. apply We_if; [intros; apply W_empty|unfold ModeSwitchedAckRequest_is_empty; empties|]. eapply iff_trans; [weq|]. tauto. Qed.
#[export] Hint Resolve We_ModeSwitchedAckRequest : saves_eq.
Lemma We_ModeSwitchSenderComSpec v e : W (write_mode_switch_sender_com_spec v e) <-> savable_ModeSwitchSenderComSpec e.
Proof. unfold write_mode_switch_sender_com_spec, write_mode_switch_sender_com_spec_group, savable_ModeSwitchSenderComSpec. apply We_if; [intros; apply W_empty|unfold ModeSwitchSenderComSpec_is_empty; empties|]. eapply iff_trans; [weq|]. tauto. Qed.
#[export] Hint Resolve We_ModeSwitchSenderComSpec : saves_eq.
Lemma We_TransmissionAcknowledgementRequest v e : W (write_transmission_acknowledgement_request v e) <-> savable_TransmissionAcknowledgementRequest e.
Proof. unfold write_transmission_acknowledgement_request, savable_TransmissionAcknowledgementRequest. apply We_if; [intros; apply W_empty|unfold TransmissionAcknowledgementRequest_is_empty; empties|]. eapply iff_trans; [weq|]. tauto. Qed.
#[export] Hint Resolve We_TransmissionAcknowledgementRequest : saves_eq.
Lemma We_TransmissionComSpecProps v e : W (write_tranmsission_com_spec_props v e) <-> savable_TransmissionComSpecProps e.
Proof. unfold write_tranmsission_com_spec_props, savable_TransmissionComSpecProps. apply We_if; [intros; apply W_empty|unfold TransmissionComSpecProps_is_empty; empties|]. eapply iff_trans; [weq|]. tauto. Qed.
#[export] Hint Resolve We_TransmissionComSpecProps : saves_eq.
Lemma We_ServerComSpec v e : W (write_server_com_spec v e) <-> savable_ServerComSpec e.
Proof. unfold write_server_com_spec, savable_ServerComSpec. apply We_if; [intros; apply W_empty|unfold ServerComSpec_is_empty; empties|]. eapply iff_trans; [weq|]. tauto. Qed.
#[export] Hint Resolve We_ServerComSpec : saves_eq.
Lemma W_ModeSwitchReceiverComSpec v e : W (write_mode_switch_receiver_com_spec v e).
Proof. unfold write_mode_switch_receiver_com_spec. wtrue. Qed.
#[export] Hint Resolve W_ModeSwitchReceiverComSpec : saves.
Lemma We_ClientComSpec v e : W (write_client_com_spec v e) <-> savable_ClientComSpec e.
Proof. unfold write_client_com_spec, savable_ClientComSpec. apply We_if; [intros; apply W_empty|unfold ClientComSpec_is_empty; empties|]. eapply iff_trans; [weq|]. tauto. Qed.
#[export] Hint Resolve We_ClientComSpec : saves_eq.
Lemma We_PassThroughSwConnector v e : W (write_passthrough_sw_connector v e) <-> savable_PassThroughSwConnector e.
Proof. unfold write_passthrough_sw_connector, savable_PassThroughSwConnector. eapply iff_trans; [weq|]. tauto. Qed.
#[export] Hint Resolve We_PassThroughSwConnector : saves_eq.
Lemma We_SwcImplementation v e : W (write_swc_implementation v e) <-> savable_SwcImplementation e.
Proof. unfold write_swc_implementation, write_implementtion, write_swc_implementation_group, savable_SwcImplementation. eapply iff_trans; [weq|]. tauto. Qed.
#[export] Hint Resolve We_SwcImplementation : saves_eq.
Lemma W_PModeGroupInAtomicSwcInstanceRef v tag e : W (write_p_mode_group_in_atomic_swc_instance_ref v tag e).
Proof. unfold write_p_mode_group_in_atomic_swc_instance_ref. wtrue. Qed.
#[export] Hint Resolve W_PModeGroupInAtomicSwcInstanceRef : saves.
Lemma W_POperationInAtomicSwcInstanceRef v e : W (write_p_operation_in_atomic_swc_instance_ref v e).
Proof. unfold write_p_operation_in_atomic_swc_instance_ref. wtrue. Qed.
#[export] Hint Resolve W_POperationInAtomicSwcInstanceRef : saves.
Lemma W_PTriggerInAtomicSwcTypeInstanceRef v tag e : W (write_p_trigger_in_atomic_swc_instance_ref v tag e).
Proof. unfold write_p_trigger_in_atomic_swc_instance_ref. wtrue. Qed.
#[export] Hint Resolve W_PTriggerInAtomicSwcTypeInstanceRef : saves.
Lemma W_RModeInAtomicSwcInstanceRef v tag e : W (write_r_mode_in_atomic_swc_instance_ref v tag e).
Proof. unfold write_r_mode_in_atomic_swc_instance_ref. wtrue. Qed.
#[export] Hint Resolve W_RModeInAtomicSwcInstanceRef : saves.
Lemma W_RModeGroupInAtomicSwcInstanceRef v e : W (write_r_mode_group_in_atomic_swc_instance_ref v e).
Proof. unfold write_r_mode_group_in_atomic_swc_instance_ref. wtrue. Qed.
#[export] Hint Resolve W_RModeGroupInAtomicSwcInstanceRef : saves.
Lemma W_ROperationInAtomicSwcInstanceRef v e : W (write_r_operation_in_atomic_swc_instance_ref v e).
Proof. unfold write_r_operation_in_atomic_swc_instance_ref. wtrue. Qed.
#[export] Hint Resolve W_ROperationInAtomicSwcInstanceRef : saves.
Lemma W_RVariableInAtomicSwcInstanceRef v e : W (write_r_variable_in_atomic_swc_instance_ref v e).
Proof. unfold write_r_variable_in_atomic_swc_instance_ref. wtrue. Qed.
#[export] Hint Resolve W_RVariableInAtomicSwcInstanceRef : saves.
Lemma W_RTriggerInAtomicSwcInstanceRef v tag e : W (write_r_trigger_in_atomic_swc_instance_ref v tag e).
Proof. unfold write_r_trigger_in_atomic_swc_instance_ref. wtrue. Qed.
#[export] Hint Resolve W_RTriggerInAtomicSwcInstanceRef : saves.
Lemma W_ArVariableInImplementationDataInstanceRef v tag e : W (write_variable_in_impl_data_instance_ref v tag e).
Proof. unfold write_variable_in_impl_data_instance_ref. wtrue. Qed.
#[export] Hint Resolve W_ArVariableInImplementationDataInstanceRef : saves.
Lemma W_RunnableEntityArgument v e : W (write_runnable_entity_argument v e).
Proof. unfold write_runnable_entity_argument. wtrue. Qed.
#[export] Hint Resolve W_RunnableEntityArgument : saves.
Lemma W_ExecutableEntityActivationReason v e : W (write_executable_entity_activation_reason v e).
Proof. unfold write_executable_entity_activation_reason, write_implementation_props. wtrue. Qed.
#[export] Hint Resolve W_ExecutableEntityActivationReason : saves.
Lemma W_ExclusiveAreaRefConditional v e : W (write_exclusive_area_ref_conditional v e).
Proof. unfold write_exclusive_area_ref_conditional. wtrue. Qed.
#[export] Hint Resolve W_ExclusiveAreaRefConditional : saves.
Lemma We_AsynchronousServerCallPoint v e : W (write_async_server_call_point v e) <-> savable_AsynchronousServerCallPoint e.
Proof. unfold write_async_server_call_point, write_abstract_access_point, MElem1.write_server_call_point, savable_AsynchronousServerCallPoint. eapply iff_trans; [weq|]. tauto. Qed.
#[export] Hint Resolve We_AsynchronousServerCallPoint : saves_eq.
Lemma We_SynchronousServerCallPoint v e : W (write_sync_server_call_point v e) <-> savable_SynchronousServerCallPoint e.
Proof. unfold write_sync_server_call_point, write_abstract_access_point, MElem1.write_server_call_point, savable_SynchronousServerCallPoint. eapply iff_trans; [weq|]. tauto. Qed.
#[export] Hint Resolve We_SynchronousServerCallPoint : saves_eq.
Lemma We_AsynchronousServerCallResultPoint v e : W (write_async_server_call_result_point v e) <-> savable_AsynchronousServerCallResultPoint e.
Proof. unfold write_async_server_call_result_point, write_abstract_access_point, write_async_server_call_result_point_group, savable_AsynchronousServerCallResultPoint. eapply iff_trans; [weq|]. tauto. Qed.
#[export] Hint Resolve We_AsynchronousServerCallResultPoint : saves_eq.
Lemma We_ExternalTriggeringPointIdent v e : W (write_external_triggering_point_ident v e) <-> savable_ExternalTriggeringPointIdent e.
Proof. unfold write_external_triggering_point_ident, write_abstract_access_point, savable_ExternalTriggeringPointIdent. eapply iff_trans; [weq|]. tauto. Qed.
#[export] Hint Resolve We_ExternalTriggeringPointIdent : saves_eq.
Lemma We_ExternalTriggeringPoint v e : W (write_external_triggering_point v e) <-> savable_ExternalTriggeringPoint e.
Proof. unfold write_external_triggering_point, savable_ExternalTriggeringPoint. apply We_if; [intros; apply W_empty|unfold ExternalTriggeringPoint_is_empty; empties|]. eapply iff_trans; [weq|]. tauto. Qed.
#[export] Hint Resolve We_ExternalTriggeringPoint : saves_eq.
Lemma We_InternalTriggeringPoint v e : W (write_internal_triggering_point v e) <-> savable_InternalTriggeringPoint e.
Proof. unfold write_internal_triggering_point, write_abstract_access_point, savable_InternalTriggeringPoint. eapply iff_trans; [weq|]. tauto. Qed.
#[export] Hint Resolve We_InternalTriggeringPoint : saves_eq.
Lemma We_ModeAccessPointIdent v e : W (write_mode_access_point_ident v e) <-> savable_ModeAccessPointIdent e.
Proof. unfold write_mode_access_point_ident, write_abstract_access_point, savable_ModeAccessPointIdent. eapply iff_trans; [weq|]. tauto. Qed.
#[export] Hint Resolve We_ModeAccessPointIdent : saves_eq.
Lemma We_ModeSwitchPoint v e : W (write_mode_switch_point v e) <-> savable_ModeSwitchPoint e.
Proof. unfold write_mode_switch_point, write_abstract_access_point, savable_ModeSwitchPoint. eapply iff_trans; [weq|]. tauto. Qed.
#[export] Hint Resolve We_ModeSwitchPoint : saves_eq.
Lemma W_ParameterInAtomicSwcTypeInstanceRef v e : W (write_parameter_in_atomic_swc_type_instance_ref v e).
Proof. unfold write_parameter_in_atomic_swc_type_instance_ref. wtrue. Qed.
#[export] Hint Resolve W_ParameterInAtomicSwcTypeInstanceRef : saves.
Lemma W_AutosarParameterRef v tag e : W (write_autosar_parameter_ref v tag e).
Proof. unfold write_autosar_parameter_ref. wtrue. Qed.
#[export] Hint Resolve W_AutosarParameterRef : saves.
Lemma We_WaitPoint v e : W (write_wait_point v e) <-> savable_WaitPoint e.
Proof. unfold write_wait_point, write_wait_point_group, savable_WaitPoint. eapply iff_trans; [weq|]. tauto. Qed.
#[export] Hint Resolve We_WaitPoint : saves_eq.
Lemma We_AsynchronousServerCallReturnsEvent v e : W (write_async_server_call_returns_event v e) <-> savable_AsynchronousServerCallReturnsEvent e.
Proof. unfold write_async_server_call_returns_event, write_rte_event_group, savable_AsynchronousServerCallReturnsEvent. eapply iff_trans; [weq|]. tauto. Qed.
#[export] Hint Resolve We_AsynchronousServerCallReturnsEvent : saves_eq.
Lemma We_BackgroundEvent v e : W (write_background_event v e) <-> savable_BackgroundEvent e.
Proof. unfold write_background_event, write_rte_event_group, savable_BackgroundEvent. eapply iff_trans; [weq|]. tauto. Qed.
#[export] Hint Resolve We_BackgroundEvent : saves_eq.
Lemma We_DataReceiveErrorEvent v e : W (write_data_receive_error_event v e) <-> savable_DataReceiveErrorEvent e.
Proof. unfold write_data_receive_error_event, write_rte_event_group, savable_DataReceiveErrorEvent. eapply iff_trans; [weq|]. tauto. Qed.
#[export] Hint Resolve We_DataReceiveErrorEvent : saves_eq.
Lemma We_DataReceivedEvent v e : W (write_data_received_event v e) <-> savable_DataReceivedEvent e.
Proof. unfold write_data_received_event, write_rte_event_group, savable_DataReceivedEvent. eapply iff_trans; [weq|]. tauto. Qed.
#[export] Hint Resolve We_DataReceivedEvent : saves_eq.
Lemma We_DataSendCompletedEvent v e : W (write_data_send_completed_event v e) <-> savable_DataSendCompletedEvent e.
Proof. unfold write_data_send_completed_event, write_rte_event_group, savable_DataSendCompletedEvent. eapply iff_trans; [weq|]. tauto. Qed.
#[export] Hint Resolve We_DataSendCompletedEvent : saves_eq.
Lemma We_DataWriteCompletedEvent v e : W (write_data_write_completed_event v e) <-> savable_DataWriteCompletedEvent e.
Proof. unfold write_data_write_completed_event, write_rte_event_group, savable_DataWriteCompletedEvent. eapply iff_trans; [weq|]. tauto. Qed.
#[export] Hint Resolve We_DataWriteCompletedEvent : saves_eq.
Lemma We_ExternalTriggerOccurredEvent v e : W (write_external_trigger_occured_event v e) <-> savable_ExternalTriggerOccurredEvent e.
Proof. unfold write_external_trigger_occured_event, write_rte_event_group, savable_ExternalTriggerOccurredEvent. eapply iff_trans; [weq|]. tauto. Qed.
#[export] Hint Resolve We_ExternalTriggerOccurredEvent : saves_eq.
Lemma We_InitEvent v e : W (write_init_event v e) <-> savable_InitEvent e.
Proof. unfold write_init_event, write_rte_event_group, savable_InitEvent. eapply iff_trans; [weq|]. tauto. Qed.
#[export] Hint Resolve We_InitEvent : saves_eq.
Lemma We_InternalTriggerOccurredEvent v e : W (write_internal_trigger_occured_event v e) <-> savable_InternalTriggerOccurredEvent e.
Proof. unfold write_internal_trigger_occured_event, write_rte_event_group, savable_InternalTriggerOccurredEvent. eapply iff_trans; [weq|]. tauto. Qed.
#[export] Hint Resolve We_InternalTriggerOccurredEvent : saves_eq.
Lemma We_ModeSwitchedAckEvent v e : W (write_mode_switched_ack_event v e) <-> savable_ModeSwitchedAckEvent e.
Proof. unfold write_mode_switched_ack_event, write_rte_event_group, savable_ModeSwitchedAckEvent. eapply iff_trans; [weq|]. tauto. Qed.
#[export] Hint Resolve We_ModeSwitchedAckEvent : saves_eq.
Lemma We_OperationInvokedEvent v e : W (write_operation_invoked_event v e) <-> savable_OperationInvokedEvent e.
Proof. unfold write_operation_invoked_event, write_rte_event_group, savable_OperationInvokedEvent. eapply iff_trans; [weq|]. tauto. Qed.
#[export] Hint Resolve We_OperationInvokedEvent : saves_eq.
Lemma We_SwcModeManagerErrorEvent v e : W (write_swc_mode_manager_error_event v e) <-> savable_SwcModeManagerErrorEvent e.
Proof. unfold write_swc_mode_manager_error_event, write_rte_event_group, savable_SwcModeManagerErrorEvent. eapply iff_trans; [weq|]. tauto. Qed.
#[export] Hint Resolve We_SwcModeManagerErrorEvent : saves_eq.
Lemma We_TimingEvent v e : W (write_timing_event v e) <-> savable_TimingEvent e.
Proof. unfold write_timing_event, write_rte_event_group, savable_TimingEvent. eapply iff_trans; [weq|]. tauto. Qed.
#[export] Hint Resolve We_TimingEvent : saves_eq.
Lemma We_TransformerHardErrorEvent v e : W (write_transformer_hard_error_event v e) <-> savable_TransformerHardErrorEvent e.
Proof. unfold write_transformer_hard_error_event, write_rte_event_group, write_transformer_hard_error_event_group, savable_TransformerHardErrorEvent. eapply iff_trans; [weq|]. tauto. Qed.
#[export] Hint Resolve We_TransformerHardErrorEvent : saves_eq.
Lemma W_CommunicationBufferLocking v e : W (write_communication_buffer_locking v e).
Proof. unfold write_communication_buffer_locking. wtrue. Qed.
#[export] Hint Resolve W_CommunicationBufferLocking : saves.
Lemma We_ExclusiveArea v e : W (write_exclusive_area v e) <-> savable_ExclusiveArea e.
Proof. unfold write_exclusive_area, savable_ExclusiveArea. eapply iff_trans; [weq|]. tauto. Qed.
#[export] Hint Resolve We_ExclusiveArea : saves_eq.
Lemma We_each_in {A} (l : list A) f (P : A -> Prop) : (forall a, In a l -> (W (f a) <-> P a)) -> (W (for_each l f) <-> all_ok P l).
Proof.
  induction l as [|a l IH]; intros H; [split; intros; [exact I|apply W_nil]|]. change (W (andthen (f a) (for_each l f)) <-> P a /\ all_ok P l).
  rewrite W_andthen, (H a (or_introl eq_refl)), IH; [reflexivity|]. intros b J. apply H. now right.
Qed.
Lemma We_set_in {A} (o : option A) f (P : A -> Prop) : (forall a, o = Some a -> (W (f a) <-> P a)) -> (W (if_set o f) <-> opt_ok P o).
Proof. destruct o; intros H; [now apply H|]. split; intros; [exact I|apply W_ok]. Qed.
Lemma We_limit tag l t : W (write_limit tag l t) <-> savable_limit l.
Proof.
  unfold write_limit. apply W_bind_true; [apply W_enum; auto with enums|]. intros s. rewrite W_bind_ok. destruct l as [n|s']; [apply We_number|].
  split; [apply W_err|contradiction].
Qed.
Lemma We_CompuConst v tag e : W (write_compu_const v tag e) <-> savable_CompuConst e.
Proof.
  unfold write_compu_const, savable_CompuConst. destruct (CompuConst_value e) as [[n|s]|].
  - eapply iff_trans; [weq|]. tauto.
  - split; intros; [exact I|wtrue].
  - split; [|contradiction]. intros H. apply (proj1 (We_node _ _ _ _ (iff_refl _))) in H. now apply W_err in H.
Qed.
#[export] Hint Resolve We_CompuConst : saves_eq.
Lemma We_CompuRational v e : W (write_compu_rational v e) <-> savable_CompuRational e.
Proof. unfold write_compu_rational, write_numerator_denominator_values, savable_CompuRational. apply We_if; [intros; apply W_empty|empties|]. eapply iff_trans; [weq|]. tauto. Qed.
#[export] Hint Resolve We_CompuRational : saves_eq.
Lemma We_CompuScaleContent v a : W (match a with ScaleConst c => write_compu_const v "COMPU-CONST" c | ScaleRational r => write_compu_rational v r end) <-> savable_CompuScaleContent a.
Proof. destruct a; cbn [savable_CompuScaleContent]; [apply We_CompuConst|apply We_CompuRational]. Qed.
Lemma We_CompuScale v e : W (write_compu_scale v e) <-> savable_CompuScale e.
Proof.
  unfold write_compu_scale, savable_CompuScale. apply We_node.
  eapply iff_trans.
  - do 2 (eapply We_cons_true; [wtrue|]). eapply We_cons; [weq|]. eapply We_cons_true; [wtrue|].
    do 2 (eapply We_cons; [apply We_set; intro; apply We_limit|]). eapply We_cons; [weq|]. eapply We_cons; [|apply We_nil].
    apply We_set. intro. apply We_CompuScaleContent.
  - tauto.
Qed.
#[export] Hint Resolve We_CompuScale : saves_eq.
Lemma We_Computation v tag e : W (write_computation v tag e) <-> savable_Computation e.
Proof. unfold write_computation, savable_Computation. eapply iff_trans; [weq|]. tauto. Qed.
#[export] Hint Resolve We_Computation : saves_eq.
Lemma We_CompuMethod v e : W (write_compu_method v e) <-> savable_CompuMethod e.
Proof. unfold write_compu_method, savable_CompuMethod. eapply iff_trans; [weq|]. tauto. Qed.
#[export] Hint Resolve We_CompuMethod : saves_eq.
Lemma We_num_limit tag n t : W (write_limit tag (SNum n) t) <-> number_has_text n.
Proof. apply We_limit. Qed.
#[export] Hint Resolve We_num_limit : saves_eq.
Lemma We_ScaleConstraint v e : W (write_scale_constraint v e) <-> savable_ScaleConstraint e.
Proof.
  unfold write_scale_constraint, savable_ScaleConstraint. apply W_bind_true.
  - destruct (ScaleConstraint_validity e); [|apply W_ok]. apply W_bind_ok, W_enum. auto with enums.
  - intros attr. apply We_if; [intros; apply W_ok|unfold ScaleConstraint_is_empty; empties|]. eapply iff_trans; [weq|]. tauto.
Qed.
#[export] Hint Resolve We_ScaleConstraint : saves_eq.
Lemma We_ConstraintBase v e : W (write_constraint_base v e) <-> savable_ConstraintBase e.
Proof. unfold write_constraint_base, savable_ConstraintBase. eapply iff_trans; [weq|]. tauto. Qed.
#[export] Hint Resolve We_ConstraintBase : saves_eq.
Lemma ConstraintBase_empty e : ConstraintBase_is_empty e = true -> savable_ConstraintBase e.
Proof. unfold ConstraintBase_is_empty, savable_ConstraintBase. empties. Qed.
Lemma We_InternalConstraint v e : W (write_internal_constraint v e) <-> savable_InternalConstraint e.
Proof. unfold write_internal_constraint, savable_InternalConstraint. apply We_if; [intros; apply W_empty|apply ConstraintBase_empty|]. weq. Qed.
#[export] Hint Resolve We_InternalConstraint : saves_eq.
Lemma We_PhysicalConstraint v e : W (write_physical_constraint v e) <-> savable_PhysicalConstraint e.
Proof.
  unfold write_physical_constraint, savable_PhysicalConstraint. apply We_if; [intros; apply W_empty|intros E; apply andb_prop in E; now apply ConstraintBase_empty|].
  eapply iff_trans; [weq|]. tauto.
Qed.
#[export] Hint Resolve We_PhysicalConstraint : saves_eq.
Lemma We_DataConstraintRule v e : W (write_data_constraint_rule v e) <-> savable_DataConstraintRule e.
Proof. unfold write_data_constraint_rule, savable_DataConstraintRule. apply We_if; [intros; apply W_empty|empties|]. eapply iff_trans; [weq|]. tauto. Qed.
#[export] Hint Resolve We_DataConstraintRule : saves_eq.
Lemma We_DataConstraint v e : W (write_data_constraint v e) <-> savable_DataConstraint e.
Proof. unfold write_data_constraint, savable_DataConstraint. eapply iff_trans; [weq|]. tauto. Qed.
#[export] Hint Resolve We_DataConstraint : saves_eq.
Lemma We_ValueList v e : W (write_value_list v e) <-> savable_ValueList e.
Proof. unfold write_value_list, savable_ValueList. apply We_if; [intros; apply W_empty|empties|]. eapply iff_trans; [weq|]. tauto. Qed.
#[export] Hint Resolve We_ValueList : saves_eq.
Lemma We_sw_value e : W (write_sw_value e) <-> savable_sw_value e.
Proof.
  induction e as [[s|]|n|l vs IH] using sw_value_ind2; cbn [savable_sw_value].
  - split; intros; [discriminate|]. cbn. wtrue.
  - split; [|contradiction]. intros H. now apply W_err in H.
  - apply We_content, We_any.
  - cbn [write_sw_value]. apply We_if; [intros; apply W_empty|empties|]. apply We_node.
    rewrite (We_cons _ _ _ _ (We_set _ _ _ (fun a => We_long_name "LABEL" a)) (iff_refl _)).
    rewrite (We_cons _ _ _ _ (We_each_in _ _ _ IH) We_nil). tauto.
Qed.
#[export] Hint Resolve We_sw_value : saves_eq.
Lemma We_SwValues v e : W (write_sw_values v e) <-> savable_SwValues e.
Proof. unfold write_sw_values, savable_SwValues. apply We_if; [intros; apply W_empty|empties|]. eapply iff_trans; [weq|]. tauto. Qed.
#[export] Hint Resolve We_SwValues : saves_eq.
Lemma We_SwAxisCont v e : W (write_sw_axis_cont v e) <-> savable_SwAxisCont e.
Proof. unfold write_sw_axis_cont, savable_SwAxisCont. apply We_if; [intros; apply W_empty|unfold SwAxisCont_is_empty; empties|]. eapply iff_trans; [weq|]. tauto. Qed.
#[export] Hint Resolve We_SwAxisCont : saves_eq.
Lemma We_SwAddrMethod v e : W (write_sw_addr_method v e) <-> savable_SwAddrMethod e.
Proof. unfold write_sw_addr_method, savable_SwAddrMethod. eapply iff_trans; [weq|]. tauto. Qed.
#[export] Hint Resolve We_SwAddrMethod : saves_eq.
Lemma We_pointer {R} (self : R -> out) (ok : R -> Prop) e :
  (forall r, SwPointerTargetProps_sw_data_def_props e = Some r -> (W (self r) <-> ok r)) ->
  W (write_sw_pointer_target_props_ self e) <-> savable_SwPointerTargetProps_ ok e.
Proof.
  intros H. unfold write_sw_pointer_target_props_, savable_SwPointerTargetProps_. apply We_if; [intros; apply W_empty|unfold SwPointerTargetProps_is_empty; empties|].
  apply We_node. eapply iff_trans.
  - eapply We_cons_true; [wtrue|]. eapply We_cons; [exact (We_set_in _ _ _ H)|]. eapply We_cons_true; [wtrue|apply We_nil].
  - tauto.
Qed.
Lemma We_conditional {P} v (self : P -> out) (ok : P -> Prop) e :
  (forall p, dd_ptr_target_props e = Some p -> (W (self p) <-> ok p)) ->
  W (write_sw_data_def_props_conditional_ v self e) <-> savable_SwDataDefPropsConditional_ ok e.
Proof.
  intros H. unfold write_sw_data_def_props_conditional_, savable_SwDataDefPropsConditional_.
  apply We_if; [intros; apply W_empty|unfold SwDataDefPropsConditional_is_empty; empties|].
  apply We_node. eapply iff_trans.
  - eapply We_cons_true; [wtrue|]. eapply We_cons; [weq|]. eapply We_cons.
    { refine (We_some _ _ annotation_savable _). apply We_annotations. }
    do 12 (eapply We_cons_true; [wtrue|]). eapply We_cons; [weq|]. do 2 (eapply We_cons_true; [wtrue|]).
    eapply We_cons; [exact (We_set_in _ _ _ H)|]. eapply We_cons_true; [wtrue|apply We_nil].
  - tauto.
Qed.
Lemma We_SwDataDefProps v tag e : W (write_sw_data_def_props v tag e) <-> savable_SwDataDefProps e.
Proof.
  revert tag. induction e as [l IH] using SwDataDefProps_ind2. intros tag. cbn [write_sw_data_def_props savable_SwDataDefProps].
  apply We_if; [intros; apply W_empty|empties|]. apply We_node, We_some, We_node, We_each_in. intros c Ic. apply We_conditional.
  intros p Ep. apply We_pointer. intros r Er. eapply IH; eassumption.
Qed.
#[export] Hint Resolve We_SwDataDefProps : saves_eq.
Lemma We_ImplementationDataTypeElement v e : W (write_implementation_data_type_element v e) <-> savable_ImplementationDataTypeElement e.
Proof.
  induction e as [e IH] using ImplementationDataTypeElement_ind2. destruct e as [ident props size policy handling semantics sub optional].
  cbn [write_implementation_data_type_element savable_ImplementationDataTypeElement ImplementationDataTypeElement_sub_elements] in *.
  apply We_node. eapply iff_trans.
  - eapply We_ident. do 5 (eapply We_cons_true; [wtrue|]). eapply We_cons; [exact (We_some _ _ _ (We_node _ _ _ _ (We_each_in _ _ _ IH)))|].
    eapply We_cons; [weq|apply We_nil].
  - tauto.
Qed.
#[export] Hint Resolve We_ImplementationDataTypeElement : saves_eq.
Lemma We_SwValueCont v e : W (write_sw_value_cont v e) <-> savable_SwValueCont e.
Proof. unfold write_sw_value_cont, savable_SwValueCont. apply We_if; [intros; apply W_empty|unfold SwValueCont_is_empty; empties|]. eapply iff_trans; [weq|]. tauto. Qed.
#[export] Hint Resolve We_SwValueCont : saves_eq.
Lemma We_ValueSpecificationElement v e : W (write_value_specification_element v e) <-> savable_ValueSpecificationElement e.
Proof.
  induction e as [e B|label l IH|label l IH] using ValueSpecificationElement_ind2.
  - destruct e; try contradiction; cbn [write_value_specification_element savable_ValueSpecificationElement]; unfold write_value_specification_group.
    all: (apply We_if; [intros; apply W_empty|empties|]); eapply iff_trans; [weq|tauto].
  - cbn [write_value_specification_element savable_ValueSpecificationElement]; unfold write_value_specification_group.
    apply We_if; [intros; apply W_empty|empties|]. apply We_node. apply We_cons_true; [wtrue|].
    rewrite (We_cons _ _ _ _ (We_some _ _ _ (We_node _ _ _ _ (We_each_in _ _ _ IH))) We_nil). tauto.
  - cbn [write_value_specification_element savable_ValueSpecificationElement]; unfold write_value_specification_group.
    apply We_if; [intros; apply W_empty|empties|]. apply We_node. apply We_cons_true; [wtrue|].
    rewrite (We_cons _ _ _ _ (We_some _ _ _ (We_node _ _ _ _ (We_each_in _ _ _ IH))) We_nil). tauto.
Qed.
#[export] Hint Resolve We_ValueSpecificationElement : saves_eq.
Lemma W_VariableInAtomicSWCTypeInstanceRef v e : W (write_variable_in_atomic_swc_type_instance_ref v e).
Proof. unfold write_variable_in_atomic_swc_type_instance_ref. wtrue. Qed.
#[export] Hint Resolve W_VariableInAtomicSWCTypeInstanceRef : saves.
Lemma provide_dest r : is_provide_port_ref r = true <-> is_provided (rf_dest r).
Proof.
  unfold is_provide_port_ref, is_provided. cbn [existsb]. rewrite !orb_true_iff, !dest_eqb_spec. intuition congruence.
Qed.
Lemma require_dest r : is_require_port_ref r = true <-> is_required (rf_dest r).
Proof.
  unfold is_require_port_ref, is_required. cbn [existsb]. rewrite !orb_true_iff, !dest_eqb_spec. intuition congruence.
Qed.
Lemma names_a_opt dir p : names_a dir p <-> opt_ok (fun r => dir (rf_dest r)) (PortInCompositionTypeInstanceRef_port_ref p).
Proof. unfold names_a. destruct (PortInCompositionTypeInstanceRef_port_ref p) as [r|]; cbn; split; auto; try discriminate. intros H r' E. injection E as <-. exact H. Qed.
Lemma We_asserted (b : bool) tag r : W (if b then write_ref tag r else Err AssertionError) <-> b = true.
Proof. destruct b; split; intros; auto; [apply W_ref|now apply W_err in H|discriminate]. Qed.
Lemma We_provided v e : W (write_port_in_composition_type_instance_ref v "PROVIDER-IREF" e) <-> names_a is_provided e.
Proof.
  rewrite names_a_opt. unfold write_port_in_composition_type_instance_ref. apply We_if; [intros; apply W_empty|unfold PortInCompositionTypeInstanceRef_is_empty; empties|].
  apply We_node, We_cons_true; [wtrue|]. eapply iff_trans.
  - eapply We_cons; [|apply We_nil]. eapply We_set. intros a. change (provider_tag "PROVIDER-IREF") with true. cbv iota.
    exact (iff_trans (We_asserted _ _ _) (provide_dest a)).
  - tauto.
Qed.
Lemma We_required v e : W (write_port_in_composition_type_instance_ref v "REQUESTER-IREF" e) <-> names_a is_required e.
Proof.
  rewrite names_a_opt. unfold write_port_in_composition_type_instance_ref. apply We_if; [intros; apply W_empty|unfold PortInCompositionTypeInstanceRef_is_empty; empties|].
  apply We_node, We_cons_true; [wtrue|]. eapply iff_trans.
  - eapply We_cons; [|apply We_nil]. eapply We_set. intros a. change (provider_tag "REQUESTER-IREF") with false. change (requester_tag "REQUESTER-IREF") with true.
    cbv iota. exact (iff_trans (We_asserted _ _ _) (require_dest a)).
  - tauto.
Qed.
#[export] Hint Resolve We_provided We_required : saves_eq.
Lemma We_AssemblySwConnector v e : W (write_assembly_sw_connector v e) <-> savable_AssemblySwConnector e.
Proof. unfold write_assembly_sw_connector, savable_AssemblySwConnector. eapply iff_trans; [weq|]. tauto. Qed.
#[export] Hint Resolve We_AssemblySwConnector : saves_eq.
Lemma W_inner v a : W (match delegation_tag a with Some tag => node "INNER-PORT-IREF" [] (write_port_in_composition_type_instance_ref v tag a) | None => Ok [] end).
Proof.
  unfold delegation_tag, write_port_in_composition_type_instance_ref, PortInCompositionTypeInstanceRef_is_empty. destruct (PortInCompositionTypeInstanceRef_port_ref a) as [r|]; [|apply W_ok].
  destruct (is_provide_port_ref r) eqn:E.
  - apply W_node, W_if; [apply W_empty|]. apply W_node, W_cons; [wtrue|]. apply W_cons; [|apply W_nil]. cbn [if_set].
    change (provider_tag "P-PORT-IN-COMPOSITION-INSTANCE-REF") with true. cbv iota. rewrite E. apply W_ref.
  - destruct (is_require_port_ref r) eqn:F; [|apply W_ok].
    apply W_node, W_if; [apply W_empty|]. apply W_node, W_cons; [wtrue|]. apply W_cons; [|apply W_nil]. cbn [if_set].
    change (provider_tag "R-PORT-IN-COMPOSITION-INSTANCE-REF") with false. change (requester_tag "R-PORT-IN-COMPOSITION-INSTANCE-REF") with true.
    cbv iota. rewrite F. apply W_ref.
Qed.
Lemma We_DelegationSwConnector v e : W (write_delegation_sw_connector v e) <-> savable_DelegationSwConnector e.
Proof.
  unfold write_delegation_sw_connector, savable_DelegationSwConnector. eapply iff_trans.
  - apply We_node, We_ident. eapply We_cons_true; [apply W_set; intros a; apply W_inner|]. weq.
  - tauto.
Qed.
#[export] Hint Resolve We_DelegationSwConnector : saves_eq.
Lemma We_SwConnectorElement v e : W (write_sw_connector_element v e) <-> savable_SwConnectorElement e.
Proof. destruct e; cbn [write_sw_connector_element savable_SwConnectorElement]; first [solve [weq]|split; [auto|intros _; wtrue]]. Qed.
#[export] Hint Resolve We_SwConnectorElement : saves_eq.
Lemma W_mode_group_iref v g : W (write_mode_group_iref v g).
Proof. destruct g; cbn [write_mode_group_iref]; wtrue. Qed.
#[export] Hint Resolve W_mode_group_iref : saves.
Lemma We_ModeAccessPoint v e : W (write_mode_access_point v e) <-> savable_ModeAccessPoint e.
Proof.
  unfold write_mode_access_point, savable_ModeAccessPoint. apply We_if; [intros; apply W_empty|unfold ModeAccessPoint_is_empty; empties|]. eapply iff_trans; [weq|]. tauto.
Qed.
#[export] Hint Resolve We_ModeAccessPoint : saves_eq.
Lemma We_ImplementationDataType v e : W (write_implementation_data_type v e) <-> savable_ImplementationDataType e.
Proof. unfold write_implementation_data_type, write_autosar_data_type, write_implementation_data_type_group, savable_ImplementationDataType. eapply iff_trans; [weq|]. tauto. Qed.
#[export] Hint Resolve We_ImplementationDataType : saves_eq.
Lemma We_ApplicationPrimitiveDataType v e : W (write_application_primitive_data_type v e) <-> savable_ApplicationPrimitiveDataType e.
Proof. unfold write_application_primitive_data_type, write_autosar_data_type, savable_ApplicationPrimitiveDataType. eapply iff_trans; [weq|]. tauto. Qed.
#[export] Hint Resolve We_ApplicationPrimitiveDataType : saves_eq.
Lemma We_ApplicationArrayElement v e : W (write_application_array_element v e) <-> savable_ApplicationArrayElement e.
Proof. unfold write_application_array_element, write_application_array_element_group, write_application_composite_element_data_prototype, write_data_prototype, savable_ApplicationArrayElement. eapply iff_trans; [weq|]. tauto. Qed.
#[export] Hint Resolve We_ApplicationArrayElement : saves_eq.
Lemma We_ApplicationRecordElement v e : W (write_application_record_element v e) <-> savable_ApplicationRecordElement e.
Proof. unfold write_application_record_element, write_application_composite_element_data_prototype, write_application_record_element_group, write_data_prototype, savable_ApplicationRecordElement. eapply iff_trans; [weq|]. tauto. Qed.
#[export] Hint Resolve We_ApplicationRecordElement : saves_eq.
Lemma We_ApplicationArrayDataType v e : W (write_application_array_data_type v e) <-> savable_ApplicationArrayDataType e.
Proof. unfold write_application_array_data_type, write_application_array_data_type_group, write_autosar_data_type, savable_ApplicationArrayDataType. eapply iff_trans; [weq|]. tauto. Qed.
#[export] Hint Resolve We_ApplicationArrayDataType : saves_eq.
Lemma We_ApplicationRecordDataType v e : W (write_application_record_data_type v e) <-> savable_ApplicationRecordDataType e.
Proof. unfold write_application_record_data_type, write_application_record_data_type_group, write_autosar_data_type, savable_ApplicationRecordDataType. eapply iff_trans; [weq|]. tauto. Qed.
#[export] Hint Resolve We_ApplicationRecordDataType : saves_eq.
Lemma We_VariableDataPrototype v tag e : W (write_variable_data_prototype v tag e) <-> savable_VariableDataPrototype e.
Proof. unfold write_variable_data_prototype, write_autosar_data_prototype, write_data_prototype, write_variable_data_prototype_group, savable_VariableDataPrototype. eapply iff_trans; [weq|]. tauto. Qed.
#[export] Hint Resolve We_VariableDataPrototype : saves_eq.
Lemma We_ParameterDataPrototype v tag e : W (write_parameter_data_prototype v tag e) <-> savable_ParameterDataPrototype e.
Proof. unfold write_parameter_data_prototype, write_autosar_data_prototype, write_data_prototype, write_variable_data_prototype_group, savable_ParameterDataPrototype. eapply iff_trans; [weq|]. tauto. Qed.
#[export] Hint Resolve We_ParameterDataPrototype : saves_eq.
Lemma We_ArgumentDataPrototype v e : W (write_argument_data_prototype v e) <-> savable_ArgumentDataPrototype e.
Proof. unfold write_argument_data_prototype, write_argument_data_prototype_group, write_autosar_data_prototype, write_data_prototype, savable_ArgumentDataPrototype. eapply iff_trans; [weq|]. tauto. Qed.
#[export] Hint Resolve We_ArgumentDataPrototype : saves_eq.
Lemma We_ConstantSpecification v e : W (write_constant_specification v e) <-> savable_ConstantSpecification e.
Proof. unfold write_constant_specification, write_constant_specification_group, savable_ConstantSpecification. eapply iff_trans; [weq|]. tauto. Qed.
#[export] Hint Resolve We_ConstantSpecification : saves_eq.
Lemma We_NvDataInterface v e : W (write_nv_data_interface v e) <-> savable_NvDataInterface e.
Proof. unfold write_nv_data_interface, write_nv_data_interface_group, write_port_interface, savable_NvDataInterface. eapply iff_trans; [weq|]. tauto. Qed.
#[export] Hint Resolve We_NvDataInterface : saves_eq.
Lemma We_ParameterInterface v e : W (write_parameter_interface v e) <-> savable_ParameterInterface e.
Proof. unfold write_parameter_interface, write_parameter_interface_group, write_port_interface, savable_ParameterInterface. eapply iff_trans; [weq|]. tauto. Qed.
#[export] Hint Resolve We_ParameterInterface : saves_eq.
Lemma We_SenderReceiverInterface v e : W (write_sender_receiver_interface v e) <-> savable_SenderReceiverInterface e.
Proof. unfold write_sender_receiver_interface, write_port_interface, write_sender_receiver_interface_group, savable_SenderReceiverInterface. eapply iff_trans; [weq|]. tauto. Qed.
#[export] Hint Resolve We_SenderReceiverInterface : saves_eq.
Lemma We_ClientServerOperation v e : W (write_client_server_operation v e) <-> savable_ClientServerOperation e.
Proof. unfold write_client_server_operation, write_client_server_operation_group, savable_ClientServerOperation. eapply iff_trans; [weq|]. tauto. Qed.
#[export] Hint Resolve We_ClientServerOperation : saves_eq.
Lemma We_ClientServerInterface v e : W (write_client_server_interface v e) <-> savable_ClientServerInterface e.
Proof. unfold write_client_server_interface, write_client_server_interface_group, write_port_interface, savable_ClientServerInterface. eapply iff_trans; [weq|]. tauto. Qed.
#[export] Hint Resolve We_ClientServerInterface : saves_eq.
Lemma We_QueuedSenderComSpec v e : W (write_queued_sender_com_spec v e) <-> savable_QueuedSenderComSpec e.
Proof. unfold write_queued_sender_com_spec, write_sender_com_spec_group, savable_QueuedSenderComSpec. apply We_if; [intros; apply W_empty|unfold QueuedSenderComSpec_is_empty; empties|]. eapply iff_trans; [weq|]. tauto. Qed.
#[export] Hint Resolve We_QueuedSenderComSpec : saves_eq.
Lemma We_NonqueuedSenderComSpec v e : W (write_non_queued_sender_com_spec v e) <-> savable_NonqueuedSenderComSpec e.
Proof. unfold write_non_queued_sender_com_spec, write_non_queued_sender_com_spec_group, write_sender_com_spec_group, savable_NonqueuedSenderComSpec. apply We_if; [intros; apply W_empty|unfold NonqueuedSenderComSpec_is_empty; empties|]. eapply iff_trans; [weq|]. tauto. Qed.
#[export] Hint Resolve We_NonqueuedSenderComSpec : saves_eq.
Lemma We_NvProvideComSpec v e : W (write_nv_provide_com_spec v e) <-> savable_NvProvideComSpec e.
Proof. unfold write_nv_provide_com_spec, savable_NvProvideComSpec. apply We_if; [intros; apply W_empty|unfold NvProvideComSpec_is_empty; empties|]. eapply iff_trans; [weq|]. tauto. Qed.
#[export] Hint Resolve We_NvProvideComSpec : saves_eq.
Lemma We_ParameterProvideComSpec v e : W (write_parameter_provide_com_spec v e) <-> savable_ParameterProvideComSpec e.
Proof. unfold write_parameter_provide_com_spec, savable_ParameterProvideComSpec. apply We_if; [intros; apply W_empty|unfold ParameterProvideComSpec_is_empty; empties|]. eapply iff_trans; [weq|]. tauto. Qed.
#[export] Hint Resolve We_ParameterProvideComSpec : saves_eq.
Lemma We_NvRequireComSpec v e : W (write_nv_require_com_spec v e) <-> savable_NvRequireComSpec e.
Proof. unfold write_nv_require_com_spec, savable_NvRequireComSpec. apply We_if; [intros; apply W_empty|unfold NvRequireComSpec_is_empty; empties|]. eapply iff_trans; [weq|]. tauto. Qed.
#[export] Hint Resolve We_NvRequireComSpec : saves_eq.
Lemma We_ParameterRequireComSpec v e : W (write_parameter_require_com_spec v e) <-> savable_ParameterRequireComSpec e.
Proof. unfold write_parameter_require_com_spec, savable_ParameterRequireComSpec. apply We_if; [intros; apply W_empty|unfold ParameterRequireComSpec_is_empty; empties|]. eapply iff_trans; [weq|]. tauto. Qed.
#[export] Hint Resolve We_ParameterRequireComSpec : saves_eq.
Lemma W_AutosarVariableRef v tag e : W (write_autosar_variable_ref v tag e).
Proof. unfold write_autosar_variable_ref. wtrue. Qed.
#[export] Hint Resolve W_AutosarVariableRef : saves.
Lemma We_VariableAccess v tag e : W (write_variable_access v tag e) <-> savable_VariableAccess e.
Proof. unfold write_variable_access, savable_VariableAccess. eapply iff_trans; [weq|]. tauto. Qed.
#[export] Hint Resolve We_VariableAccess : saves_eq.
Lemma We_ParameterAccess v e : W (write_parameter_access v e) <-> savable_ParameterAccess e.
Proof. unfold write_parameter_access, write_abstract_access_point, write_parameter_access_group, savable_ParameterAccess. eapply iff_trans; [weq|]. tauto. Qed.
#[export] Hint Resolve We_ParameterAccess : saves_eq.
Lemma We_PortDefinedArgumentValue v e : W (write_port_defined_argument_value v e) <-> savable_PortDefinedArgumentValue e.
Proof. unfold write_port_defined_argument_value, savable_PortDefinedArgumentValue. apply We_if; [intros; apply W_empty|unfold PortDefinedArgumentValue_is_empty; empties|]. eapply iff_trans; [weq|]. tauto. Qed.
#[export] Hint Resolve We_PortDefinedArgumentValue : saves_eq.
Lemma We_PortApiOption v e : W (write_port_api_option v e) <-> savable_PortApiOption e.
Proof. unfold write_port_api_option, write_port_api_option_group, savable_PortApiOption. apply We_if; [intros; apply W_empty|unfold PortApiOption_is_empty; empties|]. eapply iff_trans; [weq|]. tauto. Qed.
#[export] Hint Resolve We_PortApiOption : saves_eq.
Lemma We_ReceptionComSpecProps v e : W (write_reception_com_spec_props v e) <-> savable_ReceptionComSpecProps e.
Proof. unfold write_reception_com_spec_props, savable_ReceptionComSpecProps. apply We_if; [intros; apply W_empty|unfold ReceptionComSpecProps_is_empty; empties|]. eapply iff_trans; [weq|]. tauto. Qed.
#[export] Hint Resolve We_ReceptionComSpecProps : saves_eq.
Lemma We_QueuedReceiverComSpec v e : W (write_queued_receiver_com_spec v e) <-> savable_QueuedReceiverComSpec e.
Proof. unfold write_queued_receiver_com_spec, write_receiver_com_spec_group, savable_QueuedReceiverComSpec. apply We_if; [intros; apply W_empty|unfold QueuedReceiverComSpec_is_empty; empties|]. eapply iff_trans; [weq|]. tauto. Qed.
#[export] Hint Resolve We_QueuedReceiverComSpec : saves_eq.
Lemma We_NonqueuedReceiverComSpec v e : W (write_nonqueued_receiver_com_spec v e) <-> savable_NonqueuedReceiverComSpec e.
Proof. unfold write_nonqueued_receiver_com_spec, write_nonqueued_receiver_com_spec_group, write_receiver_com_spec_group, savable_NonqueuedReceiverComSpec. apply We_if; [intros; apply W_empty|unfold NonqueuedReceiverComSpec_is_empty; empties|]. eapply iff_trans; [weq|]. tauto. Qed.
#[export] Hint Resolve We_NonqueuedReceiverComSpec : saves_eq.
Lemma We_ProvidePortComSpec v e : W (write_provided_com_spec v e) <-> savable_ProvidePortComSpec e.
Proof. destruct e; cbn [write_provided_com_spec savable_ProvidePortComSpec]; first [solve [weq]|split; [auto|intros _; wtrue]]. Qed.
#[export] Hint Resolve We_ProvidePortComSpec : saves_eq.
Lemma We_RequirePortComSpec v e : W (write_required_com_spec v e) <-> savable_RequirePortComSpec e.
Proof. destruct e; cbn [write_required_com_spec savable_RequirePortComSpec]; first [solve [weq]|split; [auto|intros _; wtrue]]. Qed.
#[export] Hint Resolve We_RequirePortComSpec : saves_eq.
Lemma We_ProvidePortPrototype v e : W (write_provide_port_prototype v e) <-> savable_ProvidePortPrototype e.
Proof. unfold write_provide_port_prototype, write_provide_port_prototype_group, savable_ProvidePortPrototype. eapply iff_trans; [weq|]. tauto. Qed.
#[export] Hint Resolve We_ProvidePortPrototype : saves_eq.
Lemma We_RequirePortPrototype v e : W (write_require_port_prototype v e) <-> savable_RequirePortPrototype e.
Proof. unfold write_require_port_prototype, write_require_port_prototype_group, savable_RequirePortPrototype. eapply iff_trans; [weq|]. tauto. Qed.
#[export] Hint Resolve We_RequirePortPrototype : saves_eq.
Lemma We_PRPortPrototype v e : W (write_pr_port_prototype v e) <-> savable_PRPortPrototype e.
Proof. unfold write_pr_port_prototype, savable_PRPortPrototype. eapply iff_trans; [weq|]. tauto. Qed.
#[export] Hint Resolve We_PRPortPrototype : saves_eq.
Lemma We_PortPrototypeElement v e : W (write_port_prototype v e) <-> savable_PortPrototypeElement e.
Proof. destruct e; cbn [write_port_prototype savable_PortPrototypeElement]; first [solve [weq]|split; [auto|intros _; wtrue]]. Qed.
#[export] Hint Resolve We_PortPrototypeElement : saves_eq.
Lemma We_SwComponentPrototype v e : W (write_sw_component_prototype v e) <-> savable_SwComponentPrototype e.
Proof. unfold write_sw_component_prototype, savable_SwComponentPrototype. eapply iff_trans; [weq|]. tauto. Qed.
#[export] Hint Resolve We_SwComponentPrototype : saves_eq.
Lemma We_CompositionSwComponentType v e : W (write_composition_sw_component_type v e) <-> savable_CompositionSwComponentType e.
Proof. unfold write_composition_sw_component_type, write_sw_component_type, savable_CompositionSwComponentType. eapply iff_trans; [weq|]. tauto. Qed.
#[export] Hint Resolve We_CompositionSwComponentType : saves_eq.
Lemma We_SwcModeSwitchEvent v e : W (write_swc_mode_switch_event v e) <-> savable_SwcModeSwitchEvent e.
Proof. unfold write_swc_mode_switch_event, write_rte_event_group, write_swc_mode_switch_event_group, savable_SwcModeSwitchEvent. eapply iff_trans; [weq|]. tauto. Qed.
#[export] Hint Resolve We_SwcModeSwitchEvent : saves_eq.
Lemma We_ServerCallPointElement v e : W (write_server_call_point v e) <-> savable_ServerCallPointElement e.
Proof. destruct e; cbn [write_server_call_point savable_ServerCallPointElement]; first [solve [weq]|split; [auto|intros _; wtrue]]. Qed.
#[export] Hint Resolve We_ServerCallPointElement : saves_eq.
Lemma We_areas v c t k l : W (write_exclusive_areas v c t k l) <-> savable_areas v l.
Proof.
  unfold write_exclusive_areas, savable_areas. destruct (N.ltb_spec v 50).
  - eapply iff_trans.
    + refine (We_some _ _ (fun a => ExclusiveAreaRefConditional_exclusive_area a <> None) _). apply We_node, We_each. intros a.
      destruct (ExclusiveAreaRefConditional_exclusive_area a); split; intros; try discriminate; [apply W_ref|now apply W_err in H0|contradiction].
    + tauto.
  - split; intros; [lia|]. wtrue.
Qed.
#[export] Hint Resolve We_areas : saves_eq.
Lemma We_RunnableEntity v e : W (write_runnable_entity v e) <-> savable_RunnableEntity v e.
Proof.
  unfold write_runnable_entity, write_executable_entity, write_runnable_entity_group, write_accesses, savable_RunnableEntity. eapply iff_trans; [weq|]. tauto.
Qed.
#[export] Hint Resolve We_RunnableEntity : saves_eq.
Lemma We_RteEvent v e : W (write_rte_event_element v e) <-> savable_RteEvent e.
Proof. destruct e; cbn [write_rte_event_element savable_RteEvent]; first [solve [weq]|split; [auto|intros _; wtrue]]. Qed.
#[export] Hint Resolve We_RteEvent : saves_eq.
Lemma We_ModeDeclarationGroup v e : W (write_mode_declaration_group v e) <-> savable_ModeDeclarationGroup e.
Proof. unfold write_mode_declaration_group, savable_ModeDeclarationGroup. eapply iff_trans; [weq|]. tauto. Qed.
#[export] Hint Resolve We_ModeDeclarationGroup : saves_eq.
Lemma We_SwcInternalBehavior v e : W (write_swc_internal_behavior v e) <-> savable_SwcInternalBehavior v e.
Proof.
  unfold write_swc_internal_behavior, write_swc_internal_behavior_group, write_internal_behavior_group, savable_SwcInternalBehavior. eapply iff_trans.
  - apply We_node. eapply We_ident. eapply We_cons; [weq|]. eapply We_cons; [|apply We_nil]. eapply We_cons; [weq|]. eapply We_cons.
    { refine (We_some _ _ (fun o => savable_PortApiOption (snd o)) _). apply We_node, We_each. intros a. apply We_PortApiOption. }
    weq.
  - tauto.
Qed.
#[export] Hint Resolve We_SwcInternalBehavior : saves_eq.
Lemma We_ApplicationSoftwareComponentType v e : W (write_application_software_component_type v e) <-> savable_ApplicationSoftwareComponentType v e.
Proof. unfold write_application_software_component_type, write_atomic_sw_component_type, write_sw_component_type, savable_ApplicationSoftwareComponentType. eapply iff_trans; [weq|]. tauto. Qed.
#[export] Hint Resolve We_ApplicationSoftwareComponentType : saves_eq.
Lemma We_ARElement v e : W (write_collectable v e) <-> savable_ARElement v e.
Proof. destruct e; cbn [write_collectable savable_ARElement]; first [solve [weq]|split; [auto|intros _; wtrue]]. Qed.
#[export] Hint Resolve We_ARElement : saves_eq.
Lemma We_package v p : W (write_package v p) <-> savable_package v p.
Proof.
  induction p as [i es ps IH] using package_ind2. rewrite Forall_forall in IH. cbn [write_package savable_package]. apply We_node. eapply iff_trans.
  - eapply We_ident. eapply We_cons; [weq|]. eapply We_cons; [exact (We_some _ _ _ (We_node _ _ _ _ (We_each_in _ _ _ IH)))|apply We_nil].
  - tauto.
Qed.
#[export] Hint Resolve We_package : saves_eq.
Lemma We_document skip d : W (write_document skip d) <-> savable_document d.
Proof. unfold write_document, savable_document. weq. Qed.
