(** Single elements: each class with its writer and its reader. *)
From Verif Require Import Base PBase MNames PNames MNum SNum PNum PNum3 MXml SXml PXml PXml2 MNs SNs PNs MEnum PEnum MRefTab MRef SEnum PRef MCodec SCodec PCodec PPiece PIdent MElem0 PElem0 PElemRef MElem1 MElemA MElemB MElemC MElem2 MElemD MElem3 MElem4 MElemE MElem5 MElemF SElem1 SElemA SElemB SElemC SElem2 SElemD SElem3 SElem4 SElemE SElem5 SElemF PElem1 PElemA PElemB PElemC PElem2 PElemD PElem3 PElem4 PElemE PElem5 PElemF MArxml SArxml PArxml MStr MDispatch SDispatch.
Open Scope list_scope.
Local Ltac splits := repeat match goal with |- _ /\ _ => split end.

Lemma allb_all p s : all_chars (fun c => p c = true) s -> allb p s = true.
Proof. induction s as [|c s IH]; cbn; auto. intros [A B]. now rewrite A, IH. Qed.
Lemma local_okb s : local_name s -> name_okb s = true.
Proof.
  intros ((A & B) & C & D). unfold name_okb. rewrite (allb_all _ _ B), C. apply String.eqb_neq in D. rewrite D.
  destruct s; [destruct A|now rewrite A].
Qed.
Lemma value_named v e w : write_value_specification_element v e = Ok [w] -> w_tag w = value_tag e.
Proof.
  destruct e; cbn [write_value_specification_element value_tag]; unfold empty, content, node; intros H;
    repeat match type of H with
    | (if ?b then _ else _) = _ => destruct b
    | (let* _ := ?m in _) = _ => destruct m; cbn [bind] in H
    end; try discriminate; injection H as <-; reflexivity.
Qed.
Lemma retag_same x : retag (x_tag x) x = x.
Proof. now destruct x. Qed.

(** One written element, and what reading it gives *)
Definition dispatched (v : N) (o : any_object) (tag : option string) : Prop :=
  exists wm w, assoc (class_name o) writer_all = Some wm /\ run_writer v wm o tag = Ok [w] /\ w_tag w = name_in_text o tag /\ safe w /\
    forall tn, read_well o tag tn -> exists rm, find_reader tn (name_in_text o tag) = Some rm /\
      forall step d, run_reader v rm (element step d w) = Ok (as_read o).

Local Ltac by_name H := destruct H as [(-> & H)|(H & ->)];
  [cbn in H; repeat (destruct H as [H|H]; [try rewrite <- H; reflexivity|]); destruct H | first [reflexivity|now destruct H]].
Local Ltac given tag H := destruct tag as [t|]; [apply local_okb in H|now destruct H].
Local Ltac not_given tag H := destruct tag as [t|]; [now destruct H|clear H].
(** with [wm] and [rm] *)
Local Ltac through C wm rm :=
  let w := fresh "w" in let E := fresh "E" in let TG := fresh "TG" in let S := fresh "S" in let R := fresh "R" in
  destruct C as (w & E & TG & S & R); exists wm, w; split; [reflexivity|]; split; [exact E|]; split; [exact TG|]; split; [exact S|];
  let tn := fresh "tn" in let H := fresh "H" in
  intros tn H; exists rm; split; [by_name H|intros step d; unfold run_reader, made; now rewrite R].

Lemma d_CompuMethod v e tag : good_CompuMethod e -> called_well (An_CompuMethod e) tag -> dispatched v (An_CompuMethod e) tag.
Proof. intros G H. not_given tag H. through (rt_CompuMethod v e G) W_compu_method R_compu_method. Qed.
Lemma d_DataFilter v e tag : good_DataFilter e -> called_well (An_DataFilter e) tag -> dispatched v (An_DataFilter e) tag.
Proof. intros G H. given tag H. through (rt_DataFilter v t e H G) W_data_filter R_data_filter. Qed.
Lemma d_AutosarEngineeringObject v e tag : good_AutosarEngineeringObject e -> called_well (An_AutosarEngineeringObject e) tag -> dispatched v (An_AutosarEngineeringObject e) tag.
Proof. intros G H. given tag H. through (rt_AutosarEngineeringObject v t e H G) W_autosar_engineering_object R_autosar_engineering_object. Qed.
Lemma d_Code v e tag : good_Code e -> called_well (An_Code e) tag -> dispatched v (An_Code e) tag.
Proof. intros G H. not_given tag H. through (rt_Code v e G) W_code R_code. Qed.
Lemma d_ApplicationArrayDataType v e tag : good_ApplicationArrayDataType e -> called_well (An_ApplicationArrayDataType e) tag -> dispatched v (An_ApplicationArrayDataType e) tag.
Proof. intros G H. not_given tag H. through (rt_ApplicationArrayDataType v e G) W_application_array_data_type R_application_array_data_type. Qed.
Lemma d_ApplicationRecordDataType v e tag : good_ApplicationRecordDataType e -> called_well (An_ApplicationRecordDataType e) tag -> dispatched v (An_ApplicationRecordDataType e) tag.
Proof. intros G H. not_given tag H. through (rt_ApplicationRecordDataType v e G) W_application_record_data_type R_application_record_data_type. Qed.
Lemma d_ApplicationPrimitiveDataType v e tag : good_ApplicationPrimitiveDataType e -> called_well (An_ApplicationPrimitiveDataType e) tag -> dispatched v (An_ApplicationPrimitiveDataType e) tag.
Proof. intros G H. not_given tag H. through (rt_ApplicationPrimitiveDataType v e G) W_application_primitive_data_type R_application_primitive_data_type. Qed.
Lemma d_SwBaseType v e tag : good_SwBaseType e -> called_well (An_SwBaseType e) tag -> dispatched v (An_SwBaseType e) tag.
Proof. intros G H. not_given tag H. through (rt_SwBaseType v e G) W_sw_base_type R_sw_base_type. Qed.
Lemma d_SwAddrMethod v e tag : good_SwAddrMethod e -> called_well (An_SwAddrMethod e) tag -> dispatched v (An_SwAddrMethod e) tag.
Proof. intros G H. not_given tag H. through (rt_SwAddrMethod v e G) W_sw_addr_method R_sw_addr_method. Qed.
Lemma d_ImplementationDataType v e tag : good_ImplementationDataType e -> called_well (An_ImplementationDataType e) tag -> dispatched v (An_ImplementationDataType e) tag.
Proof. intros G H. not_given tag H. through (rt_ImplementationDataType v e G) W_implementation_data_type R_implementation_data_type. Qed.
Lemma d_DataTypeMappingSet v e tag : good_DataTypeMappingSet e -> called_well (An_DataTypeMappingSet e) tag -> dispatched v (An_DataTypeMappingSet e) tag.
Proof. intros G H. not_given tag H. through (rt_DataTypeMappingSet v e G) W_data_type_mapping_set R_data_type_mapping_set. Qed.
Lemma d_DataConstraint v e tag : good_DataConstraint e -> called_well (An_DataConstraint e) tag -> dispatched v (An_DataConstraint e) tag.
Proof. intros G H. not_given tag H. through (rt_DataConstraint v e G) W_data_constraint R_data_constraint. Qed.
Lemma d_Unit v e tag : good_Unit e -> called_well (An_Unit e) tag -> dispatched v (An_Unit e) tag.
Proof. intros G H. not_given tag H. through (rt_Unit v e G) W_unit R_unit. Qed.
Lemma d_ConstantSpecification v e tag : good_ConstantSpecification e -> called_well (An_ConstantSpecification e) tag -> dispatched v (An_ConstantSpecification e) tag.
Proof. intros G H. not_given tag H. through (rt_ConstantSpecification v e G) W_constant_specification R_constant_specification. Qed.
Lemma d_NvDataInterface v e tag : good_NvDataInterface e -> called_well (An_NvDataInterface e) tag -> dispatched v (An_NvDataInterface e) tag.
Proof. intros G H. not_given tag H. through (rt_NvDataInterface v e G) W_nv_data_interface R_nv_data_interface. Qed.
Lemma d_ParameterInterface v e tag : good_ParameterInterface e -> called_well (An_ParameterInterface e) tag -> dispatched v (An_ParameterInterface e) tag.
Proof. intros G H. not_given tag H. through (rt_ParameterInterface v e G) W_parameter_interface R_parameter_interface. Qed.
Lemma d_SenderReceiverInterface v e tag : good_SenderReceiverInterface e -> called_well (An_SenderReceiverInterface e) tag -> dispatched v (An_SenderReceiverInterface e) tag.
Proof. intros G H. not_given tag H. through (rt_SenderReceiverInterface v e G) W_sender_receiver_interface R_sender_receiver_interface. Qed.
Lemma d_ClientServerInterface v e tag : good_ClientServerInterface e -> called_well (An_ClientServerInterface e) tag -> dispatched v (An_ClientServerInterface e) tag.
Proof. intros G H. not_given tag H. through (rt_ClientServerInterface v e G) W_client_server_interface R_client_server_interface. Qed.
Lemma d_ModeSwitchInterface v e tag : good_ModeSwitchInterface e -> called_well (An_ModeSwitchInterface e) tag -> dispatched v (An_ModeSwitchInterface e) tag.
Proof. intros G H. not_given tag H. through (rt_ModeSwitchInterface v e G) W_mode_switch_interface R_mode_switch_interface. Qed.
Lemma d_ModeDeclarationGroup v e tag : good_ModeDeclarationGroup e -> called_well (An_ModeDeclarationGroup e) tag -> dispatched v (An_ModeDeclarationGroup e) tag.
Proof. intros G H. not_given tag H. through (rt_ModeDeclarationGroup v e G) W_mode_declaration_group R_mode_declaration_group. Qed.
Lemma d_E2EProfileCompatibilityProps v e tag : good_E2EProfileCompatibilityProps e -> called_well (An_E2EProfileCompatibilityProps e) tag -> dispatched v (An_E2EProfileCompatibilityProps e) tag.
Proof. intros G H. not_given tag H. through (rt_E2EProfileCompatibilityProps v e G) W_e2e_profile_compatibility_props R_e2e_profile_compatibility_props. Qed.
Lemma d_ApplicationSoftwareComponentType v e tag : good_ApplicationSoftwareComponentType v e -> called_well (An_ApplicationSoftwareComponentType e) tag -> dispatched v (An_ApplicationSoftwareComponentType e) tag.
Proof. intros G H. not_given tag H. through (rt_ApplicationSoftwareComponentType v e G) W_application_software_component_type R_application_sw_component_type. Qed.
Lemma d_CompositionSwComponentType v e tag : good_CompositionSwComponentType e -> called_well (An_CompositionSwComponentType e) tag -> dispatched v (An_CompositionSwComponentType e) tag.
Proof. intros G H. not_given tag H. through (rt_CompositionSwComponentType v e G) W_composition_sw_component_type R_composition_sw_component_type. Qed.
Lemma d_SwcImplementation v e tag : good_SwcImplementation e -> called_well (An_SwcImplementation e) tag -> dispatched v (An_SwcImplementation e) tag.
Proof. intros G H. not_given tag H. through (rt_SwcImplementation v e G) W_swc_implementation R_swc_implementation. Qed.
Lemma d_ModeSwitchSenderComSpec v e tag : good_ModeSwitchSenderComSpec e -> called_well (An_ModeSwitchSenderComSpec e) tag -> dispatched v (An_ModeSwitchSenderComSpec e) tag.
Proof. intros G H. not_given tag H. through (rt_ModeSwitchSenderComSpec v e G) W_mode_switch_sender_com_spec R_mode_switch_sender_com_spec. Qed.
Lemma d_QueuedSenderComSpec v e tag : good_QueuedSenderComSpec e -> called_well (An_QueuedSenderComSpec e) tag -> dispatched v (An_QueuedSenderComSpec e) tag.
Proof. intros G H. not_given tag H. through (rt_QueuedSenderComSpec v e G) W_queued_sender_com_spec R_queued_sender_com_spec. Qed.
Lemma d_NonqueuedSenderComSpec v e tag : good_NonqueuedSenderComSpec e -> called_well (An_NonqueuedSenderComSpec e) tag -> dispatched v (An_NonqueuedSenderComSpec e) tag.
Proof. intros G H. not_given tag H. through (rt_NonqueuedSenderComSpec v e G) W_non_queued_sender_com_spec R_nonqueued_sender_com_spec. Qed.
Lemma d_NvProvideComSpec v e tag : good_NvProvideComSpec e -> called_well (An_NvProvideComSpec e) tag -> dispatched v (An_NvProvideComSpec e) tag.
Proof. intros G H. not_given tag H. through (rt_NvProvideComSpec v e G) W_nv_provide_com_spec R_nv_provider_com_spec. Qed.
Lemma d_ParameterProvideComSpec v e tag : good_ParameterProvideComSpec e -> called_well (An_ParameterProvideComSpec e) tag -> dispatched v (An_ParameterProvideComSpec e) tag.
Proof. intros G H. not_given tag H. through (rt_ParameterProvideComSpec v e G) W_parameter_provide_com_spec R_parameter_provide_com_spec. Qed.
Lemma d_ServerComSpec v e tag : good_ServerComSpec e -> called_well (An_ServerComSpec e) tag -> dispatched v (An_ServerComSpec e) tag.
Proof. intros G H. not_given tag H. through (rt_ServerComSpec v e G) W_server_com_spec R_server_com_spec. Qed.
Lemma d_QueuedReceiverComSpec v e tag : good_QueuedReceiverComSpec e -> called_well (An_QueuedReceiverComSpec e) tag -> dispatched v (An_QueuedReceiverComSpec e) tag.
Proof. intros G H. not_given tag H. through (rt_QueuedReceiverComSpec v e G) W_queued_receiver_com_spec R_queued_receiver_com_spec. Qed.
Lemma d_NonqueuedReceiverComSpec v e tag : good_NonqueuedReceiverComSpec e -> called_well (An_NonqueuedReceiverComSpec e) tag -> dispatched v (An_NonqueuedReceiverComSpec e) tag.
Proof. intros G H. not_given tag H. through (rt_NonqueuedReceiverComSpec v e G) W_nonqueued_receiver_com_spec R_nonqueued_receiver_com_spec. Qed.
Lemma d_NvRequireComSpec v e tag : good_NvRequireComSpec e -> called_well (An_NvRequireComSpec e) tag -> dispatched v (An_NvRequireComSpec e) tag.
Proof. intros G H. not_given tag H. through (rt_NvRequireComSpec v e G) W_nv_require_com_spec R_nv_require_com_spec. Qed.
Lemma d_ParameterRequireComSpec v e tag : good_ParameterRequireComSpec e -> called_well (An_ParameterRequireComSpec e) tag -> dispatched v (An_ParameterRequireComSpec e) tag.
Proof. intros G H. not_given tag H. through (rt_ParameterRequireComSpec v e G) W_parameter_require_com_spec R_parameter_require_com_spec. Qed.
Lemma d_ModeSwitchReceiverComSpec v e tag : good_ModeSwitchReceiverComSpec e -> called_well (An_ModeSwitchReceiverComSpec e) tag -> dispatched v (An_ModeSwitchReceiverComSpec e) tag.
Proof. intros G H. not_given tag H. through (rt_ModeSwitchReceiverComSpec v e G) W_mode_switch_receiver_com_spec R_mode_switch_receiver_com_spec. Qed.
Lemma d_ClientComSpec v e tag : good_ClientComSpec e -> called_well (An_ClientComSpec e) tag -> dispatched v (An_ClientComSpec e) tag.
Proof. intros G H. not_given tag H. through (rt_ClientComSpec v e G) W_client_com_spec R_client_com_spec. Qed.
Lemma d_AsynchronousServerCallReturnsEvent v e tag : good_AsynchronousServerCallReturnsEvent e -> called_well (An_AsynchronousServerCallReturnsEvent e) tag -> dispatched v (An_AsynchronousServerCallReturnsEvent e) tag.
Proof. intros G H. not_given tag H. through (rt_AsynchronousServerCallReturnsEvent v e G) W_async_server_call_returns_event R_async_server_call_returns_event. Qed.
Lemma d_BackgroundEvent v e tag : good_BackgroundEvent e -> called_well (An_BackgroundEvent e) tag -> dispatched v (An_BackgroundEvent e) tag.
Proof. intros G H. not_given tag H. through (rt_BackgroundEvent v e G) W_background_event R_background_event. Qed.
Lemma d_DataReceiveErrorEvent v e tag : good_DataReceiveErrorEvent e -> called_well (An_DataReceiveErrorEvent e) tag -> dispatched v (An_DataReceiveErrorEvent e) tag.
Proof. intros G H. not_given tag H. through (rt_DataReceiveErrorEvent v e G) W_data_receive_error_event R_data_receive_error_event. Qed.
Lemma d_DataReceivedEvent v e tag : good_DataReceivedEvent e -> called_well (An_DataReceivedEvent e) tag -> dispatched v (An_DataReceivedEvent e) tag.
Proof. intros G H. not_given tag H. through (rt_DataReceivedEvent v e G) W_data_received_event R_data_received_event. Qed.
Lemma d_DataSendCompletedEvent v e tag : good_DataSendCompletedEvent e -> called_well (An_DataSendCompletedEvent e) tag -> dispatched v (An_DataSendCompletedEvent e) tag.
Proof. intros G H. not_given tag H. through (rt_DataSendCompletedEvent v e G) W_data_send_completed_event R_data_send_completed_event. Qed.
Lemma d_DataWriteCompletedEvent v e tag : good_DataWriteCompletedEvent e -> called_well (An_DataWriteCompletedEvent e) tag -> dispatched v (An_DataWriteCompletedEvent e) tag.
Proof. intros G H. not_given tag H. through (rt_DataWriteCompletedEvent v e G) W_data_write_completed_event R_data_write_completed_event. Qed.
Lemma d_ExternalTriggerOccurredEvent v e tag : good_ExternalTriggerOccurredEvent e -> called_well (An_ExternalTriggerOccurredEvent e) tag -> dispatched v (An_ExternalTriggerOccurredEvent e) tag.
Proof. intros G H. not_given tag H. through (rt_ExternalTriggerOccurredEvent v e G) W_external_trigger_occured_event R_external_trigger_occured_event. Qed.
Lemma d_InitEvent v e tag : good_InitEvent e -> called_well (An_InitEvent e) tag -> dispatched v (An_InitEvent e) tag.
Proof. intros G H. not_given tag H. through (rt_InitEvent v e G) W_init_event R_init_event. Qed.
Lemma d_InternalTriggerOccurredEvent v e tag : good_InternalTriggerOccurredEvent e -> called_well (An_InternalTriggerOccurredEvent e) tag -> dispatched v (An_InternalTriggerOccurredEvent e) tag.
Proof. intros G H. not_given tag H. through (rt_InternalTriggerOccurredEvent v e G) W_internal_trigger_occured_event R_internal_trigger_occured_event. Qed.
Lemma d_ModeSwitchedAckEvent v e tag : good_ModeSwitchedAckEvent e -> called_well (An_ModeSwitchedAckEvent e) tag -> dispatched v (An_ModeSwitchedAckEvent e) tag.
Proof. intros G H. not_given tag H. through (rt_ModeSwitchedAckEvent v e G) W_mode_switched_ack_event R_mode_switched_ack_event. Qed.
Lemma d_OperationInvokedEvent v e tag : good_OperationInvokedEvent e -> called_well (An_OperationInvokedEvent e) tag -> dispatched v (An_OperationInvokedEvent e) tag.
Proof. intros G H. not_given tag H. through (rt_OperationInvokedEvent v e G) W_operation_invoked_event R_operation_invoked_event. Qed.
Lemma d_SwcModeManagerErrorEvent v e tag : good_SwcModeManagerErrorEvent e -> called_well (An_SwcModeManagerErrorEvent e) tag -> dispatched v (An_SwcModeManagerErrorEvent e) tag.
Proof. intros G H. not_given tag H. through (rt_SwcModeManagerErrorEvent v e G) W_swc_mode_manager_error_event R_swc_mode_manager_error_event. Qed.
Lemma d_SwcModeSwitchEvent v e tag : good_SwcModeSwitchEvent e -> called_well (An_SwcModeSwitchEvent e) tag -> dispatched v (An_SwcModeSwitchEvent e) tag.
Proof. intros G H. not_given tag H. through (rt_SwcModeSwitchEvent v e G) W_swc_mode_switch_event R_swc_mode_switch_event. Qed.
Lemma d_TimingEvent v e tag : good_TimingEvent e -> called_well (An_TimingEvent e) tag -> dispatched v (An_TimingEvent e) tag.
Proof. intros G H. not_given tag H. through (rt_TimingEvent v e G) W_timing_event R_timing_event. Qed.
Lemma d_TransformerHardErrorEvent v e tag : good_TransformerHardErrorEvent e -> called_well (An_TransformerHardErrorEvent e) tag -> dispatched v (An_TransformerHardErrorEvent e) tag.
Proof. intros G H. not_given tag H. through (rt_TransformerHardErrorEvent v e G) W_transformer_hard_error_event R_transformer_hard_error_event. Qed.
Lemma d_Computation v e tag : good_Computation e -> called_well (An_Computation e) tag -> dispatched v (An_Computation e) tag.
Proof. intros G H. given tag H. through (rt_Computation v t e H G) W_computation R_computation. Qed.
Lemma d_CompuRational v e tag : good_CompuRational e -> called_well (An_CompuRational e) tag -> dispatched v (An_CompuRational e) tag.
Proof. intros G H. not_given tag H. through (rt_CompuRational v e G) W_compu_rational R_compu_rational. Qed.
Lemma d_CompuScale v e tag : good_CompuScale e -> called_well (An_CompuScale e) tag -> dispatched v (An_CompuScale e) tag.
Proof. intros G H. not_given tag H. through (rt_CompuScale v e G) W_compu_scale R_compu_scale. Qed.
Lemma d_ScaleConstraint v e tag : good_ScaleConstraint e -> called_well (An_ScaleConstraint e) tag -> dispatched v (An_ScaleConstraint e) tag.
Proof. intros G H. not_given tag H. through (rt_ScaleConstraint v e G) W_scale_constraint R_scale_constraint. Qed.
Lemma d_InternalConstraint v e tag : good_InternalConstraint e -> called_well (An_InternalConstraint e) tag -> dispatched v (An_InternalConstraint e) tag.
Proof. intros G H. not_given tag H. through (rt_InternalConstraint v e G) W_internal_constraint R_internal_constraint. Qed.
Lemma d_PhysicalConstraint v e tag : good_PhysicalConstraint e -> called_well (An_PhysicalConstraint e) tag -> dispatched v (An_PhysicalConstraint e) tag.
Proof. intros G H. not_given tag H. through (rt_PhysicalConstraint v e G) W_physical_constraint R_physical_constraint. Qed.
Lemma d_DataConstraintRule v e tag : good_DataConstraintRule e -> called_well (An_DataConstraintRule e) tag -> dispatched v (An_DataConstraintRule e) tag.
Proof. intros G H. not_given tag H. through (rt_DataConstraintRule v e G) W_data_constraint_rule R_data_constraint_rule. Qed.
Lemma d_SwDataDefPropsConditional v e tag : good_SwDataDefPropsConditional e -> called_well (An_SwDataDefPropsConditional e) tag -> dispatched v (An_SwDataDefPropsConditional e) tag.
Proof. intros G H. not_given tag H. through (rt_SwDataDefPropsConditional v e G) W_sw_data_def_props_conditional R_sw_data_def_props_conditional. Qed.
Lemma d_SwBitRepresentation v e tag : good_SwBitRepresentation e -> called_well (An_SwBitRepresentation e) tag -> dispatched v (An_SwBitRepresentation e) tag.
Proof. intros G H. not_given tag H. through (rt_SwBitRepresentation v e G) W_sw_bit_represenation R_sw_bit_representation. Qed.
Lemma d_SwTextProps v e tag : good_SwTextProps e -> called_well (An_SwTextProps e) tag -> dispatched v (An_SwTextProps e) tag.
Proof. intros G H. not_given tag H. through (rt_SwTextProps v e G) W_sw_text_props R_sw_text_props. Qed.
Lemma d_SwPointerTargetProps v e tag : good_SwPointerTargetProps e -> called_well (An_SwPointerTargetProps e) tag -> dispatched v (An_SwPointerTargetProps e) tag.
Proof. intros G H. not_given tag H. through (rt_SwPointerTargetProps v e G) W_sw_pointer_target_props R_sw_pointer_target_props. Qed.
Lemma d_SymbolProps v e tag : good_SymbolProps e -> called_well (An_SymbolProps e) tag -> dispatched v (An_SymbolProps e) tag.
Proof. intros G H. given tag H. through (rt_SymbolProps v t e H G) W_symbol_props R_symbol_props. Qed.
Lemma d_ImplementationDataTypeElement v e tag : good_ImplementationDataTypeElement e -> called_well (An_ImplementationDataTypeElement e) tag -> dispatched v (An_ImplementationDataTypeElement e) tag.
Proof. intros G H. not_given tag H. through (rt_ImplementationDataTypeElement v e G) W_implementation_data_type_element R_implementation_data_type_element. Qed.
Lemma d_ApplicationArrayElement v e tag : good_ApplicationArrayElement e -> called_well (An_ApplicationArrayElement e) tag -> dispatched v (An_ApplicationArrayElement e) tag.
Proof. intros G H. not_given tag H. through (rt_ApplicationArrayElement v e G) W_application_array_element R_application_array_element. Qed.
Lemma d_ApplicationRecordElement v e tag : good_ApplicationRecordElement e -> called_well (An_ApplicationRecordElement e) tag -> dispatched v (An_ApplicationRecordElement e) tag.
Proof. intros G H. not_given tag H. through (rt_ApplicationRecordElement v e G) W_application_record_element R_application_record_element. Qed.
Lemma d_DataTypeMap v e tag : good_DataTypeMap e -> called_well (An_DataTypeMap e) tag -> dispatched v (An_DataTypeMap e) tag.
Proof. intros G H. not_given tag H. through (rt_DataTypeMap v e G) W_data_type_map R_data_type_map. Qed.
Lemma d_ValueList v e tag : good_ValueList e -> called_well (An_ValueList e) tag -> dispatched v (An_ValueList e) tag.
Proof. intros G H. not_given tag H. through (rt_ValueList v e G) W_value_list R_value_list. Qed.
Lemma d_VariableDataPrototype v e tag : good_VariableDataPrototype e -> called_well (An_VariableDataPrototype e) tag -> dispatched v (An_VariableDataPrototype e) tag.
Proof. intros G H. given tag H. through (rt_VariableDataPrototype v t e H G) W_variable_data_prototype R_variable_data_prototype. Qed.
Lemma d_ParameterDataPrototype v e tag : good_ParameterDataPrototype e -> called_well (An_ParameterDataPrototype e) tag -> dispatched v (An_ParameterDataPrototype e) tag.
Proof. intros G H. given tag H. through (rt_ParameterDataPrototype v t e H G) W_parameter_data_prototype R_parameter_data_prototype. Qed.
Lemma d_ArgumentDataPrototype v e tag : good_ArgumentDataPrototype e -> called_well (An_ArgumentDataPrototype e) tag -> dispatched v (An_ArgumentDataPrototype e) tag.
Proof. intros G H. not_given tag H. through (rt_ArgumentDataPrototype v e G) W_argument_data_prototype R_argument_data_prototype. Qed.
Lemma d_ModeRequestTypeMap v e tag : good_ModeRequestTypeMap e -> called_well (An_ModeRequestTypeMap e) tag -> dispatched v (An_ModeRequestTypeMap e) tag.
Proof. intros G H. not_given tag H. through (rt_ModeRequestTypeMap v e G) W_mode_request_type_map R_mode_request_type_map. Qed.
Lemma d_SwValues v e tag : good_SwValues e -> called_well (An_SwValues e) tag -> dispatched v (An_SwValues e) tag.
Proof. intros G H. not_given tag H. through (rt_SwValues v e G) W_sw_values R_sw_values. Qed.
Lemma d_SwAxisCont v e tag : good_SwAxisCont e -> called_well (An_SwAxisCont e) tag -> dispatched v (An_SwAxisCont e) tag.
Proof. intros G H. not_given tag H. through (rt_SwAxisCont v e G) W_sw_axis_cont R_sw_axis_cont. Qed.
Lemma d_SwValueCont v e tag : good_SwValueCont e -> called_well (An_SwValueCont e) tag -> dispatched v (An_SwValueCont e) tag.
Proof. intros G H. not_given tag H. through (rt_SwValueCont v e G) W_sw_value_cont R_sw_value_cont. Qed.
Lemma d_InvalidationPolicy v e tag : good_InvalidationPolicy e -> called_well (An_InvalidationPolicy e) tag -> dispatched v (An_InvalidationPolicy e) tag.
Proof. intros G H. not_given tag H. through (rt_InvalidationPolicy v e G) W_invalidation_policy R_invalidation_policy. Qed.
Lemma d_ApplicationError v e tag : good_ApplicationError e -> called_well (An_ApplicationError e) tag -> dispatched v (An_ApplicationError e) tag.
Proof. intros G H. not_given tag H. through (rt_ApplicationError v e G) W_application_error R_application_error. Qed.
Lemma d_ClientServerOperation v e tag : good_ClientServerOperation e -> called_well (An_ClientServerOperation e) tag -> dispatched v (An_ClientServerOperation e) tag.
Proof. intros G H. not_given tag H. through (rt_ClientServerOperation v e G) W_client_server_operation R_client_server_operation. Qed.
Lemma d_ModeDeclaration v e tag : good_ModeDeclaration e -> called_well (An_ModeDeclaration e) tag -> dispatched v (An_ModeDeclaration e) tag.
Proof. intros G H. not_given tag H. through (rt_ModeDeclaration v e G) W_mode_declaration R_mode_declaration. Qed.
Lemma d_ModeErrorBehavior v e tag : good_ModeErrorBehavior e -> called_well (An_ModeErrorBehavior e) tag -> dispatched v (An_ModeErrorBehavior e) tag.
Proof. intros G H. given tag H. through (rt_ModeErrorBehavior v t e H G) W_mode_error_behavior R_mode_error_behavior. Qed.
Lemma d_ModeTransition v e tag : good_ModeTransition e -> called_well (An_ModeTransition e) tag -> dispatched v (An_ModeTransition e) tag.
Proof. intros G H. not_given tag H. through (rt_ModeTransition v e G) W_mode_transition R_mode_transition. Qed.
Lemma d_ModeDeclarationGroupPrototype v e tag : good_ModeDeclarationGroupPrototype e -> called_well (An_ModeDeclarationGroupPrototype e) tag -> dispatched v (An_ModeDeclarationGroupPrototype e) tag.
Proof. intros G H. given tag H. through (rt_ModeDeclarationGroupPrototype v t e H G) W_mode_declaration_group_prototype R_mode_declaration_group_prototype. Qed.
Lemma d_EndToEndTransformationComSpecProps v e tag : good_EndToEndTransformationComSpecProps e -> called_well (An_EndToEndTransformationComSpecProps e) tag -> dispatched v (An_EndToEndTransformationComSpecProps e) tag.
Proof. intros G H. not_given tag H. through (rt_EndToEndTransformationComSpecProps v e G) W_e2e_transformation_com_spec_props R_e2e_transformation_com_spec_props. Qed.
Lemma d_ModeSwitchedAckRequest v e tag : good_ModeSwitchedAckRequest e -> called_well (An_ModeSwitchedAckRequest e) tag -> dispatched v (An_ModeSwitchedAckRequest e) tag.
Proof. intros G H. not_given tag H. through (rt_ModeSwitchedAckRequest v e G) W_mode_switched_ack_request R_mode_switched_ack_request. Qed.
Lemma d_TransmissionAcknowledgementRequest v e tag : good_TransmissionAcknowledgementRequest e -> called_well (An_TransmissionAcknowledgementRequest e) tag -> dispatched v (An_TransmissionAcknowledgementRequest e) tag.
Proof. intros G H. not_given tag H. through (rt_TransmissionAcknowledgementRequest v e G) W_transmission_acknowledgement_request R_transmission_acknowledgement_request. Qed.
Lemma d_TransmissionComSpecProps v e tag : good_TransmissionComSpecProps e -> called_well (An_TransmissionComSpecProps e) tag -> dispatched v (An_TransmissionComSpecProps e) tag.
Proof. intros G H. not_given tag H. through (rt_TransmissionComSpecProps v e G) W_tranmsission_com_spec_props R_tranmsission_com_spec_props. Qed.
Lemma d_ReceptionComSpecProps v e tag : good_ReceptionComSpecProps e -> called_well (An_ReceptionComSpecProps e) tag -> dispatched v (An_ReceptionComSpecProps e) tag.
Proof. intros G H. not_given tag H. through (rt_ReceptionComSpecProps v e G) W_reception_com_spec_props R_reception_com_spec_props. Qed.
Lemma d_ProvidePortPrototype v e tag : good_ProvidePortPrototype e -> called_well (An_ProvidePortPrototype e) tag -> dispatched v (An_ProvidePortPrototype e) tag.
Proof. intros G H. not_given tag H. through (rt_ProvidePortPrototype v e G) W_provide_port_prototype R_provide_port_prototype. Qed.
Lemma d_RequirePortPrototype v e tag : good_RequirePortPrototype e -> called_well (An_RequirePortPrototype e) tag -> dispatched v (An_RequirePortPrototype e) tag.
Proof. intros G H. not_given tag H. through (rt_RequirePortPrototype v e G) W_require_port_prototype R_require_port_prototype. Qed.
Lemma d_PRPortPrototype v e tag : good_PRPortPrototype e -> called_well (An_PRPortPrototype e) tag -> dispatched v (An_PRPortPrototype e) tag.
Proof. intros G H. not_given tag H. through (rt_PRPortPrototype v e G) W_pr_port_prototype R_pr_port_prototype. Qed.
Lemma d_SwComponentPrototype v e tag : good_SwComponentPrototype e -> called_well (An_SwComponentPrototype e) tag -> dispatched v (An_SwComponentPrototype e) tag.
Proof. intros G H. not_given tag H. through (rt_SwComponentPrototype v e G) W_sw_component_prototype R_sw_component_prototype. Qed.
Lemma d_AssemblySwConnector v e tag : good_AssemblySwConnector e -> called_well (An_AssemblySwConnector e) tag -> dispatched v (An_AssemblySwConnector e) tag.
Proof. intros G H. not_given tag H. through (rt_AssemblySwConnector v e G) W_assembly_sw_connector R_assembly_sw_connector. Qed.
Lemma d_DelegationSwConnector v e tag : good_DelegationSwConnector e -> called_well (An_DelegationSwConnector e) tag -> dispatched v (An_DelegationSwConnector e) tag.
Proof. intros G H. not_given tag H. through (rt_DelegationSwConnector v e G) W_delegation_sw_connector R_delegation_sw_connector. Qed.
Lemma d_PassThroughSwConnector v e tag : good_PassThroughSwConnector e -> called_well (An_PassThroughSwConnector e) tag -> dispatched v (An_PassThroughSwConnector e) tag.
Proof. intros G H. not_given tag H. through (rt_PassThroughSwConnector v e G) W_passthrough_sw_connector R_pass_through_sw_connector. Qed.
Lemma d_RModeInAtomicSwcInstanceRef v e tag : good_RModeInAtomicSwcInstanceRef e -> called_well (An_RModeInAtomicSwcInstanceRef e) tag -> dispatched v (An_RModeInAtomicSwcInstanceRef e) tag.
Proof. intros G H. given tag H. through (rt_RModeInAtomicSwcInstanceRef v t e H G) W_r_mode_in_atomic_swc_instance_ref R_r_mode_in_atomic_swc_instance_ref. Qed.
Lemma d_RModeGroupInAtomicSwcInstanceRef v e tag : good_RModeGroupInAtomicSwcInstanceRef e -> called_well (An_RModeGroupInAtomicSwcInstanceRef e) tag -> dispatched v (An_RModeGroupInAtomicSwcInstanceRef e) tag.
Proof. intros G H. not_given tag H. through (rt_RModeGroupInAtomicSwcInstanceRef v e G) W_r_mode_group_in_atomic_swc_instance_ref R_r_mode_group_in_atomic_swc_instance_ref. Qed.
Lemma d_ArVariableInImplementationDataInstanceRef v e tag : good_ArVariableInImplementationDataInstanceRef e -> called_well (An_ArVariableInImplementationDataInstanceRef e) tag -> dispatched v (An_ArVariableInImplementationDataInstanceRef e) tag.
Proof. intros G H. given tag H. through (rt_ArVariableInImplementationDataInstanceRef v t e H G) W_variable_in_impl_data_instance_ref R_variable_in_impl_data_instance_ref. Qed.
Lemma d_VariableInAtomicSWCTypeInstanceRef v e tag : good_VariableInAtomicSWCTypeInstanceRef e -> called_well (An_VariableInAtomicSWCTypeInstanceRef e) tag -> dispatched v (An_VariableInAtomicSWCTypeInstanceRef e) tag.
Proof. intros G H. not_given tag H. through (rt_VariableInAtomicSWCTypeInstanceRef v e G) W_variable_in_atomic_swc_type_instance_ref R_variable_in_atomic_swc_type_instance_ref. Qed.
Lemma d_AutosarVariableRef v e tag : good_AutosarVariableRef e -> called_well (An_AutosarVariableRef e) tag -> dispatched v (An_AutosarVariableRef e) tag.
Proof. intros G H. given tag H. through (rt_AutosarVariableRef v t e H G) W_autosar_variable_ref R_autosar_variable_ref. Qed.
Lemma d_VariableAccess v e tag : good_VariableAccess e -> called_well (An_VariableAccess e) tag -> dispatched v (An_VariableAccess e) tag.
Proof. intros G H. given tag H. through (rt_VariableAccess v t e H G) W_variable_access R_variable_access. Qed.
Lemma d_SwcInternalBehavior v e tag : good_SwcInternalBehavior v e -> called_well (An_SwcInternalBehavior e) tag -> dispatched v (An_SwcInternalBehavior e) tag.
Proof. intros G H. not_given tag H. through (rt_SwcInternalBehavior v e G) W_swc_internal_behavior R_swc_internal_behavior. Qed.
Lemma d_ExecutableEntityActivationReason v e tag : good_ExecutableEntityActivationReason e -> called_well (An_ExecutableEntityActivationReason e) tag -> dispatched v (An_ExecutableEntityActivationReason e) tag.
Proof. intros G H. not_given tag H. through (rt_ExecutableEntityActivationReason v e G) W_executable_entity_activation_reason R_executable_entity_activation_reason. Qed.
Lemma d_ExclusiveAreaRefConditional v e tag : good_ExclusiveAreaRefConditional e -> called_well (An_ExclusiveAreaRefConditional e) tag -> dispatched v (An_ExclusiveAreaRefConditional e) tag.
Proof. intros G H. not_given tag H. through (rt_ExclusiveAreaRefConditional v e G) W_exclusive_area_ref_conditional R_exclusive_area_ref_conditional. Qed.
Lemma d_RunnableEntityArgument v e tag : good_RunnableEntityArgument e -> called_well (An_RunnableEntityArgument e) tag -> dispatched v (An_RunnableEntityArgument e) tag.
Proof. intros G H. not_given tag H. through (rt_RunnableEntityArgument v e G) W_runnable_entity_argument R_runnable_entity_argument. Qed.
Lemma d_RunnableEntity v e tag : good_RunnableEntity v e -> called_well (An_RunnableEntity e) tag -> dispatched v (An_RunnableEntity e) tag.
Proof. intros G H. not_given tag H. through (rt_RunnableEntity v e G) W_runnable_entity R_runnable_entity. Qed.
Lemma d_PortDefinedArgumentValue v e tag : good_PortDefinedArgumentValue e -> called_well (An_PortDefinedArgumentValue e) tag -> dispatched v (An_PortDefinedArgumentValue e) tag.
Proof. intros G H. not_given tag H. through (rt_PortDefinedArgumentValue v e G) W_port_defined_argument_value R_port_defined_argument_value. Qed.
Lemma d_CommunicationBufferLocking v e tag : good_CommunicationBufferLocking e -> called_well (An_CommunicationBufferLocking e) tag -> dispatched v (An_CommunicationBufferLocking e) tag.
Proof. intros G H. not_given tag H. through (rt_CommunicationBufferLocking v e G) W_communication_buffer_locking R_communication_buffer_locking. Qed.
Lemma d_PortApiOption v e tag : good_PortApiOption e -> called_well (An_PortApiOption e) tag -> dispatched v (An_PortApiOption e) tag.
Proof. intros G H. not_given tag H. through (rt_PortApiOption v e G) W_port_api_option R_port_api_option. Qed.
Lemma d_AsynchronousServerCallPoint v e tag : good_AsynchronousServerCallPoint e -> called_well (An_AsynchronousServerCallPoint e) tag -> dispatched v (An_AsynchronousServerCallPoint e) tag.
Proof. intros G H. not_given tag H. through (rt_AsynchronousServerCallPoint v e G) W_async_server_call_point R_async_server_call_point. Qed.
Lemma d_SynchronousServerCallPoint v e tag : good_SynchronousServerCallPoint e -> called_well (An_SynchronousServerCallPoint e) tag -> dispatched v (An_SynchronousServerCallPoint e) tag.
Proof. intros G H. not_given tag H. through (rt_SynchronousServerCallPoint v e G) W_sync_server_call_point R_sync_server_call_point. Qed.
Lemma d_AsynchronousServerCallResultPoint v e tag : good_AsynchronousServerCallResultPoint e -> called_well (An_AsynchronousServerCallResultPoint e) tag -> dispatched v (An_AsynchronousServerCallResultPoint e) tag.
Proof. intros G H. not_given tag H. through (rt_AsynchronousServerCallResultPoint v e G) W_async_server_call_result_point R_async_server_call_result_point. Qed.
Lemma d_ExternalTriggeringPoint v e tag : good_ExternalTriggeringPoint e -> called_well (An_ExternalTriggeringPoint e) tag -> dispatched v (An_ExternalTriggeringPoint e) tag.
Proof. intros G H. not_given tag H. through (rt_ExternalTriggeringPoint v e G) W_external_triggering_point R_external_triggering_point. Qed.
Lemma d_InternalTriggeringPoint v e tag : good_InternalTriggeringPoint e -> called_well (An_InternalTriggeringPoint e) tag -> dispatched v (An_InternalTriggeringPoint e) tag.
Proof. intros G H. not_given tag H. through (rt_InternalTriggeringPoint v e G) W_internal_triggering_point R_internal_triggering_point. Qed.
Lemma d_ModeAccessPoint v e tag : good_ModeAccessPoint e -> called_well (An_ModeAccessPoint e) tag -> dispatched v (An_ModeAccessPoint e) tag.
Proof. intros G H. not_given tag H. through (rt_ModeAccessPoint v e G) W_mode_access_point R_mode_access_point. Qed.
Lemma d_ModeSwitchPoint v e tag : good_ModeSwitchPoint e -> called_well (An_ModeSwitchPoint e) tag -> dispatched v (An_ModeSwitchPoint e) tag.
Proof. intros G H. not_given tag H. through (rt_ModeSwitchPoint v e G) W_mode_switch_point R_mode_switch_point. Qed.
Lemma d_ParameterInAtomicSwcTypeInstanceRef v e tag : good_ParameterInAtomicSwcTypeInstanceRef e -> called_well (An_ParameterInAtomicSwcTypeInstanceRef e) tag -> dispatched v (An_ParameterInAtomicSwcTypeInstanceRef e) tag.
Proof. intros G H. not_given tag H. through (rt_ParameterInAtomicSwcTypeInstanceRef v e G) W_parameter_in_atomic_swc_type_instance_ref R_parameter_in_atomic_swc_type_instance_ref. Qed.
Lemma d_AutosarParameterRef v e tag : good_AutosarParameterRef e -> called_well (An_AutosarParameterRef e) tag -> dispatched v (An_AutosarParameterRef e) tag.
Proof. intros G H. given tag H. through (rt_AutosarParameterRef v t e H G) W_autosar_parameter_ref R_autosar_parameter_ref. Qed.
Lemma d_ParameterAccess v e tag : good_ParameterAccess e -> called_well (An_ParameterAccess e) tag -> dispatched v (An_ParameterAccess e) tag.
Proof. intros G H. not_given tag H. through (rt_ParameterAccess v e G) W_parameter_access R_parameter_access. Qed.
Lemma d_WaitPoint v e tag : good_WaitPoint e -> called_well (An_WaitPoint e) tag -> dispatched v (An_WaitPoint e) tag.
Proof. intros G H. not_given tag H. through (rt_WaitPoint v e G) W_wait_point R_wait_point. Qed.
Lemma d_LanguageLongName v e tag : good_lang e -> called_well (An_LanguageLongName e) tag -> dispatched v (An_LanguageLongName e) tag.
Proof. intros G H. not_given tag H. through (c_lang "L-4" e eq_refl G) W_language_long_name R_language_long_name. Qed.
Lemma d_LanguageParagraph v e tag : good_lang e -> called_well (An_LanguageParagraph e) tag -> dispatched v (An_LanguageParagraph e) tag.
Proof. intros G H. not_given tag H. through (c_lang "L-1" e eq_refl G) W_language_paragraph R_language_paragraph. Qed.
Lemma d_LanguageVerbatim v e tag : good_lang e -> called_well (An_LanguageVerbatim e) tag -> dispatched v (An_LanguageVerbatim e) tag.
Proof. intros G H. not_given tag H. through (c_lang "L-5" e eq_refl G) W_language_verbatim R_language_verbatim. Qed.
Lemma d_SwBaseTypeRef v e tag : good_ref rc_SwBaseTypeRef e -> called_well (An_SwBaseTypeRef e) tag -> dispatched v (An_SwBaseTypeRef e) tag.
Proof. intros G H. not_given tag H. through (k_SwBaseTypeRef v "BASE-TYPE-REF" e eq_refl G) W_sw_base_type_ref R_sw_base_type_ref. Qed.
Lemma d_PhysicalDimensionRef v e tag : good_ref rc_PhysicalDimensionRef e -> called_well (An_PhysicalDimensionRef e) tag -> dispatched v (An_PhysicalDimensionRef e) tag.
Proof. intros G H. not_given tag H. through (k_PhysicalDimensionRef v "PHYSICAL-DIMENSION-REF" e eq_refl G) W_physical_dimension_ref R_physical_dimension_ref. Qed.
Lemma d_ApplicationDataTypeRef v e tag : good_ref rc_ApplicationDataTypeRef e -> called_well (An_ApplicationDataTypeRef e) tag -> dispatched v (An_ApplicationDataTypeRef e) tag.
Proof. intros G H. given tag H. through (k_ApplicationDataTypeRef v t e H G) W_application_data_type_ref R_application_data_type_ref. Qed.
Lemma d_ConstantRef v e tag : good_ref rc_ConstantRef e -> called_well (An_ConstantRef e) tag -> dispatched v (An_ConstantRef e) tag.
Proof. intros G H. given tag H. through (k_ConstantRef v t e H G) W_constant_ref R_constant_ref. Qed.
Lemma d_Annotation v e tag : good_annotation e -> called_well (An_Annotation e) tag -> dispatched v (An_Annotation e) tag.
Proof. intros G H. not_given tag H. through (c_annotation e G) W_annotation R_annotation. Qed.
Lemma d_DocumentationBlock v e tag : good_doc e -> called_well (An_DocumentationBlock e) tag -> dispatched v (An_DocumentationBlock e) tag.
Proof. intros G H. given tag H. through (c_doc t e H G) W_documentation_block R_documentation_block. Qed.
Lemma d_SingleLanguageUnitNames v e tag : good_names e -> called_well (An_SingleLanguageUnitNames e) tag -> dispatched v (An_SingleLanguageUnitNames e) tag.
Proof. intros G H. given tag H. through (c_unit_names t e H G) W_single_language_unit_names R_single_language_unit_names. Qed.
Lemma d_MultilanguageLongName v e tag : all_ok good_lang e -> called_well (An_MultilanguageLongName e) tag -> dispatched v (An_MultilanguageLongName e) tag.
Proof.
  intros G H. given tag H. destruct (c_langs t "L-4" e H eq_refl G) as (w & E & TG & S & R).
  exists W_multi_language_long_name, w. split; [reflexivity|]. split; [exact E|]. split; [exact TG|]. split; [exact S|].
  intros tn [(-> & I)|(N & ->)]; [|now destruct N]. cbn in I. exists R_multi_language_long_name. split.
  - destruct I as [<-|[<-|[]]]; reflexivity.
  - intros step d. unfold run_reader, made, tagged. rewrite x_tag_element, TG. destruct I as [<-|[<-|[]]]; cbn [existsb String.eqb Ascii.eqb Bool.eqb orb]; now rewrite R.
Qed.
Lemma d_MultiLanguageOverviewParagraph v e tag : all_ok good_lang e -> called_well (An_MultiLanguageOverviewParagraph e) tag ->
  dispatched v (An_MultiLanguageOverviewParagraph e) tag.
Proof.
  intros G H. given tag H. destruct (c_langs t "L-2" e H eq_refl G) as (w & E & TG & S & R).
  exists W_multi_language_overview_paragraph, w. split; [reflexivity|]. split; [exact E|]. split; [exact TG|]. split; [exact S|].
  intros tn [(-> & I)|(N & ->)]; [|now destruct N]. cbn in I. exists R_multi_language_overview_paragraph. split.
  - destruct I as [<-|[]]; reflexivity.
  - intros step d. unfold run_reader, made, tagged. rewrite x_tag_element, TG. destruct I as [<-|[]]; cbn [existsb String.eqb Ascii.eqb Bool.eqb orb]; now rewrite R.
Qed.
Lemma d_PortInCompositionTypeInstanceRef v e tag : good_object v (An_PortInCompositionTypeInstanceRef e) tag ->
  dispatched v (An_PortInCompositionTypeInstanceRef e) tag.
Proof.
  intros G. cbn [good_object] in G.
  destruct G as [(-> & G)|(-> & G)].
  - through (rt_port_in_composition v "PROVIDER-IREF" e eq_refl (or_introl (conj eq_refl G))) W_port_in_composition_type_instance_ref R_port_in_composition_type_instance_ref.
  - through (rt_port_in_composition v "REQUESTER-IREF" e eq_refl (or_intror (conj eq_refl (conj eq_refl G)))) W_port_in_composition_type_instance_ref R_port_in_composition_type_instance_ref.
Qed.
Lemma d_doc_item v i tag : good_doc_item i -> called_well (An_doc_item i) tag -> dispatched v (An_doc_item i) tag.
Proof.
  intros G H. not_given tag H. destruct (c_doc_item i G) as (w & E & S & R). destruct i as [a b c|a b c d f g].
  - exists W_multi_language_paragraph, w. split; [reflexivity|]. split; [exact E|].
    assert (X : w_tag w = "P") by (cbn [write_doc_item] in E; unfold node in E; destruct (attr_cat _); [|discriminate]; cbn [bind] in E;
      destruct (for_each c _); [|discriminate]; injection E as <-; reflexivity).
    split; [exact X|]. split; [exact S|]. intros tn [(-> & I)|(N & ->)]; [|now destruct N]. exists R_multi_language_paragraph. split; [reflexivity|].
    intros step d. unfold run_reader, made. destruct R as [(_ & R)|(T & _)]; [now rewrite R|congruence].
  - exists W_multi_language_verbatim, w. split; [reflexivity|]. split; [exact E|].
    assert (X : w_tag w = "VERBATIM") by (cbn [write_doc_item] in E; unfold node in E; destruct (attr_cat _); [|discriminate]; cbn [bind] in E;
      destruct (for_each g _); [|discriminate]; injection E as <-; reflexivity).
    split; [exact X|]. split; [exact S|]. intros tn [(-> & I)|(N & ->)]; [|now destruct N]. exists R_multi_language_verbatim. split; [reflexivity|].
    intros step dd. unfold run_reader, made. destruct R as [(T & _)|(_ & R)]; [congruence|now rewrite R].
Qed.
Lemma d_value v e tag : good_ValueSpecificationElement e -> called_well (An_value e) tag -> dispatched v (An_value e) tag.
Proof.
  intros G H. not_given tag H. destruct (rt_ValueSpecificationElement v e G) as (tg & w & E & TG & S & R).
  pose proof (value_named v e w E) as X.
  assert (RT : forall step d, retag (value_tag e) (element step d w) = element step d w).
  { intros step d. rewrite <- X, <- (x_tag_element step d w). apply retag_same. }
  assert (Y : exists wm rm, assoc (class_name (An_value e)) writer_all = Some wm /\ run_writer v wm (An_value e) None = Ok [w] /\
    find_reader None (value_tag e) = Some rm /\ run_reader v rm = made An_value (fun x => read_value_specification_element v (retag (value_tag e) x))).
  { destruct e; do 2 eexists; (split; [reflexivity|]); (split; [exact E|]); split; reflexivity. }
  destruct Y as (wm & rm & A & B & C & D). exists wm, w. split; [exact A|]. split; [exact B|]. split; [exact X|]. split; [exact S|].
  intros tn [(-> & I)|(N & ->)]; [|now destruct N]. exists rm. split; [exact C|]. intros step d. rewrite D. unfold made. rewrite RT, R. reflexivity.
Qed.


Lemma d_inline v i tag : good_inline i -> dispatched v (An_inline i) tag.
Proof.
  intros G. unfold dispatched.
  assert (Y : exists wm rm rd, assoc (class_name (An_inline i)) writer_all = Some wm /\ run_writer v wm (An_inline i) tag = inline_alone i /\
    find_reader None (inline_tag i) = Some rm /\ run_reader v rm = made An_inline rd /\ carries (inline_tag i) (inline_alone i) rd i).
  { destruct i as [|t c f y|t|t|t|t x y]; cbn [good_inline] in G; do 3 eexists; (split; [reflexivity|]); (split; [reflexivity|]); (split; [reflexivity|]); (split; [reflexivity|]);
      unfold inline_alone; cbn [write_inline inline_tag].
    - apply e_leaf; auto using attrs_ok_nil. apply calm_safe. exact I.
    - destruct G as ((s & -> & NE & S) & C). rewrite !attr_text_eq, !attr_enum_eq by auto with enums.
      pose (l := [("COLOR", c); ("FONT", etext em_EmphasisFont f); ("TYPE", etext em_EmphasisType y)]). pose proof (attr_cat_of l) as X.
      change (attr_cat _) with (attr_cat (map (fun p => Ok (attrs_of [p])) l)). rewrite X. cbn [bind]. apply e_leaf; auto.
      + apply attrs_of_ok; [reflexivity|reflexivity|]. unfold l. repeat apply Forall_cons; try apply Forall_nil; cbn [snd]; auto using etext_safe with enums.
      + unfold read_emphasis. cbn [x_attrs x_kids]. fold (get_enum "FONT" em_EmphasisFont (attrs_of l)). fold (get_enum "TYPE" em_EmphasisType (attrs_of l)).
        rewrite (get_enum_eq "FONT" _ f), (get_enum_eq "TYPE" _ y); auto with enums; try (apply assoc_attrs_of; [reflexivity|cbn; tauto]).
        cbn [bind]. rewrite text_opt_ne by auto. rewrite (assoc_attrs_of l "COLOR" c); auto. cbn; tauto.
    - destruct G as (s & -> & NE & S). apply e_leaf; auto using attrs_ok_nil. now rewrite text_opt_ne.
    - destruct G as (s & -> & NE & S). apply e_leaf; auto using attrs_ok_nil. now rewrite text_opt_ne.
    - destruct G as (s & -> & NE & S). apply e_leaf; auto using attrs_ok_nil. now rewrite text_opt_ne.
    - destruct G as ((s & -> & NE & S) & C1 & C2). rewrite !attr_text_eq. pose (l := [("TEX-RENDER", x); ("TYPE", y)]).
      pose proof (attr_cat_of l) as E. cbn [map l] in E. rewrite E. cbn [bind asserted]. apply e_leaf; auto.
      + apply attrs_of_ok; [reflexivity|reflexivity|]. unfold l. repeat apply Forall_cons; try apply Forall_nil; cbn [snd]; auto.
      + unfold read_term. cbn [x_kids x_attrs]. rewrite text_opt_ne by auto.
        rewrite (assoc_attrs_of l "TEX-RENDER" x), (assoc_attrs_of l "TYPE" y) by (cbn; auto). reflexivity. }
  destruct Y as (wm & rm & rd & A & B & C & D & w & E & TG & S & R). exists wm, w. split; [exact A|]. split; [now rewrite B|]. split; [exact TG|]. split; [exact S|].
  intros tn [(-> & I)|(N & ->)]; [|now destruct N]. exists rm. split; [exact C|]. intros step d. rewrite D. unfold made. now rewrite R.
Qed.
Lemma d_Package v e tag : good_package v e -> called_well (An_Package e) tag -> dispatched v (An_Package e) tag.
Proof.
  intros G H. not_given tag H. destruct (rt_package v false e G) as (w & E & TG & S & R).
  exists W_package, w. split; [reflexivity|]. split; [exact E|]. split; [exact TG|]. split; [exact S|].
  intros tn [(-> & [])|(N & ->)]. now destruct N.
Qed.

Lemma all_dispatched v o tag : good_object v o tag -> called_well o tag -> dispatched v o tag.
Proof.
  destruct o; cbn [good_object]; intros G H.
  - now apply d_CompuMethod.
  - now apply d_DataFilter.
  - now apply d_AutosarEngineeringObject.
  - now apply d_Code.
  - now apply d_ApplicationArrayDataType.
  - now apply d_ApplicationRecordDataType.
  - now apply d_ApplicationPrimitiveDataType.
  - now apply d_SwBaseType.
  - now apply d_SwAddrMethod.
  - now apply d_ImplementationDataType.
  - now apply d_DataTypeMappingSet.
  - now apply d_DataConstraint.
  - now apply d_Unit.
  - now apply d_ConstantSpecification.
  - now apply d_NvDataInterface.
  - now apply d_ParameterInterface.
  - now apply d_SenderReceiverInterface.
  - now apply d_ClientServerInterface.
  - now apply d_ModeSwitchInterface.
  - now apply d_ModeDeclarationGroup.
  - now apply d_E2EProfileCompatibilityProps.
  - now apply d_ApplicationSoftwareComponentType.
  - now apply d_CompositionSwComponentType.
  - now apply d_SwcImplementation.
  - now apply d_ModeSwitchSenderComSpec.
  - now apply d_QueuedSenderComSpec.
  - now apply d_NonqueuedSenderComSpec.
  - now apply d_NvProvideComSpec.
  - now apply d_ParameterProvideComSpec.
  - now apply d_ServerComSpec.
  - now apply d_QueuedReceiverComSpec.
  - now apply d_NonqueuedReceiverComSpec.
  - now apply d_NvRequireComSpec.
  - now apply d_ParameterRequireComSpec.
  - now apply d_ModeSwitchReceiverComSpec.
  - now apply d_ClientComSpec.
  - now apply d_AsynchronousServerCallReturnsEvent.
  - now apply d_BackgroundEvent.
  - now apply d_DataReceiveErrorEvent.
  - now apply d_DataReceivedEvent.
  - now apply d_DataSendCompletedEvent.
  - now apply d_DataWriteCompletedEvent.
  - now apply d_ExternalTriggerOccurredEvent.
  - now apply d_InitEvent.
  - now apply d_InternalTriggerOccurredEvent.
  - now apply d_ModeSwitchedAckEvent.
  - now apply d_OperationInvokedEvent.
  - now apply d_SwcModeManagerErrorEvent.
  - now apply d_SwcModeSwitchEvent.
  - now apply d_TimingEvent.
  - now apply d_TransformerHardErrorEvent.
  - now apply d_Computation.
  - now apply d_CompuRational.
  - now apply d_CompuScale.
  - now apply d_ScaleConstraint.
  - now apply d_InternalConstraint.
  - now apply d_PhysicalConstraint.
  - now apply d_DataConstraintRule.
  - now apply d_SwDataDefPropsConditional.
  - now apply d_SwBitRepresentation.
  - now apply d_SwTextProps.
  - now apply d_SwPointerTargetProps.
  - now apply d_SymbolProps.
  - now apply d_ImplementationDataTypeElement.
  - now apply d_ApplicationArrayElement.
  - now apply d_ApplicationRecordElement.
  - now apply d_DataTypeMap.
  - now apply d_ValueList.
  - now apply d_VariableDataPrototype.
  - now apply d_ParameterDataPrototype.
  - now apply d_ArgumentDataPrototype.
  - now apply d_ModeRequestTypeMap.
  - now apply d_SwValues.
  - now apply d_SwAxisCont.
  - now apply d_SwValueCont.
  - now apply d_InvalidationPolicy.
  - now apply d_ApplicationError.
  - now apply d_ClientServerOperation.
  - now apply d_ModeDeclaration.
  - now apply d_ModeErrorBehavior.
  - now apply d_ModeTransition.
  - now apply d_ModeDeclarationGroupPrototype.
  - now apply d_EndToEndTransformationComSpecProps.
  - now apply d_ModeSwitchedAckRequest.
  - now apply d_TransmissionAcknowledgementRequest.
  - now apply d_TransmissionComSpecProps.
  - now apply d_ReceptionComSpecProps.
  - now apply d_ProvidePortPrototype.
  - now apply d_RequirePortPrototype.
  - now apply d_PRPortPrototype.
  - now apply d_SwComponentPrototype.
  - now apply d_AssemblySwConnector.
  - now apply d_DelegationSwConnector.
  - now apply d_PassThroughSwConnector.
  - now apply d_RModeInAtomicSwcInstanceRef.
  - now apply d_RModeGroupInAtomicSwcInstanceRef.
  - now apply d_ArVariableInImplementationDataInstanceRef.
  - now apply d_VariableInAtomicSWCTypeInstanceRef.
  - now apply d_AutosarVariableRef.
  - now apply d_VariableAccess.
  - now apply d_SwcInternalBehavior.
  - now apply d_ExecutableEntityActivationReason.
  - now apply d_ExclusiveAreaRefConditional.
  - now apply d_RunnableEntityArgument.
  - now apply d_RunnableEntity.
  - now apply d_PortDefinedArgumentValue.
  - now apply d_CommunicationBufferLocking.
  - now apply d_PortApiOption.
  - now apply d_AsynchronousServerCallPoint.
  - now apply d_SynchronousServerCallPoint.
  - now apply d_AsynchronousServerCallResultPoint.
  - now apply d_ExternalTriggeringPoint.
  - now apply d_InternalTriggeringPoint.
  - now apply d_ModeAccessPoint.
  - now apply d_ModeSwitchPoint.
  - now apply d_ParameterInAtomicSwcTypeInstanceRef.
  - now apply d_AutosarParameterRef.
  - now apply d_ParameterAccess.
  - now apply d_WaitPoint.
  - now apply d_value.
  - now apply d_inline.
  - now apply d_doc_item.
  - now apply d_Annotation.
  - now apply d_DocumentationBlock.
  - now apply d_MultilanguageLongName.
  - now apply d_MultiLanguageOverviewParagraph.
  - now apply d_LanguageLongName.
  - now apply d_LanguageParagraph.
  - now apply d_LanguageVerbatim.
  - now apply d_SingleLanguageUnitNames.
  - now apply d_SwBaseTypeRef.
  - now apply d_PhysicalDimensionRef.
  - now apply d_ApplicationDataTypeRef.
  - now apply d_ConstantRef.
  - now apply d_PortInCompositionTypeInstanceRef.
  - now apply d_Package.
  - destruct G.
Qed.

(** The text of one element, and what is found in it *)
Lemma element_text_one w : safe w -> exists t, element_text (Ok [w]) = Ok t /\ parse_names t = Ok (element 2 0 w).
Proof.
  intros S. destruct (parse_render 2 w (safe_well w S)) as (t & T & P). exists t. split.
  - unfold element_text. cbn [bind flat_map]. rewrite app_nil_r. exact T.
  - now apply safe_named.
Qed.
Lemma written_text v o tag : good_object v o tag -> called_well o tag ->
  exists text x, write_str_elem v o tag = Ok text /\ parse_names text = Ok x /\ x_tag x = name_in_text o tag.
Proof.
  intros G H. destruct (all_dispatched v o tag G H) as (wm & w & A & E & TG & S & _). destruct (element_text_one w S) as (t & T & P).
  exists t, (element 2 0 w). splits; auto. - unfold write_str_elem. now rewrite A, E. - now rewrite x_tag_element.
Qed.
Lemma round_trip v o tag tn : good_object v o tag -> called_well o tag -> read_well o tag tn ->
  exists text, write_str_elem v o tag = Ok text /\ read_str_elem v text tn = Ok (as_read o).
Proof.
  intros G H RW. destruct (all_dispatched v o tag G H) as (wm & w & A & E & TG & S & R). destruct (element_text_one w S) as (t & T & P).
  destruct (R tn RW) as (rm & F & Q). exists t. split; [unfold write_str_elem; now rewrite A, E|].
  unfold read_str_elem. rewrite P. cbn [bind]. rewrite x_tag_element, TG, F. apply Q.
Qed.
Lemma class_as_read o : class_name (as_read o) = class_name o.
Proof. destruct o; try reflexivity. now destruct e. Qed.

Lemma assoc_absent {A} n (d : list (string * A)) : ~ In n (map fst d) -> assoc n d = None.
Proof.
  induction d as [|[k a] d IH]; intros H; cbn; auto. cbn in H. destruct (String.eqb_spec n k) as [->|]; [tauto|]. apply IH. tauto.
Qed.
(** Lists of names compared by computation *)
Definition coveredb (a b : list string) : bool := forallb (fun x => existsb (String.eqb x) b) a.
Lemma covered a b : coveredb a b = true -> forall n, In n a -> In n b.
Proof.
  unfold coveredb. rewrite forallb_forall. intros H n I. specialize (H n I). rewrite existsb_exists in H. destruct H as (m & J & E).
  apply String.eqb_eq in E. now subst.
Qed.
Lemma writer_names n : In n (map fst writer_all) -> In n writable_classes.
Proof. apply covered. vm_compute. reflexivity. Qed.
Lemma collectable_names n : In n (map fst writer_collectable) -> In n collectable_classes.
Proof. apply covered. vm_compute. reflexivity. Qed.
Lemma reader_names n : In n (map fst reader_all) -> In n readable_names.
Proof. apply covered. vm_compute. reflexivity. Qed.
Lemma reader_types n : In n (map fst reader_type_name) -> In n type_names.
Proof. apply covered. vm_compute. reflexivity. Qed.
Lemma known_readable o n : In n (known_names o) -> In n readable_names.
Proof. destruct o; try (apply covered; vm_compute; reflexivity); destruct e; apply covered; vm_compute; reflexivity. Qed.

Lemma unknown_class v o tag : ~ In (class_name o) writable_classes -> write_str_elem v o tag = Err NotImplementedError.
Proof. intros H. unfold write_str_elem. rewrite assoc_absent; [reflexivity|]. intros I. now apply H, writer_names. Qed.
Lemma unknown_name v text x : parse_names text = Ok x -> ~ In (x_tag x) readable_names -> read_str_elem v text None = Err NotImplementedError.
Proof. intros P H. unfold read_str_elem. rewrite P. cbn [bind find_reader]. rewrite assoc_absent; [reflexivity|]. intros I. now apply H, reader_names. Qed.
Lemma unknown_type v text x t : parse_names text = Ok x -> ~ In t type_names -> read_str_elem v text (Some t) = Err NotImplementedError.
Proof. intros P H. unfold read_str_elem. rewrite P. cbn [bind find_reader]. rewrite assoc_absent; [reflexivity|]. intros I. now apply H, reader_types. Qed.
Lemma file_elem v o : (In (class_name o) collectable_classes -> write_file_elem v o = write_str_elem v o None) /\
  (~ In (class_name o) collectable_classes -> write_file_elem v o = Err NotImplementedError).
Proof.
  split; intros H; unfold write_file_elem, write_str_elem.
  - revert H. generalize (class_name o). intros n H. unfold collectable_classes in H.
    repeat (destruct H as [<-|H]; [reflexivity|]). destruct H.
  - rewrite assoc_absent; [reflexivity|]. intros I. now apply H, collectable_names.
Qed.
Lemma wrong_arguments v o tag : match o with An_inline _ | An_other _ => False | _ => True end ->
  match element_of o, tag with Always _, Some _ => True | As_given, None => True | _, _ => False end ->
  write_str_elem v o tag = Err TypeError.
Proof.
  destruct o; intros A H; try (now destruct A); cbn [element_of] in H; destruct tag; try (now destruct H); try reflexivity; destruct e; reflexivity.
Qed.
Lemma inline_any_tag v i tag tag' : write_str_elem v (An_inline i) tag = write_str_elem v (An_inline i) tag'.
Proof. destruct i; reflexivity. Qed.
