(** Which code, filters and communication specifications given arguments describe, independently of how they are made. *)
From Verif Require Import Base MNum MXml MEnum MRefTab MRef MCodec MElem0 MElem1 MElemA MElemB MElemC MElem2 MElemD MElem3 MElem4 MElemE MElem5 MElemF MArxml MFind MValue MEvent MPort SPort MAccess SAccess MRunnable SRunnable MIface SIface MData SFormat SData MConst SConst.
Open Scope list_scope.

(** A data element: a general reference, or a reference to a variable. *)
Inductive means_data_element : arg -> ref -> Prop :=
| element_general a r : of_class "AutosarDataPrototypeRef" a r -> means_data_element a r
| element_variable a r : of_class "VariableDataPrototypeRef" a r -> means_data_element a (mkRef (rf_value r) IdentifiableSubTypes_VARIABLE_DATA_PROTOTYPE).

(** ** Filters and code *)
Definition describes_DataFilter (kw : keyword_args) (x : DataFilter) : Prop :=
  only ["data_filter_type"; "min_val"; "max_val"; "mask"; "offset"; "period"; "x"] kw /\
  holds (is_a ODataFilterType) kw "data_filter_type" (DataFilter_data_filter_type x) /\
  holds means_whole kw "min_val" (DataFilter_min_val x) /\
  holds means_whole kw "max_val" (DataFilter_max_val x) /\
  holds means_whole kw "mask" (DataFilter_mask x) /\
  holds means_whole kw "offset" (DataFilter_offset x) /\
  holds means_whole kw "period" (DataFilter_period x) /\
  holds means_whole kw "x" (DataFilter_x x).
Definition describes_AutosarEngineeringObject (kw : keyword_args) (x : AutosarEngineeringObject) : Prop :=
  only ["label"; "category"] kw /\
  holds (fun a s => a = AStr s) kw "label" (AutosarEngineeringObject_label x) /\
  holds (fun a s => a = AStr s) kw "category" (AutosarEngineeringObject_category x).
Definition describes_Code (name : string) (kw : keyword_args) (x : Code) : Prop :=
  only (["artifact_descriptors"] ++ common_arguments) kw /\
  identity name kw (Code_ident x) /\
  holds_list (means_objects OAutosarEngineeringObject) kw "artifact_descriptors" (Code_artifact_descriptors x).
(** One more at the end of artifact_descriptors, nothing else changed. *)
Definition one_more_Code_artifact_descriptors (x : Code) (a : arg) (y : Code) : Prop :=
  exists e, is_a OAutosarEngineeringObject a e /\
  Code_ident y = Code_ident x /\ Code_artifact_descriptors y = Code_artifact_descriptors x ++ [e].
Definition describes_SwcImplementation (name : string) (kw : keyword_args) (x : SwcImplementation) : Prop :=
  only (["behavior_ref"; "code_descriptors"; "required_rte_vendor"] ++ common_arguments) kw /\
  identity name kw (SwcImplementation_ident x) /\
  holds_list (means_objects OCode) kw "code_descriptors" (SwcImplementation_code_descriptors x) /\
  holds (means_ref [IdentifiableSubTypes_SWC_INTERNAL_BEHAVIOR]) kw "behavior_ref" (SwcImplementation_behavior_ref x) /\
  holds (fun a s => a = AStr s) kw "required_rte_vendor" (SwcImplementation_required_rte_vendor x).
(** One more at the end of code_descriptors, nothing else changed. *)
Definition one_more_SwcImplementation_code_descriptors (x : SwcImplementation) (a : arg) (y : SwcImplementation) : Prop :=
  exists e, is_a OCode a e /\
  SwcImplementation_ident y = SwcImplementation_ident x /\ SwcImplementation_code_descriptors y = SwcImplementation_code_descriptors x ++ [e] /\ SwcImplementation_behavior_ref y = SwcImplementation_behavior_ref x /\ SwcImplementation_required_rte_vendor y = SwcImplementation_required_rte_vendor x.
Definition describes_ModeRequestTypeMap (kw : keyword_args) (x : ModeRequestTypeMap) : Prop :=
  only ["implementation_data_type"; "mode_group"] kw /\
  holds (means_ref [IdentifiableSubTypes_IMPLEMENTATION_DATA_TYPE]) kw "implementation_data_type" (ModeRequestTypeMap_implementation_data_type x) /\
  holds (means_ref [IdentifiableSubTypes_MODE_DECLARATION_GROUP]) kw "mode_group" (ModeRequestTypeMap_mode_group x).

(** ** Parts of communication specifications *)
Definition describes_E2EProfileCompatibilityProps (name : string) (kw : keyword_args) (x : E2EProfileCompatibilityProps) : Prop :=
  only (["transit_to_invalid_extended"] ++ common_arguments) kw /\
  identity name kw (E2EProfileCompatibilityProps_ident x) /\
  holds means_yes_no kw "transit_to_invalid_extended" (E2EProfileCompatibilityProps_transit_to_invalid_extended x).
Definition describes_EndToEndTransformationComSpecProps (kw : keyword_args) (x : EndToEndTransformationComSpecProps) : Prop :=
  only ["clear_from_valid_to_invalid"; "disable_e2e_check"; "disable_e2e_state_machine"; "e2e_profile_compatibility_props_ref"; "max_delta_counter"; "max_error_state_init"; "max_error_state_invalid"; "max_error_state_valid"; "max_no_new_repeated_data"; "min_ok_state_init"; "min_ok_state_invalid"; "min_ok_state_valid"; "sync_counter_init"; "window_size"; "window_size_init"; "window_size_invalid"; "window_size_valid"; "desc"; "category"; "introduction"; "admin_data"] kw /\
  holds means_description kw "desc" (EndToEndTransformationComSpecProps_desc x) /\
  holds means_text kw "category" (EndToEndTransformationComSpecProps_category x) /\
  holds (is_a ODocumentationBlock) kw "introduction" (EndToEndTransformationComSpecProps_introduction x) /\
  holds (is_a OAdminData) kw "admin_data" (EndToEndTransformationComSpecProps_admin_data x) /\
  holds means_yes_no kw "clear_from_valid_to_invalid" (EndToEndTransformationComSpecProps_clear_from_valid_to_invalid x) /\
  holds means_yes_no kw "disable_e2e_check" (EndToEndTransformationComSpecProps_disable_e2e_check x) /\
  holds means_yes_no kw "disable_e2e_state_machine" (EndToEndTransformationComSpecProps_disable_e2e_state_machine x) /\
  holds (means_ref [IdentifiableSubTypes_E2E_PROFILE_COMPATIBILITY_PROPS]) kw "e2e_profile_compatibility_props_ref" (EndToEndTransformationComSpecProps_e2e_profile_compatibility_props_ref x) /\
  holds means_count kw "max_delta_counter" (EndToEndTransformationComSpecProps_max_delta_counter x) /\
  holds means_count kw "max_error_state_init" (EndToEndTransformationComSpecProps_max_error_state_init x) /\
  holds means_count kw "max_error_state_invalid" (EndToEndTransformationComSpecProps_max_error_state_invalid x) /\
  holds means_count kw "max_error_state_valid" (EndToEndTransformationComSpecProps_max_error_state_valid x) /\
  holds means_count kw "max_no_new_repeated_data" (EndToEndTransformationComSpecProps_max_no_new_repeated_data x) /\
  holds means_count kw "min_ok_state_init" (EndToEndTransformationComSpecProps_min_ok_state_init x) /\
  holds means_count kw "min_ok_state_invalid" (EndToEndTransformationComSpecProps_min_ok_state_invalid x) /\
  holds means_count kw "min_ok_state_valid" (EndToEndTransformationComSpecProps_min_ok_state_valid x) /\
  holds means_count kw "sync_counter_init" (EndToEndTransformationComSpecProps_sync_counter_init x) /\
  holds means_count kw "window_size" (EndToEndTransformationComSpecProps_window_size x) /\
  holds means_count kw "window_size_init" (EndToEndTransformationComSpecProps_window_size_init x) /\
  holds means_count kw "window_size_invalid" (EndToEndTransformationComSpecProps_window_size_invalid x) /\
  holds means_count kw "window_size_valid" (EndToEndTransformationComSpecProps_window_size_valid x).
Definition describes_ModeSwitchedAckRequest (kw : keyword_args) (x : ModeSwitchedAckRequest) : Prop :=
  only ["timeout"] kw /\
  holds means_float kw "timeout" (ModeSwitchedAckRequest_timeout x).
Definition describes_TransmissionAcknowledgementRequest (kw : keyword_args) (x : TransmissionAcknowledgementRequest) : Prop :=
  only ["timeout"] kw /\
  holds means_float kw "timeout" (TransmissionAcknowledgementRequest_timeout x).
Definition describes_TransmissionComSpecProps (kw : keyword_args) (x : TransmissionComSpecProps) : Prop :=
  only ["data_update_period"; "minimum_send_interval"; "transmission_mode"] kw /\
  holds means_float kw "data_update_period" (TransmissionComSpecProps_data_update_period x) /\
  holds means_float kw "minimum_send_interval" (TransmissionComSpecProps_minimum_send_interval x) /\
  holds (is_a OTransmissionMode) kw "transmission_mode" (TransmissionComSpecProps_transmission_mode x).
Definition describes_ReceptionComSpecProps (kw : keyword_args) (x : ReceptionComSpecProps) : Prop :=
  only ["data_update_period"; "timeout"] kw /\
  holds means_float kw "data_update_period" (ReceptionComSpecProps_data_update_period x) /\
  holds means_float kw "timeout" (ReceptionComSpecProps_timeout x).

(** ** Communication specifications *)
Definition describes_QueuedSenderComSpec (kw : keyword_args) (x : QueuedSenderComSpec) : Prop :=
  only ["data_element_ref"; "handle_out_of_range"; "network_representation"; "transmission_acknowledge"; "tranmsission_props"; "uses_end_to_end_protection"] kw /\
  holds means_data_element kw "data_element_ref" (QueuedSenderComSpec_data_element_ref x) /\
  holds (is_a OHandleOutOfRange) kw "handle_out_of_range" (QueuedSenderComSpec_handle_out_of_range x) /\
  holds (is_a OSwDataDefProps) kw "network_representation" (QueuedSenderComSpec_network_representation x) /\
  holds means_transmission_ack kw "transmission_acknowledge" (QueuedSenderComSpec_transmission_acknowledge x) /\
  holds (is_a OTransmissionComSpecProps) kw "tranmsission_props" (QueuedSenderComSpec_tranmsission_props x) /\
  holds means_flag kw "uses_end_to_end_protection" (QueuedSenderComSpec_uses_end_to_end_protection x).
Definition describes_NonqueuedSenderComSpec (kw : keyword_args) (x : NonqueuedSenderComSpec) : Prop :=
  only ["init_value"; "data_filter"; "data_element_ref"; "handle_out_of_range"; "network_representation"; "transmission_acknowledge"; "tranmsission_props"; "uses_end_to_end_protection"] kw /\
  holds means_data_element kw "data_element_ref" (NonqueuedSenderComSpec_data_element_ref x) /\
  holds (is_a OHandleOutOfRange) kw "handle_out_of_range" (NonqueuedSenderComSpec_handle_out_of_range x) /\
  holds (is_a OSwDataDefProps) kw "network_representation" (NonqueuedSenderComSpec_network_representation x) /\
  holds means_transmission_ack kw "transmission_acknowledge" (NonqueuedSenderComSpec_transmission_acknowledge x) /\
  holds (is_a OTransmissionComSpecProps) kw "tranmsission_props" (NonqueuedSenderComSpec_tranmsission_props x) /\
  holds means_flag kw "uses_end_to_end_protection" (NonqueuedSenderComSpec_uses_end_to_end_protection x) /\
  holds (is_a ODataFilter) kw "data_filter" (NonqueuedSenderComSpec_data_filter x) /\
  holds means_value_specification kw "init_value" (NonqueuedSenderComSpec_init_value x).
Definition describes_ModeSwitchSenderComSpec (kw : keyword_args) (x : ModeSwitchSenderComSpec) : Prop :=
  only ["mode_group_ref"; "enhanced_mode_api"; "mode_switched_ack"; "queue_length"] kw /\
  holds (means_ref [IdentifiableSubTypes_MODE_DECLARATION_GROUP_PROTOTYPE]) kw "mode_group_ref" (ModeSwitchSenderComSpec_mode_group_ref x) /\
  holds means_flag kw "enhanced_mode_api" (ModeSwitchSenderComSpec_enhanced_mode_api x) /\
  holds means_mode_ack kw "mode_switched_ack" (ModeSwitchSenderComSpec_mode_switched_ack x) /\
  holds means_count kw "queue_length" (ModeSwitchSenderComSpec_queue_length x).
Definition describes_NvProvideComSpec (kw : keyword_args) (x : NvProvideComSpec) : Prop :=
  only ["variable_ref"; "ram_block_init_value"; "rom_block_init_value"] kw /\
  holds means_value_specification kw "ram_block_init_value" (NvProvideComSpec_ram_block_init_value x) /\
  holds means_value_specification kw "rom_block_init_value" (NvProvideComSpec_rom_block_init_value x) /\
  holds (means_ref [IdentifiableSubTypes_VARIABLE_DATA_PROTOTYPE]) kw "variable_ref" (NvProvideComSpec_variable_ref x).
Definition describes_ParameterProvideComSpec (kw : keyword_args) (x : ParameterProvideComSpec) : Prop :=
  only ["parameter_ref"; "init_value"] kw /\
  holds means_value_specification kw "init_value" (ParameterProvideComSpec_init_value x) /\
  holds (means_ref [IdentifiableSubTypes_PARAMETER_DATA_PROTOTYPE]) kw "parameter_ref" (ParameterProvideComSpec_parameter_ref x).
Definition describes_ServerComSpec (kw : keyword_args) (x : ServerComSpec) : Prop :=
  only ["operation_ref"; "queue_length"; "transformation_com_spec_props"] kw /\
  holds (means_ref [IdentifiableSubTypes_CLIENT_SERVER_OPERATION]) kw "operation_ref" (ServerComSpec_operation_ref x) /\
  holds means_count kw "queue_length" (ServerComSpec_queue_length x) /\
  holds_transformations kw "transformation_com_spec_props" (ServerComSpec_transformation_com_spec_props x).
Definition describes_QueuedReceiverComSpec (kw : keyword_args) (x : QueuedReceiverComSpec) : Prop :=
  only ["queue_length"; "data_element_ref"; "handle_out_of_range"; "handle_out_of_range_status"; "max_delta_counter_init"; "max_no_new_repeated_data"; "network_representation"; "reception_props"; "replace_with"; "sync_counter_init"; "transformation_com_spec_props"; "uses_end_to_end_protection"] kw /\
  holds means_data_element kw "data_element_ref" (QueuedReceiverComSpec_data_element_ref x) /\
  holds (is_a OHandleOutOfRange) kw "handle_out_of_range" (QueuedReceiverComSpec_handle_out_of_range x) /\
  holds (is_a OHandleOutOfRangeStatus) kw "handle_out_of_range_status" (QueuedReceiverComSpec_handle_out_of_range_status x) /\
  holds means_count kw "max_delta_counter_init" (QueuedReceiverComSpec_max_delta_counter_init x) /\
  holds means_count kw "max_no_new_repeated_data" (QueuedReceiverComSpec_max_no_new_repeated_data x) /\
  holds (is_a OSwDataDefProps) kw "network_representation" (QueuedReceiverComSpec_network_representation x) /\
  holds (is_a OReceptionComSpecProps) kw "reception_props" (QueuedReceiverComSpec_reception_props x) /\
  holds (is_a OVariableAccess) kw "replace_with" (QueuedReceiverComSpec_replace_with x) /\
  holds means_count kw "sync_counter_init" (QueuedReceiverComSpec_sync_counter_init x) /\
  holds_transformations kw "transformation_com_spec_props" (QueuedReceiverComSpec_transformation_com_spec_props x) /\
  holds means_flag kw "uses_end_to_end_protection" (QueuedReceiverComSpec_uses_end_to_end_protection x) /\
  holds means_count kw "queue_length" (QueuedReceiverComSpec_queue_length x).
Definition describes_NonqueuedReceiverComSpec (kw : keyword_args) (x : NonqueuedReceiverComSpec) : Prop :=
  only ["alive_timeout"; "enable_update"; "data_filter"; "handle_data_status"; "handle_never_received"; "handle_timeout_type"; "init_value"; "timeout_substitution_value"; "data_element_ref"; "handle_out_of_range"; "handle_out_of_range_status"; "max_delta_counter_init"; "max_no_new_repeated_data"; "network_representation"; "reception_props"; "replace_with"; "sync_counter_init"; "transformation_com_spec_props"; "uses_end_to_end_protection"] kw /\
  holds means_data_element kw "data_element_ref" (NonqueuedReceiverComSpec_data_element_ref x) /\
  holds (is_a OHandleOutOfRange) kw "handle_out_of_range" (NonqueuedReceiverComSpec_handle_out_of_range x) /\
  holds (is_a OHandleOutOfRangeStatus) kw "handle_out_of_range_status" (NonqueuedReceiverComSpec_handle_out_of_range_status x) /\
  holds means_count kw "max_delta_counter_init" (NonqueuedReceiverComSpec_max_delta_counter_init x) /\
  holds means_count kw "max_no_new_repeated_data" (NonqueuedReceiverComSpec_max_no_new_repeated_data x) /\
  holds (is_a OSwDataDefProps) kw "network_representation" (NonqueuedReceiverComSpec_network_representation x) /\
  holds (is_a OReceptionComSpecProps) kw "reception_props" (NonqueuedReceiverComSpec_reception_props x) /\
  holds (is_a OVariableAccess) kw "replace_with" (NonqueuedReceiverComSpec_replace_with x) /\
  holds means_count kw "sync_counter_init" (NonqueuedReceiverComSpec_sync_counter_init x) /\
  holds_transformations kw "transformation_com_spec_props" (NonqueuedReceiverComSpec_transformation_com_spec_props x) /\
  holds means_flag kw "uses_end_to_end_protection" (NonqueuedReceiverComSpec_uses_end_to_end_protection x) /\
  holds means_float kw "alive_timeout" (NonqueuedReceiverComSpec_alive_timeout x) /\
  holds means_flag kw "enable_update" (NonqueuedReceiverComSpec_enable_update x) /\
  holds (is_a ODataFilter) kw "data_filter" (NonqueuedReceiverComSpec_data_filter x) /\
  holds means_flag kw "handle_data_status" (NonqueuedReceiverComSpec_handle_data_status x) /\
  holds means_flag kw "handle_never_received" (NonqueuedReceiverComSpec_handle_never_received x) /\
  holds (is_a OHandleTimeout) kw "handle_timeout_type" (NonqueuedReceiverComSpec_handle_timeout_type x) /\
  holds means_value_specification kw "init_value" (NonqueuedReceiverComSpec_init_value x) /\
  holds means_value_specification kw "timeout_substitution_value" (NonqueuedReceiverComSpec_timeout_substitution_value x).
Definition describes_NvRequireComSpec (kw : keyword_args) (x : NvRequireComSpec) : Prop :=
  only ["variable_ref"; "init_value"] kw /\
  holds means_value_specification kw "init_value" (NvRequireComSpec_init_value x) /\
  holds (means_ref [IdentifiableSubTypes_VARIABLE_DATA_PROTOTYPE]) kw "variable_ref" (NvRequireComSpec_variable_ref x).
Definition describes_ParameterRequireComSpec (kw : keyword_args) (x : ParameterRequireComSpec) : Prop :=
  only ["parameter_ref"; "init_value"] kw /\
  holds means_value_specification kw "init_value" (ParameterRequireComSpec_init_value x) /\
  holds (means_ref [IdentifiableSubTypes_PARAMETER_DATA_PROTOTYPE]) kw "parameter_ref" (ParameterRequireComSpec_parameter_ref x).
Definition describes_ModeSwitchReceiverComSpec (kw : keyword_args) (x : ModeSwitchReceiverComSpec) : Prop :=
  only ["mode_group_ref"; "enhanced_mode_api"; "supports_async"] kw /\
  holds (means_ref [IdentifiableSubTypes_MODE_DECLARATION_GROUP_PROTOTYPE]) kw "mode_group_ref" (ModeSwitchReceiverComSpec_mode_group_ref x) /\
  holds means_flag kw "enhanced_mode_api" (ModeSwitchReceiverComSpec_enhanced_mode_api x) /\
  holds means_flag kw "supports_async" (ModeSwitchReceiverComSpec_supports_async x).
Definition describes_ClientComSpec (kw : keyword_args) (x : ClientComSpec) : Prop :=
  only ["operation_ref"; "e2e_call_respone_timeout"; "transformation_com_spec_props"] kw /\
  holds (means_ref [IdentifiableSubTypes_CLIENT_SERVER_OPERATION]) kw "operation_ref" (ClientComSpec_operation_ref x) /\
  holds means_float kw "e2e_call_respone_timeout" (ClientComSpec_e2e_call_respone_timeout x) /\
  holds_transformations kw "transformation_com_spec_props" (ClientComSpec_transformation_com_spec_props x).
(** One more at the end of transformation_com_spec_props, nothing else changed. *)
Definition one_more_ServerComSpec_transformation_com_spec_props (x : ServerComSpec) (a : arg) (y : ServerComSpec) : Prop :=
  exists e, is_a OEndToEndTransformationComSpecProps a e /\
  ServerComSpec_operation_ref y = ServerComSpec_operation_ref x /\ ServerComSpec_queue_length y = ServerComSpec_queue_length x /\ ServerComSpec_transformation_com_spec_props y = ServerComSpec_transformation_com_spec_props x ++ [e].
(** One more at the end of transformation_com_spec_props, nothing else changed. *)
Definition one_more_QueuedReceiverComSpec_transformation_com_spec_props (x : QueuedReceiverComSpec) (a : arg) (y : QueuedReceiverComSpec) : Prop :=
  exists e, is_a OEndToEndTransformationComSpecProps a e /\
  QueuedReceiverComSpec_data_element_ref y = QueuedReceiverComSpec_data_element_ref x /\ QueuedReceiverComSpec_handle_out_of_range y = QueuedReceiverComSpec_handle_out_of_range x /\ QueuedReceiverComSpec_handle_out_of_range_status y = QueuedReceiverComSpec_handle_out_of_range_status x /\ QueuedReceiverComSpec_max_delta_counter_init y = QueuedReceiverComSpec_max_delta_counter_init x /\ QueuedReceiverComSpec_max_no_new_repeated_data y = QueuedReceiverComSpec_max_no_new_repeated_data x /\ QueuedReceiverComSpec_network_representation y = QueuedReceiverComSpec_network_representation x /\ QueuedReceiverComSpec_reception_props y = QueuedReceiverComSpec_reception_props x /\ QueuedReceiverComSpec_replace_with y = QueuedReceiverComSpec_replace_with x /\ QueuedReceiverComSpec_sync_counter_init y = QueuedReceiverComSpec_sync_counter_init x /\ QueuedReceiverComSpec_transformation_com_spec_props y = QueuedReceiverComSpec_transformation_com_spec_props x ++ [e] /\ QueuedReceiverComSpec_uses_end_to_end_protection y = QueuedReceiverComSpec_uses_end_to_end_protection x /\ QueuedReceiverComSpec_queue_length y = QueuedReceiverComSpec_queue_length x.
(** One more at the end of transformation_com_spec_props, nothing else changed. *)
Definition one_more_NonqueuedReceiverComSpec_transformation_com_spec_props (x : NonqueuedReceiverComSpec) (a : arg) (y : NonqueuedReceiverComSpec) : Prop :=
  exists e, is_a OEndToEndTransformationComSpecProps a e /\
  NonqueuedReceiverComSpec_data_element_ref y = NonqueuedReceiverComSpec_data_element_ref x /\ NonqueuedReceiverComSpec_handle_out_of_range y = NonqueuedReceiverComSpec_handle_out_of_range x /\ NonqueuedReceiverComSpec_handle_out_of_range_status y = NonqueuedReceiverComSpec_handle_out_of_range_status x /\ NonqueuedReceiverComSpec_max_delta_counter_init y = NonqueuedReceiverComSpec_max_delta_counter_init x /\ NonqueuedReceiverComSpec_max_no_new_repeated_data y = NonqueuedReceiverComSpec_max_no_new_repeated_data x /\ NonqueuedReceiverComSpec_network_representation y = NonqueuedReceiverComSpec_network_representation x /\ NonqueuedReceiverComSpec_reception_props y = NonqueuedReceiverComSpec_reception_props x /\ NonqueuedReceiverComSpec_replace_with y = NonqueuedReceiverComSpec_replace_with x /\ NonqueuedReceiverComSpec_sync_counter_init y = NonqueuedReceiverComSpec_sync_counter_init x /\ NonqueuedReceiverComSpec_transformation_com_spec_props y = NonqueuedReceiverComSpec_transformation_com_spec_props x ++ [e] /\ NonqueuedReceiverComSpec_uses_end_to_end_protection y = NonqueuedReceiverComSpec_uses_end_to_end_protection x /\ NonqueuedReceiverComSpec_alive_timeout y = NonqueuedReceiverComSpec_alive_timeout x /\ NonqueuedReceiverComSpec_enable_update y = NonqueuedReceiverComSpec_enable_update x /\ NonqueuedReceiverComSpec_data_filter y = NonqueuedReceiverComSpec_data_filter x /\ NonqueuedReceiverComSpec_handle_data_status y = NonqueuedReceiverComSpec_handle_data_status x /\ NonqueuedReceiverComSpec_handle_never_received y = NonqueuedReceiverComSpec_handle_never_received x /\ NonqueuedReceiverComSpec_handle_timeout_type y = NonqueuedReceiverComSpec_handle_timeout_type x /\ NonqueuedReceiverComSpec_init_value y = NonqueuedReceiverComSpec_init_value x /\ NonqueuedReceiverComSpec_timeout_substitution_value y = NonqueuedReceiverComSpec_timeout_substitution_value x.
(** One more at the end of transformation_com_spec_props, nothing else changed. *)
Definition one_more_ClientComSpec_transformation_com_spec_props (x : ClientComSpec) (a : arg) (y : ClientComSpec) : Prop :=
  exists e, is_a OEndToEndTransformationComSpecProps a e /\
  ClientComSpec_operation_ref y = ClientComSpec_operation_ref x /\ ClientComSpec_e2e_call_respone_timeout y = ClientComSpec_e2e_call_respone_timeout x /\ ClientComSpec_transformation_com_spec_props y = ClientComSpec_transformation_com_spec_props x ++ [e].
