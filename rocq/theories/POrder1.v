(** Proofs that readers do not see the order of properties: MElem1.v. *)
From Verif Require Import Base PBase MNames MNum MXml MEnum MRefTab MRef MCodec MElem0 MElem1 MElemA MElemB PElemB MElemC MElem2 MElemD PElemD MElem3 MElem4 MElemE MElem5 MElemF SOrder POrder.
Open Scope list_scope.

(** Readers of MElem1.v *)
Lemma o_read_unit_group v : kids_respect (read_unit_group v).
Proof. kids read_unit_group. Qed.
#[export] Hint Resolve o_read_unit_group : order.
Lemma o_read_unit v : respects (read_unit v).
Proof. properties read_unit. Qed.
#[export] Hint Resolve o_read_unit : order.
Lemma o_read_data_filter v : respects (read_data_filter v).
Proof. properties read_data_filter. Qed.
#[export] Hint Resolve o_read_data_filter : order.
Lemma o_read_engineering_object v : kids_respect (read_engineering_object v).
Proof. kids read_engineering_object. Qed.
#[export] Hint Resolve o_read_engineering_object : order.
Lemma o_read_autosar_engineering_object v : respects (read_autosar_engineering_object v).
Proof. properties read_autosar_engineering_object. Qed.
#[export] Hint Resolve o_read_autosar_engineering_object : order.
Lemma o_read_code v : respects (read_code v).
Proof. properties read_code. Qed.
#[export] Hint Resolve o_read_code : order.
Lemma o_read_base_type v : kids_respect (read_base_type v).
Proof. kids read_base_type. Qed.
#[export] Hint Resolve o_read_base_type : order.
Lemma o_read_sw_base_type v : respects (read_sw_base_type v).
Proof. properties read_sw_base_type. Qed.
#[export] Hint Resolve o_read_sw_base_type : order.
Lemma o_read_sw_bit_representation v : respects (read_sw_bit_representation v).
Proof. properties read_sw_bit_representation. Qed.
#[export] Hint Resolve o_read_sw_bit_representation : order.
Lemma o_read_sw_text_props v : respects (read_sw_text_props v).
Proof. properties read_sw_text_props. Qed.
#[export] Hint Resolve o_read_sw_text_props : order.
Lemma o_read_implementation_props v : kids_respect (read_implementation_props v).
Proof. kids read_implementation_props. Qed.
#[export] Hint Resolve o_read_implementation_props : order.
Lemma o_read_symbol_props v : respects (read_symbol_props v).
Proof. properties read_symbol_props. Qed.
#[export] Hint Resolve o_read_symbol_props : order.
Lemma o_read_data_type_map v : respects (read_data_type_map v).
Proof. properties read_data_type_map. Qed.
#[export] Hint Resolve o_read_data_type_map : order.
Lemma o_read_read_data_type_mapping_set_group v : kids_respect (read_read_data_type_mapping_set_group v).
Proof. kids read_read_data_type_mapping_set_group. Qed.
#[export] Hint Resolve o_read_read_data_type_mapping_set_group : order.
Lemma o_read_data_type_mapping_set v : respects (read_data_type_mapping_set v).
Proof. properties read_data_type_mapping_set. Qed.
#[export] Hint Resolve o_read_data_type_mapping_set : order.
Lemma o_read_mode_request_type_map v : respects (read_mode_request_type_map v).
Proof. properties read_mode_request_type_map. Qed.
#[export] Hint Resolve o_read_mode_request_type_map : order.
Lemma o_read_port_interface v : kids_respect (read_port_interface v).
Proof. kids read_port_interface. Qed.
#[export] Hint Resolve o_read_port_interface : order.
Lemma o_read_mode_declaration v : respects (read_mode_declaration v).
Proof. properties read_mode_declaration. Qed.
#[export] Hint Resolve o_read_mode_declaration : order.
Lemma o_read_mode_error_behavior v : respects (read_mode_error_behavior v).
Proof. properties read_mode_error_behavior. Qed.
#[export] Hint Resolve o_read_mode_error_behavior : order.
Lemma o_read_mode_transition_group v : kids_respect (read_mode_transition_group v).
Proof. kids read_mode_transition_group. Qed.
#[export] Hint Resolve o_read_mode_transition_group : order.
Lemma o_read_mode_transition v : respects (read_mode_transition v).
Proof. properties read_mode_transition. Qed.
#[export] Hint Resolve o_read_mode_transition : order.
Lemma o_read_mode_declaration_group_prototype_data v : kids_respect (read_mode_declaration_group_prototype_data v).
Proof. kids read_mode_declaration_group_prototype_data. Qed.
#[export] Hint Resolve o_read_mode_declaration_group_prototype_data : order.
Lemma o_read_mode_declaration_group_prototype v : respects (read_mode_declaration_group_prototype v).
Proof. properties read_mode_declaration_group_prototype. Qed.
#[export] Hint Resolve o_read_mode_declaration_group_prototype : order.
Lemma o_read_invalidation_policy v : respects (read_invalidation_policy v).
Proof. properties read_invalidation_policy. Qed.
#[export] Hint Resolve o_read_invalidation_policy : order.
Lemma o_read_application_error_group v : kids_respect (read_application_error_group v).
Proof. kids read_application_error_group. Qed.
#[export] Hint Resolve o_read_application_error_group : order.
Lemma o_read_application_error v : respects (read_application_error v).
Proof. properties read_application_error. Qed.
#[export] Hint Resolve o_read_application_error : order.
Lemma o_read_mode_switch_interface v : respects (read_mode_switch_interface v).
Proof. properties read_mode_switch_interface. Qed.
#[export] Hint Resolve o_read_mode_switch_interface : order.
Lemma o_read_describable v : kids_respect (read_describable v).
Proof. kids read_describable. Qed.
#[export] Hint Resolve o_read_describable : order.
Lemma o_read_e2e_transformation_com_spec_props_group v : kids_respect (read_e2e_transformation_com_spec_props_group v).
Proof. kids read_e2e_transformation_com_spec_props_group. Qed.
#[export] Hint Resolve o_read_e2e_transformation_com_spec_props_group : order.
Lemma o_read_e2e_transformation_com_spec_props v : respects (read_e2e_transformation_com_spec_props v).
Proof. properties read_e2e_transformation_com_spec_props. Qed.
#[export] Hint Resolve o_read_e2e_transformation_com_spec_props : order.
Lemma o_read_e2e_profile_compatibility_props_group v : kids_respect (read_e2e_profile_compatibility_props_group v).
Proof. kids read_e2e_profile_compatibility_props_group. Qed.
#[export] Hint Resolve o_read_e2e_profile_compatibility_props_group : order.
Lemma o_read_e2e_profile_compatibility_props v : respects (read_e2e_profile_compatibility_props v).
Proof. properties read_e2e_profile_compatibility_props. Qed.
#[export] Hint Resolve o_read_e2e_profile_compatibility_props : order.
Lemma o_read_mode_switched_ack_request v : respects (read_mode_switched_ack_request v).
Proof. properties read_mode_switched_ack_request. Qed.
#[export] Hint Resolve o_read_mode_switched_ack_request : order.
Lemma o_read_mode_switch_sender_com_spec v : respects (read_mode_switch_sender_com_spec v).
Proof. properties read_mode_switch_sender_com_spec. Qed.
#[export] Hint Resolve o_read_mode_switch_sender_com_spec : order.
Lemma o_read_transmission_acknowledgement_request v : respects (read_transmission_acknowledgement_request v).
Proof. properties read_transmission_acknowledgement_request. Qed.
#[export] Hint Resolve o_read_transmission_acknowledgement_request : order.
Lemma o_read_tranmsission_com_spec_props v : respects (read_tranmsission_com_spec_props v).
Proof. properties read_tranmsission_com_spec_props. Qed.
#[export] Hint Resolve o_read_tranmsission_com_spec_props : order.
Lemma o_read_server_com_spec_group v : kids_respect (read_server_com_spec_group v).
Proof. kids read_server_com_spec_group. Qed.
#[export] Hint Resolve o_read_server_com_spec_group : order.
Lemma o_read_server_com_spec v : respects (read_server_com_spec v).
Proof. properties read_server_com_spec. Qed.
#[export] Hint Resolve o_read_server_com_spec : order.
Lemma o_read_mode_switch_receiver_com_spec v : respects (read_mode_switch_receiver_com_spec v).
Proof. properties read_mode_switch_receiver_com_spec. Qed.
#[export] Hint Resolve o_read_mode_switch_receiver_com_spec : order.
Lemma o_read_client_com_spec_group v : kids_respect (read_client_com_spec_group v).
Proof. kids read_client_com_spec_group. Qed.
#[export] Hint Resolve o_read_client_com_spec_group : order.
Lemma o_read_client_com_spec v : respects (read_client_com_spec v).
Proof. properties read_client_com_spec. Qed.
#[export] Hint Resolve o_read_client_com_spec : order.
Lemma o_read_sw_connector v : kids_respect (read_sw_connector v).
Proof. kids read_sw_connector. Qed.
#[export] Hint Resolve o_read_sw_connector : order.
Lemma o_read_pass_through_sw_connector v : respects (read_pass_through_sw_connector v).
Proof. properties read_pass_through_sw_connector. Qed.
#[export] Hint Resolve o_read_pass_through_sw_connector : order.
Lemma o_read_implementation v : kids_respect (read_implementation v).
Proof. kids read_implementation. Qed.
#[export] Hint Resolve o_read_implementation : order.
Lemma o_read_swc_implementation_group v : kids_respect (read_swc_implementation_group v).
Proof. kids read_swc_implementation_group. Qed.
#[export] Hint Resolve o_read_swc_implementation_group : order.
Lemma o_read_swc_implementation v : respects (read_swc_implementation v).
Proof. properties read_swc_implementation. Qed.
#[export] Hint Resolve o_read_swc_implementation : order.
Lemma o_read_p_mode_group_in_atomic_swc_instance_ref v : respects (read_p_mode_group_in_atomic_swc_instance_ref v).
Proof. properties read_p_mode_group_in_atomic_swc_instance_ref. Qed.
#[export] Hint Resolve o_read_p_mode_group_in_atomic_swc_instance_ref : order.
Lemma o_read_p_operation_in_atomic_swc_instance_ref v : respects (read_p_operation_in_atomic_swc_instance_ref v).
Proof. properties read_p_operation_in_atomic_swc_instance_ref. Qed.
#[export] Hint Resolve o_read_p_operation_in_atomic_swc_instance_ref : order.
Lemma o_read_p_trigger_in_atomic_swc_instance_ref v : respects (read_p_trigger_in_atomic_swc_instance_ref v).
Proof. properties read_p_trigger_in_atomic_swc_instance_ref. Qed.
#[export] Hint Resolve o_read_p_trigger_in_atomic_swc_instance_ref : order.
Lemma o_read_r_mode_in_atomic_swc_instance_ref v : respects (read_r_mode_in_atomic_swc_instance_ref v).
Proof. properties read_r_mode_in_atomic_swc_instance_ref. Qed.
#[export] Hint Resolve o_read_r_mode_in_atomic_swc_instance_ref : order.
Lemma o_read_r_mode_group_in_atomic_swc_instance_ref v : respects (read_r_mode_group_in_atomic_swc_instance_ref v).
Proof. properties read_r_mode_group_in_atomic_swc_instance_ref. Qed.
#[export] Hint Resolve o_read_r_mode_group_in_atomic_swc_instance_ref : order.
Lemma o_read_r_operation_in_atomic_swc_instance_ref v : respects (read_r_operation_in_atomic_swc_instance_ref v).
Proof. properties read_r_operation_in_atomic_swc_instance_ref. Qed.
#[export] Hint Resolve o_read_r_operation_in_atomic_swc_instance_ref : order.
Lemma o_read_r_variable_in_atomic_swc_instance_ref v : respects (read_r_variable_in_atomic_swc_instance_ref v).
Proof. properties read_r_variable_in_atomic_swc_instance_ref. Qed.
#[export] Hint Resolve o_read_r_variable_in_atomic_swc_instance_ref : order.
Lemma o_read_r_trigger_in_atomic_swc_instance_ref v : respects (read_r_trigger_in_atomic_swc_instance_ref v).
Proof. properties read_r_trigger_in_atomic_swc_instance_ref. Qed.
#[export] Hint Resolve o_read_r_trigger_in_atomic_swc_instance_ref : order.
Lemma o_read_variable_in_impl_data_instance_ref_group v : kids_respect (read_variable_in_impl_data_instance_ref_group v).
Proof. kids read_variable_in_impl_data_instance_ref_group. Qed.
#[export] Hint Resolve o_read_variable_in_impl_data_instance_ref_group : order.
Lemma o_read_variable_in_impl_data_instance_ref v : respects (read_variable_in_impl_data_instance_ref v).
Proof. properties read_variable_in_impl_data_instance_ref. Qed.
#[export] Hint Resolve o_read_variable_in_impl_data_instance_ref : order.
Lemma o_read_runnable_entity_argument v : respects (read_runnable_entity_argument v).
Proof. properties read_runnable_entity_argument. Qed.
#[export] Hint Resolve o_read_runnable_entity_argument : order.
Lemma o_read_executable_entity_activation_reason v : respects (read_executable_entity_activation_reason v).
Proof. properties read_executable_entity_activation_reason. Qed.
#[export] Hint Resolve o_read_executable_entity_activation_reason : order.
Lemma o_read_exclusive_area_ref_conditional v : respects (read_exclusive_area_ref_conditional v).
Proof. properties read_exclusive_area_ref_conditional. Qed.
#[export] Hint Resolve o_read_exclusive_area_ref_conditional : order.
Lemma o_read_abstract_access_point v : kids_respect (read_abstract_access_point v).
Proof. kids read_abstract_access_point. Qed.
#[export] Hint Resolve o_read_abstract_access_point : order.
Lemma o_read_server_call_point v : kids_respect (read_server_call_point v).
Proof. kids read_server_call_point. Qed.
#[export] Hint Resolve o_read_server_call_point : order.
Lemma o_read_async_server_call_point v : respects (read_async_server_call_point v).
Proof. properties read_async_server_call_point. Qed.
#[export] Hint Resolve o_read_async_server_call_point : order.
Lemma o_read_sync_server_call_point v : respects (read_sync_server_call_point v).
Proof. properties read_sync_server_call_point. Qed.
#[export] Hint Resolve o_read_sync_server_call_point : order.
Lemma o_read_async_server_call_result_point_group v : kids_respect (read_async_server_call_result_point_group v).
Proof. kids read_async_server_call_result_point_group. Qed.
#[export] Hint Resolve o_read_async_server_call_result_point_group : order.
Lemma o_read_async_server_call_result_point v : respects (read_async_server_call_result_point v).
Proof. properties read_async_server_call_result_point. Qed.
#[export] Hint Resolve o_read_async_server_call_result_point : order.
Lemma o_read_external_triggering_point_ident v : respects (read_external_triggering_point_ident v).
Proof. properties read_external_triggering_point_ident. Qed.
#[export] Hint Resolve o_read_external_triggering_point_ident : order.
Lemma o_read_external_triggering_point v : respects (read_external_triggering_point v).
Proof. properties read_external_triggering_point. Qed.
#[export] Hint Resolve o_read_external_triggering_point : order.
Lemma o_read_internal_triggering_point v : respects (read_internal_triggering_point v).
Proof. properties read_internal_triggering_point. Qed.
#[export] Hint Resolve o_read_internal_triggering_point : order.
Lemma o_read_mode_access_point_ident v : respects (read_mode_access_point_ident v).
Proof. properties read_mode_access_point_ident. Qed.
#[export] Hint Resolve o_read_mode_access_point_ident : order.
Lemma o_read_mode_switch_point v : respects (read_mode_switch_point v).
Proof. properties read_mode_switch_point. Qed.
#[export] Hint Resolve o_read_mode_switch_point : order.
Lemma o_read_parameter_in_atomic_swc_type_instance_ref v : respects (read_parameter_in_atomic_swc_type_instance_ref v).
Proof. properties read_parameter_in_atomic_swc_type_instance_ref. Qed.
#[export] Hint Resolve o_read_parameter_in_atomic_swc_type_instance_ref : order.
Lemma o_read_autosar_parameter_ref v : respects (read_autosar_parameter_ref v).
Proof. properties read_autosar_parameter_ref. Qed.
#[export] Hint Resolve o_read_autosar_parameter_ref : order.
Lemma o_read_wait_point_group v : kids_respect (read_wait_point_group v).
Proof. kids read_wait_point_group. Qed.
#[export] Hint Resolve o_read_wait_point_group : order.
Lemma o_read_wait_point v : respects (read_wait_point v).
Proof. properties read_wait_point. Qed.
#[export] Hint Resolve o_read_wait_point : order.
Lemma o_read_rte_event_group v : kids_respect (read_rte_event_group v).
Proof. kids read_rte_event_group. Qed.
#[export] Hint Resolve o_read_rte_event_group : order.
Lemma o_read_async_server_call_returns_event v : respects (read_async_server_call_returns_event v).
Proof. properties read_async_server_call_returns_event. Qed.
#[export] Hint Resolve o_read_async_server_call_returns_event : order.
Lemma o_read_background_event v : respects (read_background_event v).
Proof. properties read_background_event. Qed.
#[export] Hint Resolve o_read_background_event : order.
Lemma o_read_data_receive_error_event v : respects (read_data_receive_error_event v).
Proof. properties read_data_receive_error_event. Qed.
#[export] Hint Resolve o_read_data_receive_error_event : order.
Lemma o_read_data_received_event v : respects (read_data_received_event v).
Proof. properties read_data_received_event. Qed.
#[export] Hint Resolve o_read_data_received_event : order.
Lemma o_read_data_send_completed_event v : respects (read_data_send_completed_event v).
Proof. properties read_data_send_completed_event. Qed.
#[export] Hint Resolve o_read_data_send_completed_event : order.
Lemma o_read_data_write_completed_event v : respects (read_data_write_completed_event v).
Proof. properties read_data_write_completed_event. Qed.
#[export] Hint Resolve o_read_data_write_completed_event : order.
Lemma o_read_external_trigger_occured_event v : respects (read_external_trigger_occured_event v).
Proof. properties read_external_trigger_occured_event. Qed.
#[export] Hint Resolve o_read_external_trigger_occured_event : order.
Lemma o_read_init_event v : respects (read_init_event v).
Proof. properties read_init_event. Qed.
#[export] Hint Resolve o_read_init_event : order.
Lemma o_read_internal_trigger_occured_event v : respects (read_internal_trigger_occured_event v).
Proof. properties read_internal_trigger_occured_event. Qed.
#[export] Hint Resolve o_read_internal_trigger_occured_event : order.
Lemma o_read_mode_switched_ack_event v : respects (read_mode_switched_ack_event v).
Proof. properties read_mode_switched_ack_event. Qed.
#[export] Hint Resolve o_read_mode_switched_ack_event : order.
Lemma o_read_operation_invoked_event v : respects (read_operation_invoked_event v).
Proof. properties read_operation_invoked_event. Qed.
#[export] Hint Resolve o_read_operation_invoked_event : order.
Lemma o_read_swc_mode_manager_error_event v : respects (read_swc_mode_manager_error_event v).
Proof. properties read_swc_mode_manager_error_event. Qed.
#[export] Hint Resolve o_read_swc_mode_manager_error_event : order.
Lemma o_read_timing_event v : respects (read_timing_event v).
Proof. properties read_timing_event. Qed.
#[export] Hint Resolve o_read_timing_event : order.
Lemma o_read_transformer_hard_error_event_group v : kids_respect (read_transformer_hard_error_event_group v).
Proof. kids read_transformer_hard_error_event_group. Qed.
#[export] Hint Resolve o_read_transformer_hard_error_event_group : order.
Lemma o_read_transformer_hard_error_event v : respects (read_transformer_hard_error_event v).
Proof. properties read_transformer_hard_error_event. Qed.
#[export] Hint Resolve o_read_transformer_hard_error_event : order.
Lemma o_read_communication_buffer_locking v : respects (read_communication_buffer_locking v).
Proof. properties read_communication_buffer_locking. Qed.
#[export] Hint Resolve o_read_communication_buffer_locking : order.
Lemma o_read_exclusive_area v : respects (read_exclusive_area v).
Proof. properties read_exclusive_area. Qed.
#[export] Hint Resolve o_read_exclusive_area : order.
