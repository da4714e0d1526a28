(** Reading methods see only the children they ask for. *)
From Verif Require Import Base PBase MNum MXml MEnum MRefTab MRef MCodec MElem0 MElem1 MElemA MElemB MElemC MElem2 MElemD MElem3 MElem4 MElemE MElem5 MElemF MArxml PElemB PElemD PArxml MReport MLook SLook.
Open Scope list_scope.
Open Scope string_scope.
Open Scope N_scope.

Lemma asked_in t steps : existsb (fun a => match a with Get u => String.eqb t u | Skip _ => false end) steps = true -> In (Get t) steps.
Proof. rewrite existsb_exists. intros ([u|u] & I & E); [|discriminate]. apply String.eqb_eq in E. now subst. Qed.
Ltac asked := apply asked_in; first [reflexivity | vm_compute; reflexivity
  | repeat match goal with |- context [if ?c then _ else _] => destruct c eqn:? end; reflexivity].
Ltac look k G F := unfold receiver_com_spec_tags, unexpected; cbn [x_kids x_attrs x_tag x_text];
  unfold child_inner_try, child_find, child, child_text, children, children_any, child_inner, children_sel, present;
  repeat match goal with |- context [get ?t k] => rewrite (G t) by asked end;
  repeat match goal with |- context [findall ?t k] => rewrite (F t) by (cbn; tauto) end;
  reflexivity.
Lemma look_read_admin_data : sees_only method_read_admin_data.
Proof. intros v tag a s k l u w [G F]. cbn [m_read m_steps m_all method_read_admin_data] in *. unfold read_admin_data. look k G F. Qed.
Lemma look_read_package : sees_only method_read_package.
Proof.
  intros v tag a s k l u w [G F]. cbn [m_read m_steps m_all method_read_package] in *. unfold read_package. rewrite !(recursive_eq _ (read_package_local v false)).
  unfold read_package_ at 1. unfold read_package_ at 2. unfold read_ident, read_referrable, read_multilanguage_referrable, read_identifiable. look k G F.
Qed.
Lemma look_read_compu_method : sees_only method_read_compu_method.
Proof. intros v tag a s k l u w [G F]. cbn [m_read m_steps m_all method_read_compu_method] in *. unfold read_compu_method, read_ident, read_referrable, read_multilanguage_referrable, read_identifiable. look k G F. Qed.
Lemma look_read_computation : sees_only method_read_computation.
Proof. intros v tag a s k l u w [G F]. cbn [m_read m_steps m_all method_read_computation] in *. unfold read_computation. look k G F. Qed.
Lemma look_read_compu_scale : sees_only method_read_compu_scale.
Proof. intros v tag a s k l u w [G F]. cbn [m_read m_steps m_all method_read_compu_scale] in *. unfold read_compu_scale, read_scale_content. look k G F. Qed.
Lemma look_read_compu_rational : sees_only method_read_compu_rational.
Proof. intros v tag a s k l u w [G F]. cbn [m_read m_steps m_all method_read_compu_rational] in *. unfold read_compu_rational. look k G F. Qed.
Lemma look_read_data_constraint : sees_only method_read_data_constraint.
Proof. intros v tag a s k l u w [G F]. cbn [m_read m_steps m_all method_read_data_constraint] in *. unfold read_data_constraint, read_ident, read_referrable, read_multilanguage_referrable, read_identifiable. look k G F. Qed.
Lemma look_read_data_constraint_rule : sees_only method_read_data_constraint_rule.
Proof. intros v tag a s k l u w [G F]. cbn [m_read m_steps m_all method_read_data_constraint_rule] in *. unfold read_data_constraint_rule. look k G F. Qed.
Lemma look_read_internal_constraint : sees_only method_read_internal_constraint.
Proof. intros v tag a s k l u w [G F]. cbn [m_read m_steps m_all method_read_internal_constraint] in *. unfold read_internal_constraint, read_constraint_base. look k G F. Qed.
Lemma look_read_physical_constraint : sees_only method_read_physical_constraint.
Proof. intros v tag a s k l u w [G F]. cbn [m_read m_steps m_all method_read_physical_constraint] in *. unfold read_physical_constraint, read_constraint_base. look k G F. Qed.
Lemma look_read_scale_constraint : sees_only method_read_scale_constraint.
Proof. intros v tag a s k l u w [G F]. cbn [m_read m_steps m_all method_read_scale_constraint] in *. unfold read_scale_constraint. look k G F. Qed.
Lemma look_read_unit : sees_only method_read_unit.
Proof. intros v tag a s k l u w [G F]. cbn [m_read m_steps m_all method_read_unit] in *. unfold read_unit, read_ident, read_referrable, read_multilanguage_referrable, read_identifiable, read_unit_group. look k G F. Qed.
Lemma look_read_data_filter : sees_only method_read_data_filter.
Proof. intros v tag a s k l u w [G F]. cbn [m_read m_steps m_all method_read_data_filter] in *. unfold read_data_filter. look k G F. Qed.
Lemma look_read_autosar_engineering_object : sees_only method_read_autosar_engineering_object.
Proof. intros v tag a s k l u w [G F]. cbn [m_read m_steps m_all method_read_autosar_engineering_object] in *. unfold read_autosar_engineering_object, read_engineering_object. look k G F. Qed.
Lemma look_read_code : sees_only method_read_code.
Proof. intros v tag a s k l u w [G F]. cbn [m_read m_steps m_all method_read_code] in *. unfold read_code, read_ident, read_referrable, read_multilanguage_referrable, read_identifiable. look k G F. Qed.
Lemma look_read_sw_addr_method : sees_only method_read_sw_addr_method.
Proof. intros v tag a s k l u w [G F]. cbn [m_read m_steps m_all method_read_sw_addr_method] in *. unfold read_sw_addr_method, read_ident, read_referrable, read_multilanguage_referrable, read_identifiable. look k G F. Qed.
Lemma look_read_sw_base_type : sees_only method_read_sw_base_type.
Proof. intros v tag a s k l u w [G F]. cbn [m_read m_steps m_all method_read_sw_base_type] in *. unfold read_sw_base_type, read_ident, read_referrable, read_multilanguage_referrable, read_identifiable, read_base_type. look k G F. Qed.
Lemma look_read_sw_bit_representation : sees_only method_read_sw_bit_representation.
Proof. intros v tag a s k l u w [G F]. cbn [m_read m_steps m_all method_read_sw_bit_representation] in *. unfold read_sw_bit_representation. look k G F. Qed.
Lemma look_read_sw_data_def_props : sees_only method_read_sw_data_def_props.
Proof.
  intros v tag a s k l u w [G F]. cbn [m_read m_steps m_all method_read_sw_data_def_props] in *. unfold read_sw_data_def_props. rewrite !(recursive_eq _ (read_sw_data_def_props_local v)).
  unfold read_sw_data_def_props_ at 1. unfold read_sw_data_def_props_ at 2. look k G F.
Qed.
Lemma look_read_sw_data_def_props_conditional : sees_only method_read_sw_data_def_props_conditional.
Proof. intros v tag a s k l u w [G F]. cbn [m_read m_steps m_all method_read_sw_data_def_props_conditional] in *. unfold read_sw_data_def_props_conditional, read_sw_data_def_props_conditional_. look k G F. Qed.
Lemma look_read_sw_text_props : sees_only method_read_sw_text_props.
Proof. intros v tag a s k l u w [G F]. cbn [m_read m_steps m_all method_read_sw_text_props] in *. unfold read_sw_text_props. look k G F. Qed.
Lemma look_read_sw_pointer_target_props : sees_only method_read_sw_pointer_target_props.
Proof. intros v tag a s k l u w [G F]. cbn [m_read m_steps m_all method_read_sw_pointer_target_props] in *. unfold read_sw_pointer_target_props, read_sw_pointer_target_props_. look k G F. Qed.
Lemma look_read_symbol_props : sees_only method_read_symbol_props.
Proof. intros v tag a s k l u w [G F]. cbn [m_read m_steps m_all method_read_symbol_props] in *. unfold read_symbol_props, read_referrable, read_implementation_props. look k G F. Qed.
Lemma look_read_implementation_data_type_element : sees_only method_read_implementation_data_type_element.
Proof.
  intros v tag a s k l u w [G F]. cbn [m_read m_steps m_all method_read_implementation_data_type_element] in *. unfold read_implementation_data_type_element. rewrite !(recursive_eq _ (read_implementation_data_type_element_local v)).
  unfold read_implementation_data_type_element_ at 1. unfold read_implementation_data_type_element_ at 2. unfold read_ident, read_referrable, read_multilanguage_referrable, read_identifiable. look k G F.
Qed.
Lemma look_read_implementation_data_type : sees_only method_read_implementation_data_type.
Proof. intros v tag a s k l u w [G F]. cbn [m_read m_steps m_all method_read_implementation_data_type] in *. unfold read_implementation_data_type, read_ident, read_referrable, read_multilanguage_referrable, read_identifiable, read_autosar_data_type, read_implementation_data_type_group. look k G F. Qed.
Lemma look_read_application_primitive_data_type : sees_only method_read_application_primitive_data_type.
Proof. intros v tag a s k l u w [G F]. cbn [m_read m_steps m_all method_read_application_primitive_data_type] in *. unfold read_application_primitive_data_type, read_ident, read_referrable, read_multilanguage_referrable, read_identifiable, read_autosar_data_type. look k G F. Qed.
Lemma look_read_application_array_element : sees_only method_read_application_array_element.
Proof. intros v tag a s k l u w [G F]. cbn [m_read m_steps m_all method_read_application_array_element] in *. unfold read_application_array_element, read_ident, read_referrable, read_multilanguage_referrable, read_identifiable, read_data_prototype, read_application_composite_element_data_prototype, read_application_array_element_group. look k G F. Qed.
Lemma look_read_application_record_element : sees_only method_read_application_record_element.
Proof. intros v tag a s k l u w [G F]. cbn [m_read m_steps m_all method_read_application_record_element] in *. unfold read_application_record_element, read_ident, read_referrable, read_multilanguage_referrable, read_identifiable, read_data_prototype, read_application_composite_element_data_prototype, read_application_record_element_group. look k G F. Qed.
Lemma look_read_application_array_data_type : sees_only method_read_application_array_data_type.
Proof. intros v tag a s k l u w [G F]. cbn [m_read m_steps m_all method_read_application_array_data_type] in *. unfold read_application_array_data_type, read_ident, read_referrable, read_multilanguage_referrable, read_identifiable, read_autosar_data_type, read_application_array_data_type_group. look k G F. Qed.
Lemma look_read_application_record_data_type : sees_only method_read_application_record_data_type.
Proof. intros v tag a s k l u w [G F]. cbn [m_read m_steps m_all method_read_application_record_data_type] in *. unfold read_application_record_data_type, read_ident, read_referrable, read_multilanguage_referrable, read_identifiable, read_autosar_data_type, read_application_record_data_type_group. look k G F. Qed.
Lemma look_read_data_type_map : sees_only method_read_data_type_map.
Proof. intros v tag a s k l u w [G F]. cbn [m_read m_steps m_all method_read_data_type_map] in *. unfold read_data_type_map. look k G F. Qed.
Lemma look_read_data_type_mapping_set : sees_only method_read_data_type_mapping_set.
Proof. intros v tag a s k l u w [G F]. cbn [m_read m_steps m_all method_read_data_type_mapping_set] in *. unfold read_data_type_mapping_set, read_ident, read_referrable, read_multilanguage_referrable, read_identifiable, read_read_data_type_mapping_set_group. look k G F. Qed.
Lemma look_read_parameter_data_prototype : sees_only method_read_parameter_data_prototype.
Proof. intros v tag a s k l u w [G F]. cbn [m_read m_steps m_all method_read_parameter_data_prototype] in *. unfold read_parameter_data_prototype, read_ident, read_referrable, read_multilanguage_referrable, read_identifiable, read_data_prototype, read_autosar_data_prototype, read_parameter_data_prototype_group. look k G F. Qed.
Lemma look_read_variable_data_prototype : sees_only method_read_variable_data_prototype.
Proof. intros v tag a s k l u w [G F]. cbn [m_read m_steps m_all method_read_variable_data_prototype] in *. unfold read_variable_data_prototype, read_ident, read_referrable, read_multilanguage_referrable, read_identifiable, read_data_prototype, read_autosar_data_prototype, read_variable_data_prototype_group. look k G F. Qed.
Lemma look_read_argument_data_prototype : sees_only method_read_argument_data_prototype.
Proof. intros v tag a s k l u w [G F]. cbn [m_read m_steps m_all method_read_argument_data_prototype] in *. unfold read_argument_data_prototype, read_ident, read_referrable, read_multilanguage_referrable, read_identifiable, read_data_prototype, read_autosar_data_prototype, read_argument_data_prototype_group. look k G F. Qed.
Lemma look_read_mode_request_type_map : sees_only method_read_mode_request_type_map.
Proof. intros v tag a s k l u w [G F]. cbn [m_read m_steps m_all method_read_mode_request_type_map] in *. unfold read_mode_request_type_map. look k G F. Qed.
Lemma look_read_constant_specification : sees_only method_read_constant_specification.
Proof. intros v tag a s k l u w [G F]. cbn [m_read m_steps m_all method_read_constant_specification] in *. unfold read_constant_specification, read_ident, read_referrable, read_multilanguage_referrable, read_identifiable, read_constant_specification_group. look k G F. Qed.
Lemma look_read_sw_axis_cont : sees_only method_read_sw_axis_cont.
Proof. intros v tag a s k l u w [G F]. cbn [m_read m_steps m_all method_read_sw_axis_cont] in *. unfold read_sw_axis_cont. look k G F. Qed.
Lemma look_read_sw_value_cont : sees_only method_read_sw_value_cont.
Proof. intros v tag a s k l u w [G F]. cbn [m_read m_steps m_all method_read_sw_value_cont] in *. unfold read_sw_value_cont. look k G F. Qed.
Lemma look_read_mode_declaration : sees_only method_read_mode_declaration.
Proof. intros v tag a s k l u w [G F]. cbn [m_read m_steps m_all method_read_mode_declaration] in *. unfold read_mode_declaration, read_ident, read_referrable, read_multilanguage_referrable, read_identifiable, read_port_interface. look k G F. Qed.
Lemma look_read_mode_error_behavior : sees_only method_read_mode_error_behavior.
Proof. intros v tag a s k l u w [G F]. cbn [m_read m_steps m_all method_read_mode_error_behavior] in *. unfold read_mode_error_behavior. look k G F. Qed.
Lemma look_read_mode_transition : sees_only method_read_mode_transition.
Proof. intros v tag a s k l u w [G F]. cbn [m_read m_steps m_all method_read_mode_transition] in *. unfold read_mode_transition, read_ident, read_referrable, read_multilanguage_referrable, read_identifiable, read_mode_transition_group. look k G F. Qed.
Lemma look_read_mode_declaration_group : sees_only method_read_mode_declaration_group.
Proof. intros v tag a s k l u w [G F]. cbn [m_read m_steps m_all method_read_mode_declaration_group] in *. unfold read_mode_declaration_group, read_ident, read_referrable, read_multilanguage_referrable, read_identifiable. look k G F. Qed.
Lemma look_read_mode_declaration_group_prototype : sees_only method_read_mode_declaration_group_prototype.
Proof. intros v tag a s k l u w [G F]. cbn [m_read m_steps m_all method_read_mode_declaration_group_prototype] in *. unfold read_mode_declaration_group_prototype, read_ident, read_referrable, read_multilanguage_referrable, read_identifiable, read_mode_declaration_group_prototype_data. look k G F. Qed.
Lemma look_read_nv_data_interface : sees_only method_read_nv_data_interface.
Proof. intros v tag a s k l u w [G F]. cbn [m_read m_steps m_all method_read_nv_data_interface] in *. unfold read_nv_data_interface, read_ident, read_referrable, read_multilanguage_referrable, read_identifiable, read_port_interface, read_nv_data_interface_group. look k G F. Qed.
Lemma look_read_parameter_interface : sees_only method_read_parameter_interface.
Proof. intros v tag a s k l u w [G F]. cbn [m_read m_steps m_all method_read_parameter_interface] in *. unfold read_parameter_interface, read_ident, read_referrable, read_multilanguage_referrable, read_identifiable, read_port_interface, read_parameter_interface_group. look k G F. Qed.
Lemma look_read_sender_receiver_interface : sees_only method_read_sender_receiver_interface.
Proof. intros v tag a s k l u w [G F]. cbn [m_read m_steps m_all method_read_sender_receiver_interface] in *. unfold read_sender_receiver_interface, read_ident, read_referrable, read_multilanguage_referrable, read_identifiable, read_port_interface, read_sender_receiver_interface_group. look k G F. Qed.
Lemma look_read_invalidation_policy : sees_only method_read_invalidation_policy.
Proof. intros v tag a s k l u w [G F]. cbn [m_read m_steps m_all method_read_invalidation_policy] in *. unfold read_invalidation_policy. look k G F. Qed.
Lemma look_read_application_error : sees_only method_read_application_error.
Proof. intros v tag a s k l u w [G F]. cbn [m_read m_steps m_all method_read_application_error] in *. unfold read_application_error, read_ident, read_referrable, read_multilanguage_referrable, read_identifiable, read_application_error_group. look k G F. Qed.
Lemma look_read_client_server_operation : sees_only method_read_client_server_operation.
Proof. intros v tag a s k l u w [G F]. cbn [m_read m_steps m_all method_read_client_server_operation] in *. unfold read_client_server_operation, read_ident, read_referrable, read_multilanguage_referrable, read_identifiable, read_client_server_operation_group. look k G F. Qed.
Lemma look_read_client_server_interface : sees_only method_read_client_server_interface.
Proof. intros v tag a s k l u w [G F]. cbn [m_read m_steps m_all method_read_client_server_interface] in *. unfold read_client_server_interface, read_ident, read_referrable, read_multilanguage_referrable, read_identifiable, read_port_interface, read_client_server_interface_group. look k G F. Qed.
Lemma look_read_mode_switch_interface : sees_only method_read_mode_switch_interface.
Proof. intros v tag a s k l u w [G F]. cbn [m_read m_steps m_all method_read_mode_switch_interface] in *. unfold read_mode_switch_interface, read_ident, read_referrable, read_multilanguage_referrable, read_identifiable, read_port_interface. look k G F. Qed.
Lemma look_read_e2e_transformation_com_spec_props : sees_only method_read_e2e_transformation_com_spec_props.
Proof. intros v tag a s k l u w [G F]. cbn [m_read m_steps m_all method_read_e2e_transformation_com_spec_props] in *. unfold read_e2e_transformation_com_spec_props, read_describable, read_e2e_transformation_com_spec_props_group. look k G F. Qed.
Lemma look_read_e2e_profile_compatibility_props : sees_only method_read_e2e_profile_compatibility_props.
Proof. intros v tag a s k l u w [G F]. cbn [m_read m_steps m_all method_read_e2e_profile_compatibility_props] in *. unfold read_e2e_profile_compatibility_props, read_ident, read_referrable, read_multilanguage_referrable, read_identifiable, read_e2e_profile_compatibility_props_group. look k G F. Qed.
Lemma look_read_mode_switched_ack_request : sees_only method_read_mode_switched_ack_request.
Proof. intros v tag a s k l u w [G F]. cbn [m_read m_steps m_all method_read_mode_switched_ack_request] in *. unfold read_mode_switched_ack_request. look k G F. Qed.
Lemma look_read_mode_switch_sender_com_spec : sees_only method_read_mode_switch_sender_com_spec.
Proof. intros v tag a s k l u w [G F]. cbn [m_read m_steps m_all method_read_mode_switch_sender_com_spec] in *. unfold read_mode_switch_sender_com_spec. look k G F. Qed.
Lemma look_read_transmission_acknowledgement_request : sees_only method_read_transmission_acknowledgement_request.
Proof. intros v tag a s k l u w [G F]. cbn [m_read m_steps m_all method_read_transmission_acknowledgement_request] in *. unfold read_transmission_acknowledgement_request. look k G F. Qed.
Lemma look_read_tranmsission_com_spec_props : sees_only method_read_tranmsission_com_spec_props.
Proof. intros v tag a s k l u w [G F]. cbn [m_read m_steps m_all method_read_tranmsission_com_spec_props] in *. unfold read_tranmsission_com_spec_props. look k G F. Qed.
Lemma look_read_queued_sender_com_spec : sees_only method_read_queued_sender_com_spec.
Proof. intros v tag a s k l u w [G F]. cbn [m_read m_steps m_all method_read_queued_sender_com_spec] in *. unfold read_queued_sender_com_spec, read_sender_com_spec_group. look k G F. Qed.
Lemma look_read_nonqueued_sender_com_spec : sees_only method_read_nonqueued_sender_com_spec.
Proof. intros v tag a s k l u w [G F]. cbn [m_read m_steps m_all method_read_nonqueued_sender_com_spec] in *. unfold read_nonqueued_sender_com_spec, read_sender_com_spec_group, read_nonqueued_sender_com_spec_group. look k G F. Qed.
Lemma look_read_nv_provider_com_spec : sees_only method_read_nv_provider_com_spec.
Proof. intros v tag a s k l u w [G F]. cbn [m_read m_steps m_all method_read_nv_provider_com_spec] in *. unfold read_nv_provider_com_spec, read_nv_provider_com_spec_group. look k G F. Qed.
Lemma look_read_parameter_provide_com_spec : sees_only method_read_parameter_provide_com_spec.
Proof. intros v tag a s k l u w [G F]. cbn [m_read m_steps m_all method_read_parameter_provide_com_spec] in *. unfold read_parameter_provide_com_spec. look k G F. Qed.
Lemma look_read_server_com_spec : sees_only method_read_server_com_spec.
Proof. intros v tag a s k l u w [G F]. cbn [m_read m_steps m_all method_read_server_com_spec] in *. unfold read_server_com_spec, read_server_com_spec_group. look k G F. Qed.
Lemma look_read_reception_com_spec_props : sees_only method_read_reception_com_spec_props.
Proof.
  intros v tag a s k l u w [G F]. cbn [m_read m_steps m_all method_read_reception_com_spec_props] in *. unfold read_reception_com_spec_props. rewrite !(recursive_eq _ (read_reception_com_spec_props_local v)).
  unfold read_reception_com_spec_props_ at 1. unfold read_reception_com_spec_props_ at 2. unfold receiver_com_spec_with. look k G F.
Qed.
Lemma look_read_queued_receiver_com_spec : sees_only method_read_queued_receiver_com_spec.
Proof. intros v tag a s k l u w [G F]. cbn [m_read m_steps m_all method_read_queued_receiver_com_spec] in *. unfold read_queued_receiver_com_spec, read_receiver_com_spec, receiver_com_spec_with. look k G F. Qed.
Lemma look_read_nonqueued_receiver_com_spec : sees_only method_read_nonqueued_receiver_com_spec.
Proof. intros v tag a s k l u w [G F]. cbn [m_read m_steps m_all method_read_nonqueued_receiver_com_spec] in *. unfold read_nonqueued_receiver_com_spec, read_receiver_com_spec, read_nonqueued_receiver_com_spec_group, receiver_com_spec_with. look k G F. Qed.
Lemma look_read_nv_require_com_spec : sees_only method_read_nv_require_com_spec.
Proof. intros v tag a s k l u w [G F]. cbn [m_read m_steps m_all method_read_nv_require_com_spec] in *. unfold read_nv_require_com_spec. look k G F. Qed.
Lemma look_read_parameter_require_com_spec : sees_only method_read_parameter_require_com_spec.
Proof. intros v tag a s k l u w [G F]. cbn [m_read m_steps m_all method_read_parameter_require_com_spec] in *. unfold read_parameter_require_com_spec. look k G F. Qed.
Lemma look_read_mode_switch_receiver_com_spec : sees_only method_read_mode_switch_receiver_com_spec.
Proof. intros v tag a s k l u w [G F]. cbn [m_read m_steps m_all method_read_mode_switch_receiver_com_spec] in *. unfold read_mode_switch_receiver_com_spec. look k G F. Qed.
Lemma look_read_client_com_spec : sees_only method_read_client_com_spec.
Proof. intros v tag a s k l u w [G F]. cbn [m_read m_steps m_all method_read_client_com_spec] in *. unfold read_client_com_spec, read_client_com_spec_group. look k G F. Qed.
Lemma look_read_provide_port_prototype : sees_only method_read_provide_port_prototype.
Proof. intros v tag a s k l u w [G F]. cbn [m_read m_steps m_all method_read_provide_port_prototype] in *. unfold read_provide_port_prototype, read_ident, read_referrable, read_multilanguage_referrable, read_identifiable, read_provide_port_prototype_group. look k G F. Qed.
Lemma look_read_require_port_prototype : sees_only method_read_require_port_prototype.
Proof. intros v tag a s k l u w [G F]. cbn [m_read m_steps m_all method_read_require_port_prototype] in *. unfold read_require_port_prototype, read_ident, read_referrable, read_multilanguage_referrable, read_identifiable, read_required_port_prototype_group. look k G F. Qed.
Lemma look_read_pr_port_prototype : sees_only method_read_pr_port_prototype.
Proof. intros v tag a s k l u w [G F]. cbn [m_read m_steps m_all method_read_pr_port_prototype] in *. unfold read_pr_port_prototype, read_ident, read_referrable, read_multilanguage_referrable, read_identifiable, check_provided. look k G F. Qed.
Lemma look_read_application_sw_component_type : sees_only method_read_application_sw_component_type.
Proof. intros v tag a s k l u w [G F]. cbn [m_read m_steps m_all method_read_application_sw_component_type] in *. unfold read_application_sw_component_type, read_ident, read_referrable, read_multilanguage_referrable, read_identifiable, read_sw_component_type, read_atomic_sw_component_type. look k G F. Qed.
Lemma look_read_sw_component_prototype : sees_only method_read_sw_component_prototype.
Proof. intros v tag a s k l u w [G F]. cbn [m_read m_steps m_all method_read_sw_component_prototype] in *. unfold read_sw_component_prototype, read_ident, read_referrable, read_multilanguage_referrable, read_identifiable, read_sw_component_type. look k G F. Qed.
Lemma look_read_port_in_composition_type_instance_ref : sees_only method_read_port_in_composition_type_instance_ref.
Proof.
  intros v tag a s k l u w [G F]. cbn [m_read m_steps m_all method_read_port_in_composition_type_instance_ref] in *. unfold read_port_in_composition_type_instance_ref, steps_port_in_composition_type_instance_ref in *. cbn [x_kids x_tag]. destruct (provider_tag tag); [|destruct (requester_tag tag)]; cbn [bind]; look k G F.
Qed.
Lemma look_read_assembly_sw_connector : sees_only method_read_assembly_sw_connector.
Proof. intros v tag a s k l u w [G F]. cbn [m_read m_steps m_all method_read_assembly_sw_connector] in *. unfold read_assembly_sw_connector, read_ident, read_referrable, read_multilanguage_referrable, read_identifiable. look k G F. Qed.
Lemma look_read_delegation_sw_connector : sees_only method_read_delegation_sw_connector.
Proof. intros v tag a s k l u w [G F]. cbn [m_read m_steps m_all method_read_delegation_sw_connector] in *. unfold read_delegation_sw_connector, read_ident, read_referrable, read_multilanguage_referrable, read_identifiable. look k G F. Qed.
Lemma look_read_pass_through_sw_connector : sees_only method_read_pass_through_sw_connector.
Proof. intros v tag a s k l u w [G F]. cbn [m_read m_steps m_all method_read_pass_through_sw_connector] in *. unfold read_pass_through_sw_connector, read_ident, read_referrable, read_multilanguage_referrable, read_identifiable, read_sw_connector. look k G F. Qed.
Lemma look_read_composition_sw_component_type : sees_only method_read_composition_sw_component_type.
Proof. intros v tag a s k l u w [G F]. cbn [m_read m_steps m_all method_read_composition_sw_component_type] in *. unfold read_composition_sw_component_type, read_ident, read_referrable, read_multilanguage_referrable, read_identifiable, read_sw_component_type. look k G F. Qed.
Lemma look_read_swc_implementation : sees_only method_read_swc_implementation.
Proof. intros v tag a s k l u w [G F]. cbn [m_read m_steps m_all method_read_swc_implementation] in *. unfold read_swc_implementation, read_ident, read_referrable, read_multilanguage_referrable, read_identifiable, read_implementation, read_swc_implementation_group. look k G F. Qed.
Lemma look_read_p_mode_group_in_atomic_swc_instance_ref : sees_only method_read_p_mode_group_in_atomic_swc_instance_ref.
Proof. intros v tag a s k l u w [G F]. cbn [m_read m_steps m_all method_read_p_mode_group_in_atomic_swc_instance_ref] in *. unfold read_p_mode_group_in_atomic_swc_instance_ref. look k G F. Qed.
Lemma look_read_p_operation_in_atomic_swc_instance_ref : sees_only method_read_p_operation_in_atomic_swc_instance_ref.
Proof. intros v tag a s k l u w [G F]. cbn [m_read m_steps m_all method_read_p_operation_in_atomic_swc_instance_ref] in *. unfold read_p_operation_in_atomic_swc_instance_ref. look k G F. Qed.
Lemma look_read_p_trigger_in_atomic_swc_instance_ref : sees_only method_read_p_trigger_in_atomic_swc_instance_ref.
Proof. intros v tag a s k l u w [G F]. cbn [m_read m_steps m_all method_read_p_trigger_in_atomic_swc_instance_ref] in *. unfold read_p_trigger_in_atomic_swc_instance_ref. look k G F. Qed.
Lemma look_read_r_mode_in_atomic_swc_instance_ref : sees_only method_read_r_mode_in_atomic_swc_instance_ref.
Proof. intros v tag a s k l u w [G F]. cbn [m_read m_steps m_all method_read_r_mode_in_atomic_swc_instance_ref] in *. unfold read_r_mode_in_atomic_swc_instance_ref. look k G F. Qed.
Lemma look_read_r_mode_group_in_atomic_swc_instance_ref : sees_only method_read_r_mode_group_in_atomic_swc_instance_ref.
Proof. intros v tag a s k l u w [G F]. cbn [m_read m_steps m_all method_read_r_mode_group_in_atomic_swc_instance_ref] in *. unfold read_r_mode_group_in_atomic_swc_instance_ref. look k G F. Qed.
Lemma look_read_r_operation_in_atomic_swc_instance_ref : sees_only method_read_r_operation_in_atomic_swc_instance_ref.
Proof. intros v tag a s k l u w [G F]. cbn [m_read m_steps m_all method_read_r_operation_in_atomic_swc_instance_ref] in *. unfold read_r_operation_in_atomic_swc_instance_ref. look k G F. Qed.
Lemma look_read_r_variable_in_atomic_swc_instance_ref : sees_only method_read_r_variable_in_atomic_swc_instance_ref.
Proof. intros v tag a s k l u w [G F]. cbn [m_read m_steps m_all method_read_r_variable_in_atomic_swc_instance_ref] in *. unfold read_r_variable_in_atomic_swc_instance_ref. look k G F. Qed.
Lemma look_read_r_trigger_in_atomic_swc_instance_ref : sees_only method_read_r_trigger_in_atomic_swc_instance_ref.
Proof. intros v tag a s k l u w [G F]. cbn [m_read m_steps m_all method_read_r_trigger_in_atomic_swc_instance_ref] in *. unfold read_r_trigger_in_atomic_swc_instance_ref. look k G F. Qed.
Lemma look_read_variable_in_impl_data_instance_ref : sees_only method_read_variable_in_impl_data_instance_ref.
Proof. intros v tag a s k l u w [G F]. cbn [m_read m_steps m_all method_read_variable_in_impl_data_instance_ref] in *. unfold read_variable_in_impl_data_instance_ref, read_variable_in_impl_data_instance_ref_group. look k G F. Qed.
Lemma look_read_variable_in_atomic_swc_type_instance_ref : sees_only method_read_variable_in_atomic_swc_type_instance_ref.
Proof. intros v tag a s k l u w [G F]. cbn [m_read m_steps m_all method_read_variable_in_atomic_swc_type_instance_ref] in *. unfold read_variable_in_atomic_swc_type_instance_ref. look k G F. Qed.
Lemma look_read_variable_access : sees_only method_read_variable_access.
Proof. intros v tag a s k l u w [G F]. cbn [m_read m_steps m_all method_read_variable_access] in *. unfold read_variable_access, read_ident, read_referrable, read_multilanguage_referrable, read_identifiable, read_variable_access_group. look k G F. Qed.
Lemma look_read_autosar_variable_ref : sees_only method_read_autosar_variable_ref.
Proof. intros v tag a s k l u w [G F]. cbn [m_read m_steps m_all method_read_autosar_variable_ref] in *. unfold read_autosar_variable_ref, read_autosar_variable_ref_group. look k G F. Qed.
Lemma look_read_executable_entity_activation_reason : sees_only method_read_executable_entity_activation_reason.
Proof. intros v tag a s k l u w [G F]. cbn [m_read m_steps m_all method_read_executable_entity_activation_reason] in *. unfold read_executable_entity_activation_reason, read_referrable, read_implementation_props. look k G F. Qed.
Lemma look_read_exclusive_area_ref_conditional : sees_only method_read_exclusive_area_ref_conditional.
Proof. intros v tag a s k l u w [G F]. cbn [m_read m_steps m_all method_read_exclusive_area_ref_conditional] in *. unfold read_exclusive_area_ref_conditional. look k G F. Qed.
Lemma look_read_runnable_entity_argument : sees_only method_read_runnable_entity_argument.
Proof. intros v tag a s k l u w [G F]. cbn [m_read m_steps m_all method_read_runnable_entity_argument] in *. unfold read_runnable_entity_argument. look k G F. Qed.
Lemma look_read_async_server_call_point : sees_only method_read_async_server_call_point.
Proof. intros v tag a s k l u w [G F]. cbn [m_read m_steps m_all method_read_async_server_call_point] in *. unfold read_async_server_call_point, read_ident, read_referrable, read_multilanguage_referrable, read_identifiable, read_abstract_access_point, read_server_call_point. look k G F. Qed.
Lemma look_read_sync_server_call_point : sees_only method_read_sync_server_call_point.
Proof. intros v tag a s k l u w [G F]. cbn [m_read m_steps m_all method_read_sync_server_call_point] in *. unfold read_sync_server_call_point, read_ident, read_referrable, read_multilanguage_referrable, read_identifiable, read_abstract_access_point, read_server_call_point. look k G F. Qed.
Lemma look_read_async_server_call_result_point : sees_only method_read_async_server_call_result_point.
Proof. intros v tag a s k l u w [G F]. cbn [m_read m_steps m_all method_read_async_server_call_result_point] in *. unfold read_async_server_call_result_point, read_ident, read_referrable, read_multilanguage_referrable, read_identifiable, read_abstract_access_point, read_async_server_call_result_point_group. look k G F. Qed.
Lemma look_read_external_triggering_point_ident : sees_only method_read_external_triggering_point_ident.
Proof. intros v tag a s k l u w [G F]. cbn [m_read m_steps m_all method_read_external_triggering_point_ident] in *. unfold read_external_triggering_point_ident, read_ident, read_referrable, read_multilanguage_referrable, read_identifiable, read_abstract_access_point. look k G F. Qed.
Lemma look_read_external_triggering_point : sees_only method_read_external_triggering_point.
Proof. intros v tag a s k l u w [G F]. cbn [m_read m_steps m_all method_read_external_triggering_point] in *. unfold read_external_triggering_point. look k G F. Qed.
Lemma look_read_internal_triggering_point : sees_only method_read_internal_triggering_point.
Proof. intros v tag a s k l u w [G F]. cbn [m_read m_steps m_all method_read_internal_triggering_point] in *. unfold read_internal_triggering_point, read_ident, read_referrable, read_multilanguage_referrable, read_identifiable, read_abstract_access_point. look k G F. Qed.
Lemma look_read_mode_access_point_ident : sees_only method_read_mode_access_point_ident.
Proof. intros v tag a s k l u w [G F]. cbn [m_read m_steps m_all method_read_mode_access_point_ident] in *. unfold read_mode_access_point_ident, read_ident, read_referrable, read_multilanguage_referrable, read_identifiable, read_abstract_access_point, read_async_server_call_result_point_group. look k G F. Qed.
Lemma look_read_mode_access_point : sees_only method_read_mode_access_point.
Proof. intros v tag a s k l u w [G F]. cbn [m_read m_steps m_all method_read_mode_access_point] in *. unfold read_mode_access_point. look k G F. Qed.
Lemma look_read_mode_switch_point : sees_only method_read_mode_switch_point.
Proof. intros v tag a s k l u w [G F]. cbn [m_read m_steps m_all method_read_mode_switch_point] in *. unfold read_mode_switch_point, read_ident, read_referrable, read_multilanguage_referrable, read_identifiable, read_abstract_access_point. look k G F. Qed.
Lemma look_read_parameter_in_atomic_swc_type_instance_ref : sees_only method_read_parameter_in_atomic_swc_type_instance_ref.
Proof. intros v tag a s k l u w [G F]. cbn [m_read m_steps m_all method_read_parameter_in_atomic_swc_type_instance_ref] in *. unfold read_parameter_in_atomic_swc_type_instance_ref. look k G F. Qed.
Lemma look_read_autosar_parameter_ref : sees_only method_read_autosar_parameter_ref.
Proof. intros v tag a s k l u w [G F]. cbn [m_read m_steps m_all method_read_autosar_parameter_ref] in *. unfold read_autosar_parameter_ref. look k G F. Qed.
Lemma look_read_parameter_access : sees_only method_read_parameter_access.
Proof. intros v tag a s k l u w [G F]. cbn [m_read m_steps m_all method_read_parameter_access] in *. unfold read_parameter_access, read_ident, read_referrable, read_multilanguage_referrable, read_identifiable, read_abstract_access_point, read_parameter_access_group. look k G F. Qed.
Lemma look_read_wait_point : sees_only method_read_wait_point.
Proof. intros v tag a s k l u w [G F]. cbn [m_read m_steps m_all method_read_wait_point] in *. unfold read_wait_point, read_ident, read_referrable, read_multilanguage_referrable, read_identifiable, read_wait_point_group. look k G F. Qed.
Lemma look_read_runnable_entity : sees_only method_read_runnable_entity.
Proof.
  intros v tag a s k l u w [G F]. cbn [m_read m_steps m_all method_read_runnable_entity] in *. unfold read_runnable_entity, read_ident, read_referrable, read_multilanguage_referrable, read_identifiable, read_exclusive_areas.
  unfold steps_runnable_entity, steps_executable_entity in G. destruct (v <? 50); look k G F.
Qed.
Lemma look_read_async_server_call_returns_event : sees_only method_read_async_server_call_returns_event.
Proof. intros v tag a s k l u w [G F]. cbn [m_read m_steps m_all method_read_async_server_call_returns_event] in *. unfold read_async_server_call_returns_event, read_ident, read_referrable, read_multilanguage_referrable, read_identifiable, read_rte_event_group. look k G F. Qed.
Lemma look_read_background_event : sees_only method_read_background_event.
Proof. intros v tag a s k l u w [G F]. cbn [m_read m_steps m_all method_read_background_event] in *. unfold read_background_event, read_ident, read_referrable, read_multilanguage_referrable, read_identifiable, read_rte_event_group. look k G F. Qed.
Lemma look_read_data_receive_error_event : sees_only method_read_data_receive_error_event.
Proof. intros v tag a s k l u w [G F]. cbn [m_read m_steps m_all method_read_data_receive_error_event] in *. unfold read_data_receive_error_event, read_ident, read_referrable, read_multilanguage_referrable, read_identifiable, read_rte_event_group. look k G F. Qed.
Lemma look_read_data_received_event : sees_only method_read_data_received_event.
Proof. intros v tag a s k l u w [G F]. cbn [m_read m_steps m_all method_read_data_received_event] in *. unfold read_data_received_event, read_ident, read_referrable, read_multilanguage_referrable, read_identifiable, read_rte_event_group. look k G F. Qed.
Lemma look_read_data_send_completed_event : sees_only method_read_data_send_completed_event.
Proof. intros v tag a s k l u w [G F]. cbn [m_read m_steps m_all method_read_data_send_completed_event] in *. unfold read_data_send_completed_event, read_ident, read_referrable, read_multilanguage_referrable, read_identifiable, read_rte_event_group. look k G F. Qed.
Lemma look_read_data_write_completed_event : sees_only method_read_data_write_completed_event.
Proof. intros v tag a s k l u w [G F]. cbn [m_read m_steps m_all method_read_data_write_completed_event] in *. unfold read_data_write_completed_event, read_ident, read_referrable, read_multilanguage_referrable, read_identifiable, read_rte_event_group. look k G F. Qed.
Lemma look_read_external_trigger_occured_event : sees_only method_read_external_trigger_occured_event.
Proof. intros v tag a s k l u w [G F]. cbn [m_read m_steps m_all method_read_external_trigger_occured_event] in *. unfold read_external_trigger_occured_event, read_ident, read_referrable, read_multilanguage_referrable, read_identifiable, read_rte_event_group. look k G F. Qed.
Lemma look_read_init_event : sees_only method_read_init_event.
Proof. intros v tag a s k l u w [G F]. cbn [m_read m_steps m_all method_read_init_event] in *. unfold read_init_event, read_ident, read_referrable, read_multilanguage_referrable, read_identifiable, read_rte_event_group. look k G F. Qed.
Lemma look_read_internal_trigger_occured_event : sees_only method_read_internal_trigger_occured_event.
Proof. intros v tag a s k l u w [G F]. cbn [m_read m_steps m_all method_read_internal_trigger_occured_event] in *. unfold read_internal_trigger_occured_event, read_ident, read_referrable, read_multilanguage_referrable, read_identifiable, read_rte_event_group. look k G F. Qed.
Lemma look_read_mode_switched_ack_event : sees_only method_read_mode_switched_ack_event.
Proof. intros v tag a s k l u w [G F]. cbn [m_read m_steps m_all method_read_mode_switched_ack_event] in *. unfold read_mode_switched_ack_event, read_ident, read_referrable, read_multilanguage_referrable, read_identifiable, read_rte_event_group. look k G F. Qed.
Lemma look_read_operation_invoked_event : sees_only method_read_operation_invoked_event.
Proof. intros v tag a s k l u w [G F]. cbn [m_read m_steps m_all method_read_operation_invoked_event] in *. unfold read_operation_invoked_event, read_ident, read_referrable, read_multilanguage_referrable, read_identifiable, read_rte_event_group. look k G F. Qed.
Lemma look_read_swc_mode_manager_error_event : sees_only method_read_swc_mode_manager_error_event.
Proof. intros v tag a s k l u w [G F]. cbn [m_read m_steps m_all method_read_swc_mode_manager_error_event] in *. unfold read_swc_mode_manager_error_event, read_ident, read_referrable, read_multilanguage_referrable, read_identifiable, read_rte_event_group. look k G F. Qed.
Lemma look_read_swc_mode_switch_event : sees_only method_read_swc_mode_switch_event.
Proof. intros v tag a s k l u w [G F]. cbn [m_read m_steps m_all method_read_swc_mode_switch_event] in *. unfold read_swc_mode_switch_event, read_ident, read_referrable, read_multilanguage_referrable, read_identifiable, read_rte_event_group, read_swc_mode_switch_event_group. look k G F. Qed.
Lemma look_read_timing_event : sees_only method_read_timing_event.
Proof. intros v tag a s k l u w [G F]. cbn [m_read m_steps m_all method_read_timing_event] in *. unfold read_timing_event, read_ident, read_referrable, read_multilanguage_referrable, read_identifiable, read_rte_event_group. look k G F. Qed.
Lemma look_read_transformer_hard_error_event : sees_only method_read_transformer_hard_error_event.
Proof. intros v tag a s k l u w [G F]. cbn [m_read m_steps m_all method_read_transformer_hard_error_event] in *. unfold read_transformer_hard_error_event, read_ident, read_referrable, read_multilanguage_referrable, read_identifiable, read_rte_event_group, read_transformer_hard_error_event_group. look k G F. Qed.
Lemma look_read_port_defined_argument_value : sees_only method_read_port_defined_argument_value.
Proof. intros v tag a s k l u w [G F]. cbn [m_read m_steps m_all method_read_port_defined_argument_value] in *. unfold read_port_defined_argument_value. look k G F. Qed.
Lemma look_read_communication_buffer_locking : sees_only method_read_communication_buffer_locking.
Proof. intros v tag a s k l u w [G F]. cbn [m_read m_steps m_all method_read_communication_buffer_locking] in *. unfold read_communication_buffer_locking. look k G F. Qed.
Lemma look_read_port_api_option : sees_only method_read_port_api_option.
Proof. intros v tag a s k l u w [G F]. cbn [m_read m_steps m_all method_read_port_api_option] in *. unfold read_port_api_option, read_port_api_option_group. look k G F. Qed.
Lemma look_read_exclusive_area : sees_only method_read_exclusive_area.
Proof. intros v tag a s k l u w [G F]. cbn [m_read m_steps m_all method_read_exclusive_area] in *. unfold read_exclusive_area, read_ident, read_referrable, read_multilanguage_referrable, read_identifiable. look k G F. Qed.
Lemma look_read_swc_internal_behavior : sees_only method_read_swc_internal_behavior.
Proof. intros v tag a s k l u w [G F]. cbn [m_read m_steps m_all method_read_swc_internal_behavior] in *. unfold read_swc_internal_behavior, read_ident, read_referrable, read_multilanguage_referrable, read_identifiable, read_internal_behavior_group, read_swc_internal_behavior_group. look k G F. Qed.
Lemma look_read_value_specification_element : sees_only method_read_value_specification_element.
Proof.
  intros v tag a s k l u w [G F]. cbn [m_read m_steps m_all method_read_value_specification_element] in *. unfold read_value_specification_element. rewrite !(recursive_eq _ (read_value_specification_element_local v)).
  generalize (recursive (read_value_specification_element_ v)). intros self. unfold read_value_specification_element_, steps_value_specification_element in *. cbn [x_tag x_kids].
  repeat match goal with |- context [if String.eqb tag ?t then _ else _] => destruct (String.eqb tag t); [solve [look k G F]|] end. reflexivity.
Qed.
Lemma all_look : Forall sees_only methods.
Proof. unfold methods. apply Forall_cons; [exact look_read_admin_data|]. apply Forall_cons; [exact look_read_package|]. apply Forall_cons; [exact look_read_compu_method|]. apply Forall_cons; [exact look_read_computation|]. apply Forall_cons; [exact look_read_compu_scale|]. apply Forall_cons; [exact look_read_compu_rational|]. apply Forall_cons; [exact look_read_data_constraint|]. apply Forall_cons; [exact look_read_data_constraint_rule|]. apply Forall_cons; [exact look_read_internal_constraint|]. apply Forall_cons; [exact look_read_physical_constraint|]. apply Forall_cons; [exact look_read_scale_constraint|]. apply Forall_cons; [exact look_read_unit|]. apply Forall_cons; [exact look_read_data_filter|]. apply Forall_cons; [exact look_read_autosar_engineering_object|]. apply Forall_cons; [exact look_read_code|]. apply Forall_cons; [exact look_read_sw_addr_method|]. apply Forall_cons; [exact look_read_sw_base_type|]. apply Forall_cons; [exact look_read_sw_bit_representation|]. apply Forall_cons; [exact look_read_sw_data_def_props|]. apply Forall_cons; [exact look_read_sw_data_def_props_conditional|]. apply Forall_cons; [exact look_read_sw_text_props|]. apply Forall_cons; [exact look_read_sw_pointer_target_props|]. apply Forall_cons; [exact look_read_symbol_props|]. apply Forall_cons; [exact look_read_implementation_data_type_element|]. apply Forall_cons; [exact look_read_implementation_data_type|]. apply Forall_cons; [exact look_read_application_primitive_data_type|]. apply Forall_cons; [exact look_read_application_array_element|]. apply Forall_cons; [exact look_read_application_record_element|]. apply Forall_cons; [exact look_read_application_array_data_type|]. apply Forall_cons; [exact look_read_application_record_data_type|]. apply Forall_cons; [exact look_read_data_type_map|]. apply Forall_cons; [exact look_read_data_type_mapping_set|]. apply Forall_cons; [exact look_read_parameter_data_prototype|]. apply Forall_cons; [exact look_read_variable_data_prototype|]. apply Forall_cons; [exact look_read_argument_data_prototype|]. apply Forall_cons; [exact look_read_mode_request_type_map|]. apply Forall_cons; [exact look_read_constant_specification|]. apply Forall_cons; [exact look_read_sw_axis_cont|]. apply Forall_cons; [exact look_read_sw_value_cont|]. apply Forall_cons; [exact look_read_mode_declaration|]. apply Forall_cons; [exact look_read_mode_error_behavior|]. apply Forall_cons; [exact look_read_mode_transition|]. apply Forall_cons; [exact look_read_mode_declaration_group|]. apply Forall_cons; [exact look_read_mode_declaration_group_prototype|]. apply Forall_cons; [exact look_read_nv_data_interface|]. apply Forall_cons; [exact look_read_parameter_interface|]. apply Forall_cons; [exact look_read_sender_receiver_interface|]. apply Forall_cons; [exact look_read_invalidation_policy|]. apply Forall_cons; [exact look_read_application_error|]. apply Forall_cons; [exact look_read_client_server_operation|]. apply Forall_cons; [exact look_read_client_server_interface|]. apply Forall_cons; [exact look_read_mode_switch_interface|]. apply Forall_cons; [exact look_read_e2e_transformation_com_spec_props|]. apply Forall_cons; [exact look_read_e2e_profile_compatibility_props|]. apply Forall_cons; [exact look_read_mode_switched_ack_request|]. apply Forall_cons; [exact look_read_mode_switch_sender_com_spec|]. apply Forall_cons; [exact look_read_transmission_acknowledgement_request|]. apply Forall_cons; [exact look_read_tranmsission_com_spec_props|]. apply Forall_cons; [exact look_read_queued_sender_com_spec|]. apply Forall_cons; [exact look_read_nonqueued_sender_com_spec|]. apply Forall_cons; [exact look_read_nv_provider_com_spec|]. apply Forall_cons; [exact look_read_parameter_provide_com_spec|]. apply Forall_cons; [exact look_read_server_com_spec|]. apply Forall_cons; [exact look_read_reception_com_spec_props|]. apply Forall_cons; [exact look_read_queued_receiver_com_spec|]. apply Forall_cons; [exact look_read_nonqueued_receiver_com_spec|]. apply Forall_cons; [exact look_read_nv_require_com_spec|]. apply Forall_cons; [exact look_read_parameter_require_com_spec|]. apply Forall_cons; [exact look_read_mode_switch_receiver_com_spec|]. apply Forall_cons; [exact look_read_client_com_spec|]. apply Forall_cons; [exact look_read_provide_port_prototype|]. apply Forall_cons; [exact look_read_require_port_prototype|]. apply Forall_cons; [exact look_read_pr_port_prototype|]. apply Forall_cons; [exact look_read_application_sw_component_type|]. apply Forall_cons; [exact look_read_sw_component_prototype|]. apply Forall_cons; [exact look_read_port_in_composition_type_instance_ref|]. apply Forall_cons; [exact look_read_assembly_sw_connector|]. apply Forall_cons; [exact look_read_delegation_sw_connector|]. apply Forall_cons; [exact look_read_pass_through_sw_connector|]. apply Forall_cons; [exact look_read_composition_sw_component_type|]. apply Forall_cons; [exact look_read_swc_implementation|]. apply Forall_cons; [exact look_read_p_mode_group_in_atomic_swc_instance_ref|]. apply Forall_cons; [exact look_read_p_operation_in_atomic_swc_instance_ref|]. apply Forall_cons; [exact look_read_p_trigger_in_atomic_swc_instance_ref|]. apply Forall_cons; [exact look_read_r_mode_in_atomic_swc_instance_ref|]. apply Forall_cons; [exact look_read_r_mode_group_in_atomic_swc_instance_ref|]. apply Forall_cons; [exact look_read_r_operation_in_atomic_swc_instance_ref|]. apply Forall_cons; [exact look_read_r_variable_in_atomic_swc_instance_ref|]. apply Forall_cons; [exact look_read_r_trigger_in_atomic_swc_instance_ref|]. apply Forall_cons; [exact look_read_variable_in_impl_data_instance_ref|]. apply Forall_cons; [exact look_read_variable_in_atomic_swc_type_instance_ref|]. apply Forall_cons; [exact look_read_variable_access|]. apply Forall_cons; [exact look_read_autosar_variable_ref|]. apply Forall_cons; [exact look_read_executable_entity_activation_reason|]. apply Forall_cons; [exact look_read_exclusive_area_ref_conditional|]. apply Forall_cons; [exact look_read_runnable_entity_argument|]. apply Forall_cons; [exact look_read_async_server_call_point|]. apply Forall_cons; [exact look_read_sync_server_call_point|]. apply Forall_cons; [exact look_read_async_server_call_result_point|]. apply Forall_cons; [exact look_read_external_triggering_point_ident|]. apply Forall_cons; [exact look_read_external_triggering_point|]. apply Forall_cons; [exact look_read_internal_triggering_point|]. apply Forall_cons; [exact look_read_mode_access_point_ident|]. apply Forall_cons; [exact look_read_mode_access_point|]. apply Forall_cons; [exact look_read_mode_switch_point|]. apply Forall_cons; [exact look_read_parameter_in_atomic_swc_type_instance_ref|]. apply Forall_cons; [exact look_read_autosar_parameter_ref|]. apply Forall_cons; [exact look_read_parameter_access|]. apply Forall_cons; [exact look_read_wait_point|]. apply Forall_cons; [exact look_read_runnable_entity|]. apply Forall_cons; [exact look_read_async_server_call_returns_event|]. apply Forall_cons; [exact look_read_background_event|]. apply Forall_cons; [exact look_read_data_receive_error_event|]. apply Forall_cons; [exact look_read_data_received_event|]. apply Forall_cons; [exact look_read_data_send_completed_event|]. apply Forall_cons; [exact look_read_data_write_completed_event|]. apply Forall_cons; [exact look_read_external_trigger_occured_event|]. apply Forall_cons; [exact look_read_init_event|]. apply Forall_cons; [exact look_read_internal_trigger_occured_event|]. apply Forall_cons; [exact look_read_mode_switched_ack_event|]. apply Forall_cons; [exact look_read_operation_invoked_event|]. apply Forall_cons; [exact look_read_swc_mode_manager_error_event|]. apply Forall_cons; [exact look_read_swc_mode_switch_event|]. apply Forall_cons; [exact look_read_timing_event|]. apply Forall_cons; [exact look_read_transformer_hard_error_event|]. apply Forall_cons; [exact look_read_port_defined_argument_value|]. apply Forall_cons; [exact look_read_communication_buffer_locking|]. apply Forall_cons; [exact look_read_port_api_option|]. apply Forall_cons; [exact look_read_exclusive_area|]. apply Forall_cons; [exact look_read_swc_internal_behavior|]. apply Forall_cons; [exact look_read_value_specification_element|]. apply Forall_nil. Qed.
