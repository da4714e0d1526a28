(** Creating code, filters and communication specifications.
    Source: /repo/src/autosar/xml/element.py and xml/base.py.  No proofs in this file.
    Positional arguments other than the name are passed as keywords.  Objects are values; functions
    that change one return the changed value. *)
From Verif Require Import Base MNum MXml MEnum MRefTab MRef MCodec MElem0 MElem1 MElemA MElemB MElemC MElem2 MElemD MElem3 MElem4 MElemE MElem5 MElemF MArxml MFind MValue MEvent MPort MAccess MRunnable MIface MData MConst.
Open Scope list_scope.

(** ** Classes of arguments *)
(** isinstance(value, DataFilterType), xml/base.py:102-110 *)
Definition DataFilterType_object (o : lib_object) : option DataFilterType := match o with ODataFilterType e => Some e | _ => None end.
(** isinstance(value, AutosarEngineeringObject), xml/base.py:102-110 *)
Definition AutosarEngineeringObject_object (o : lib_object) : option AutosarEngineeringObject := match o with OAutosarEngineeringObject e => Some e | _ => None end.
(** isinstance(value, Code), xml/base.py:102-110 *)
Definition Code_object (o : lib_object) : option Code := match o with OCode e => Some e | _ => None end.
(** isinstance(value, DocumentationBlock), xml/base.py:102-110 *)
Definition DocumentationBlock_object (o : lib_object) : option DocumentationBlock := match o with ODocumentationBlock e => Some e | _ => None end.
(** isinstance(value, AdminData), xml/base.py:102-110 *)
Definition AdminData_object (o : lib_object) : option AdminData := match o with OAdminData e => Some e | _ => None end.
(** isinstance(value, TransmissionMode), xml/base.py:102-110 *)
Definition TransmissionMode_object (o : lib_object) : option TransmissionMode := match o with OTransmissionMode e => Some e | _ => None end.
(** isinstance(value, HandleOutOfRange), xml/base.py:102-110 *)
Definition HandleOutOfRange_object (o : lib_object) : option HandleOutOfRange := match o with OHandleOutOfRange e => Some e | _ => None end.
(** isinstance(value, SwDataDefProps), xml/base.py:102-110 *)
Definition SwDataDefProps_object (o : lib_object) : option SwDataDefProps := match o with OSwDataDefProps e => Some e | _ => None end.
(** isinstance(value, TransmissionComSpecProps), xml/base.py:102-110 *)
Definition TransmissionComSpecProps_object (o : lib_object) : option TransmissionComSpecProps := match o with OTransmissionComSpecProps e => Some e | _ => None end.
(** isinstance(value, DataFilter), xml/base.py:102-110 *)
Definition DataFilter_object (o : lib_object) : option DataFilter := match o with ODataFilter e => Some e | _ => None end.
(** isinstance(value, HandleOutOfRangeStatus), xml/base.py:102-110 *)
Definition HandleOutOfRangeStatus_object (o : lib_object) : option HandleOutOfRangeStatus := match o with OHandleOutOfRangeStatus e => Some e | _ => None end.
(** isinstance(value, ReceptionComSpecProps), xml/base.py:102-110 *)
Definition ReceptionComSpecProps_object (o : lib_object) : option ReceptionComSpecProps := match o with OReceptionComSpecProps e => Some e | _ => None end.
(** isinstance(value, VariableAccess), xml/base.py:102-110 *)
Definition VariableAccess_object (o : lib_object) : option VariableAccess := match o with OVariableAccess e => Some e | _ => None end.
(** isinstance(value, HandleTimeout), xml/base.py:102-110 *)
Definition HandleTimeout_object (o : lib_object) : option HandleTimeout := match o with OHandleTimeout e => Some e | _ => None end.
(** isinstance(value, EndToEndTransformationComSpecProps), xml/base.py:102-110 *)
Definition EndToEndTransformationComSpecProps_object (o : lib_object) : option EndToEndTransformationComSpecProps := match o with OEndToEndTransformationComSpecProps e => Some e | _ => None end.
(** isinstance(value, <reference class>), xml/base.py:102-110 *)
Definition own_ref (c : ref_class) (a : arg) : result ref := match as_ref c a with Some r => Ok r | None => Err TypeError end.
(** data_element_ref, element.py:4163-4174 and 4497-4508 *)
Definition data_element_of (a : arg) : result ref :=
  match as_ref rc_AutosarDataPrototypeRef a with
  | Some r => Ok r
  | None => match as_ref rc_VariableDataPrototypeRef a with
            | Some r => ref_new rc_AutosarDataPrototypeRef (rf_value r) (Some IdentifiableSubTypes_VARIABLE_DATA_PROTOTYPE)
            | None => Err TypeError
            end
  end.

(** ** Filters and code *)
(** DataFilter.__init__, element.py:352-375 *)
Definition init_DataFilter (kw : keyword_args) : result DataFilter :=
  let* _ := check_keywords ["data_filter_type"; "min_val"; "max_val"; "mask"; "offset"; "period"; "x"] kw in
  let* v_data_filter_type := optional (strict DataFilterType_object) (kwarg "data_filter_type" kw) in
  let* v_mask := opt_int (kwarg "mask" kw) in
  let* v_max_val := opt_int (kwarg "max_val" kw) in
  let* v_min_val := opt_int (kwarg "min_val" kw) in
  let* v_offset := opt_int (kwarg "offset" kw) in
  let* v_period := opt_int (kwarg "period" kw) in
  let* v_x := opt_int (kwarg "x" kw) in
  Ok (mkDataFilter v_data_filter_type v_min_val v_max_val v_mask v_offset v_period v_x).
(** AutosarEngineeringObject.__init__, element.py:383-390 *)
Definition init_AutosarEngineeringObject (kw : keyword_args) : result AutosarEngineeringObject :=
  let* _ := check_keywords ["label"; "category"] kw in
  let* v_label := opt_text_strict (kwarg "label" kw) in
  let* v_category := opt_text_strict (kwarg "category" kw) in
  Ok (mkAutosarEngineeringObject v_label v_category).
(** Code.__init__, element.py:408-420 *)
Definition init_Code (name : string) (kw : keyword_args) : result Code :=
  let* _ := check_keywords (["artifact_descriptors"] ++ identifiable_keywords) kw in
  let* ident := new_identifiable name kw in
  let* v_artifact_descriptors := objects AutosarEngineeringObject_object (kwarg "artifact_descriptors" kw) in
  Ok (mkCode ident v_artifact_descriptors).
(** Code.append_artifact_descriptor, element.py:422-429 *)
Definition append_Code_artifact_descriptors (x : Code) (a : arg) : result Code :=
  let* e := strict AutosarEngineeringObject_object a in Ok (mkCode (Code_ident x) (Code_artifact_descriptors x ++ [e])).
(** SwcImplementation.__init__, element.py:5917-5928, 437-462 *)
Definition init_SwcImplementation (name : string) (kw : keyword_args) : result SwcImplementation :=
  let* _ := check_keywords (["behavior_ref"; "code_descriptors"; "required_rte_vendor"] ++ identifiable_keywords) kw in
  let* ident := new_identifiable name kw in
  let* v_code_descriptors := objects Code_object (kwarg "code_descriptors" kw) in
  let* v_behavior_ref := opt_ref rc_SwcInternalBehaviorRef (kwarg "behavior_ref" kw) in
  let* v_required_rte_vendor := opt_text_strict (kwarg "required_rte_vendor" kw) in
  Ok (mkSwcImplementation ident v_code_descriptors v_behavior_ref v_required_rte_vendor).
(** Implementation.append_code_descriptor, element.py:464-471 *)
Definition append_SwcImplementation_code_descriptors (x : SwcImplementation) (a : arg) : result SwcImplementation :=
  let* e := strict Code_object a in Ok (mkSwcImplementation (SwcImplementation_ident x) (SwcImplementation_code_descriptors x ++ [e]) (SwcImplementation_behavior_ref x) (SwcImplementation_required_rte_vendor x)).
(** ModeRequestTypeMap.__init__, element.py:3315-3323 *)
Definition init_ModeRequestTypeMap (kw : keyword_args) : result ModeRequestTypeMap :=
  let* _ := check_keywords ["implementation_data_type"; "mode_group"] kw in
  let* v_implementation_data_type := opt_ref rc_ImplementationDataTypeRef (kwarg "implementation_data_type" kw) in
  let* v_mode_group := opt_ref rc_ModeDeclarationGroupRef (kwarg "mode_group" kw) in
  Ok (mkModeRequestTypeMap v_implementation_data_type v_mode_group).

(** ** Parts of communication specifications *)
(** E2EProfileCompatibilityProps.__init__, element.py:3901-3907 *)
Definition init_E2EProfileCompatibilityProps (name : string) (kw : keyword_args) : result E2EProfileCompatibilityProps :=
  let* _ := check_keywords (["transit_to_invalid_extended"] ++ identifiable_keywords) kw in
  let* ident := new_identifiable name kw in
  let* v_transit_to_invalid_extended := opt_bool_strict (kwarg "transit_to_invalid_extended" kw) in
  Ok (mkE2EProfileCompatibilityProps ident v_transit_to_invalid_extended).
(** EndToEndTransformationComSpecProps.__init__, element.py:3926-3981, 1063-1085 *)
Definition init_EndToEndTransformationComSpecProps (kw : keyword_args) : result EndToEndTransformationComSpecProps :=
  let* _ := check_keywords ["clear_from_valid_to_invalid"; "disable_e2e_check"; "disable_e2e_state_machine"; "e2e_profile_compatibility_props_ref"; "max_delta_counter"; "max_error_state_init"; "max_error_state_invalid"; "max_error_state_valid"; "max_no_new_repeated_data"; "min_ok_state_init"; "min_ok_state_invalid"; "min_ok_state_valid"; "sync_counter_init"; "window_size"; "window_size_init"; "window_size_invalid"; "window_size_valid"; "desc"; "category"; "introduction"; "admin_data"] kw in
  let* v_desc := optional description (kwarg "desc" kw) in
  let* v_category := opt_text (kwarg "category" kw) in
  let* v_introduction := optional (strict DocumentationBlock_object) (kwarg "introduction" kw) in
  let* v_admin_data := optional (strict AdminData_object) (kwarg "admin_data" kw) in
  let* v_clear_from_valid_to_invalid := opt_bool_strict (kwarg "clear_from_valid_to_invalid" kw) in
  let* v_disable_e2e_check := opt_bool_strict (kwarg "disable_e2e_check" kw) in
  let* v_disable_e2e_state_machine := opt_bool_strict (kwarg "disable_e2e_state_machine" kw) in
  let* v_e2e_profile_compatibility_props_ref := opt_ref rc_E2EProfileCompatibilityPropsRef (kwarg "e2e_profile_compatibility_props_ref" kw) in
  let* v_max_delta_counter := opt_count (kwarg "max_delta_counter" kw) in
  let* v_max_error_state_init := opt_count (kwarg "max_error_state_init" kw) in
  let* v_max_error_state_invalid := opt_count (kwarg "max_error_state_invalid" kw) in
  let* v_max_error_state_valid := opt_count (kwarg "max_error_state_valid" kw) in
  let* v_max_no_new_repeated_data := opt_count (kwarg "max_no_new_repeated_data" kw) in
  let* v_min_ok_state_init := opt_count (kwarg "min_ok_state_init" kw) in
  let* v_min_ok_state_invalid := opt_count (kwarg "min_ok_state_invalid" kw) in
  let* v_min_ok_state_valid := opt_count (kwarg "min_ok_state_valid" kw) in
  let* v_sync_counter_init := opt_count (kwarg "sync_counter_init" kw) in
  let* v_window_size := opt_count (kwarg "window_size" kw) in
  let* v_window_size_init := opt_count (kwarg "window_size_init" kw) in
  let* v_window_size_invalid := opt_count (kwarg "window_size_invalid" kw) in
  let* v_window_size_valid := opt_count (kwarg "window_size_valid" kw) in
  Ok (mkEndToEndTransformationComSpecProps v_desc v_category v_introduction v_admin_data v_clear_from_valid_to_invalid v_disable_e2e_check v_disable_e2e_state_machine v_e2e_profile_compatibility_props_ref v_max_delta_counter v_max_error_state_init v_max_error_state_invalid v_max_error_state_valid v_max_no_new_repeated_data v_min_ok_state_init v_min_ok_state_invalid v_min_ok_state_valid v_sync_counter_init v_window_size v_window_size_init v_window_size_invalid v_window_size_valid).
(** ModeSwitchedAckRequest.__init__, element.py:3993-3996 *)
Definition init_ModeSwitchedAckRequest (kw : keyword_args) : result ModeSwitchedAckRequest :=
  let* _ := check_keywords ["timeout"] kw in
  let* v_timeout := opt_float (kwarg "timeout" kw) in
  Ok (mkModeSwitchedAckRequest v_timeout).
(** TransmissionAcknowledgementRequest.__init__, element.py:4005-4009 *)
Definition init_TransmissionAcknowledgementRequest (kw : keyword_args) : result TransmissionAcknowledgementRequest :=
  let* _ := check_keywords ["timeout"] kw in
  let* v_timeout := opt_float (kwarg "timeout" kw) in
  Ok (mkTransmissionAcknowledgementRequest v_timeout).
(** TransmissionComSpecProps.__init__, element.py:4020-4031 *)
Definition init_TransmissionComSpecProps (kw : keyword_args) : result TransmissionComSpecProps :=
  let* _ := check_keywords ["data_update_period"; "minimum_send_interval"; "transmission_mode"] kw in
  let* v_data_update_period := opt_float (kwarg "data_update_period" kw) in
  let* v_minimum_send_interval := opt_float (kwarg "minimum_send_interval" kw) in
  let* v_transmission_mode := optional (strict TransmissionMode_object) (kwarg "transmission_mode" kw) in
  Ok (mkTransmissionComSpecProps v_data_update_period v_minimum_send_interval v_transmission_mode).
(** ReceptionComSpecProps.__init__, element.py:4334-4342 *)
Definition init_ReceptionComSpecProps (kw : keyword_args) : result ReceptionComSpecProps :=
  let* _ := check_keywords ["data_update_period"; "timeout"] kw in
  let* v_data_update_period := opt_float (kwarg "data_update_period" kw) in
  let* v_timeout := opt_float (kwarg "timeout" kw) in
  Ok (mkReceptionComSpecProps v_data_update_period v_timeout).

(** ** Communication specifications *)
(** QueuedSenderComSpec.__init__, element.py:4143-4183 *)
Definition init_QueuedSenderComSpec (kw : keyword_args) : result QueuedSenderComSpec :=
  let* _ := check_keywords ["data_element_ref"; "handle_out_of_range"; "network_representation"; "transmission_acknowledge"; "tranmsission_props"; "uses_end_to_end_protection"] kw in
  let* v_data_element_ref := optional data_element_of (kwarg "data_element_ref" kw) in
  let* v_handle_out_of_range := optional (strict HandleOutOfRange_object) (kwarg "handle_out_of_range" kw) in
  let* v_network_representation := optional (strict SwDataDefProps_object) (kwarg "network_representation" kw) in
  let* v_tranmsission_props := optional (strict TransmissionComSpecProps_object) (kwarg "tranmsission_props" kw) in
  let* v_uses_end_to_end_protection := opt_bool (kwarg "uses_end_to_end_protection" kw) in
  let* v_transmission_acknowledge := optional transmission_acknowledge (kwarg "transmission_acknowledge" kw) in
  Ok (mkQueuedSenderComSpec v_data_element_ref v_handle_out_of_range v_network_representation v_transmission_acknowledge v_tranmsission_props v_uses_end_to_end_protection).
(** NonqueuedSenderComSpec.__init__, element.py:4231-4239, 4143-4183 *)
Definition init_NonqueuedSenderComSpec (kw : keyword_args) : result NonqueuedSenderComSpec :=
  let* _ := check_keywords ["init_value"; "data_filter"; "data_element_ref"; "handle_out_of_range"; "network_representation"; "transmission_acknowledge"; "tranmsission_props"; "uses_end_to_end_protection"] kw in
  let* v_data_element_ref := optional data_element_of (kwarg "data_element_ref" kw) in
  let* v_handle_out_of_range := optional (strict HandleOutOfRange_object) (kwarg "handle_out_of_range" kw) in
  let* v_network_representation := optional (strict SwDataDefProps_object) (kwarg "network_representation" kw) in
  let* v_tranmsission_props := optional (strict TransmissionComSpecProps_object) (kwarg "tranmsission_props" kw) in
  let* v_uses_end_to_end_protection := opt_bool (kwarg "uses_end_to_end_protection" kw) in
  let* v_transmission_acknowledge := optional transmission_acknowledge (kwarg "transmission_acknowledge" kw) in
  let* v_data_filter := optional (strict DataFilter_object) (kwarg "data_filter" kw) in
  let* v_init_value := opt_value_specification (kwarg "init_value" kw) in
  Ok (mkNonqueuedSenderComSpec v_data_element_ref v_handle_out_of_range v_network_representation v_transmission_acknowledge v_tranmsission_props v_uses_end_to_end_protection v_data_filter v_init_value).
(** ModeSwitchSenderComSpec.__init__, element.py:4192-4213 *)
Definition init_ModeSwitchSenderComSpec (kw : keyword_args) : result ModeSwitchSenderComSpec :=
  let* _ := check_keywords ["mode_group_ref"; "enhanced_mode_api"; "mode_switched_ack"; "queue_length"] kw in
  let* v_mode_group_ref := opt_ref rc_ModeDeclarationGroupPrototypeRef (kwarg "mode_group_ref" kw) in
  let* v_enhanced_mode_api := opt_bool (kwarg "enhanced_mode_api" kw) in
  let* v_mode_switched_ack := optional mode_switched_ack (kwarg "mode_switched_ack" kw) in
  let* v_queue_length := opt_count (kwarg "queue_length" kw) in
  Ok (mkModeSwitchSenderComSpec v_mode_group_ref v_enhanced_mode_api v_mode_switched_ack v_queue_length).
(** NvProvideComSpec.__init__, element.py:4248-4259 *)
Definition init_NvProvideComSpec (kw : keyword_args) : result NvProvideComSpec :=
  let* _ := check_keywords ["variable_ref"; "ram_block_init_value"; "rom_block_init_value"] kw in
  let* v_ram_block_init_value := opt_value_specification (kwarg "ram_block_init_value" kw) in
  let* v_rom_block_init_value := opt_value_specification (kwarg "rom_block_init_value" kw) in
  let* v_variable_ref := opt_ref rc_VariableDataPrototypeRef (kwarg "variable_ref" kw) in
  Ok (mkNvProvideComSpec v_ram_block_init_value v_rom_block_init_value v_variable_ref).
(** ParameterProvideComSpec.__init__, element.py:4268-4276 *)
Definition init_ParameterProvideComSpec (kw : keyword_args) : result ParameterProvideComSpec :=
  let* _ := check_keywords ["parameter_ref"; "init_value"] kw in
  let* v_init_value := opt_value_specification (kwarg "init_value" kw) in
  let* v_parameter_ref := opt_ref rc_ParameterDataPrototypeRef (kwarg "parameter_ref" kw) in
  Ok (mkParameterProvideComSpec v_init_value v_parameter_ref).
(** ServerComSpec.__init__, element.py:4289-4314 *)
Definition init_ServerComSpec (kw : keyword_args) : result ServerComSpec :=
  let* _ := check_keywords ["operation_ref"; "queue_length"; "transformation_com_spec_props"] kw in
  let* v_operation_ref := opt_ref rc_ClientServerOperationRef (kwarg "operation_ref" kw) in
  let* v_queue_length := opt_count (kwarg "queue_length" kw) in
  let* v_transformation_com_spec_props := transformation_props (kwarg "transformation_com_spec_props" kw) in
  Ok (mkServerComSpec v_operation_ref v_queue_length v_transformation_com_spec_props).
(** QueuedReceiverComSpec.__init__, element.py:4539-4544, 4460-4519 *)
Definition init_QueuedReceiverComSpec (kw : keyword_args) : result QueuedReceiverComSpec :=
  let* _ := check_keywords ["queue_length"; "data_element_ref"; "handle_out_of_range"; "handle_out_of_range_status"; "max_delta_counter_init"; "max_no_new_repeated_data"; "network_representation"; "reception_props"; "replace_with"; "sync_counter_init"; "transformation_com_spec_props"; "uses_end_to_end_protection"] kw in
  let* v_data_element_ref := optional data_element_of (kwarg "data_element_ref" kw) in
  let* v_handle_out_of_range := optional (strict HandleOutOfRange_object) (kwarg "handle_out_of_range" kw) in
  let* v_handle_out_of_range_status := optional (strict HandleOutOfRangeStatus_object) (kwarg "handle_out_of_range_status" kw) in
  let* v_max_delta_counter_init := opt_count (kwarg "max_delta_counter_init" kw) in
  let* v_max_no_new_repeated_data := opt_count (kwarg "max_no_new_repeated_data" kw) in
  let* v_network_representation := optional (strict SwDataDefProps_object) (kwarg "network_representation" kw) in
  let* v_reception_props := optional (strict ReceptionComSpecProps_object) (kwarg "reception_props" kw) in
  let* v_replace_with := optional (strict VariableAccess_object) (kwarg "replace_with" kw) in
  let* v_sync_counter_init := opt_count (kwarg "sync_counter_init" kw) in
  let* v_uses_end_to_end_protection := opt_bool (kwarg "uses_end_to_end_protection" kw) in
  let* v_transformation_com_spec_props := transformation_props (kwarg "transformation_com_spec_props" kw) in
  let* v_queue_length := opt_count (kwarg "queue_length" kw) in
  Ok (mkQueuedReceiverComSpec v_data_element_ref v_handle_out_of_range v_handle_out_of_range_status v_max_delta_counter_init v_max_no_new_repeated_data v_network_representation v_reception_props v_replace_with v_sync_counter_init v_transformation_com_spec_props v_uses_end_to_end_protection v_queue_length).
(** NonqueuedReceiverComSpec.__init__, element.py:4553-4579, 4460-4519 *)
Definition init_NonqueuedReceiverComSpec (kw : keyword_args) : result NonqueuedReceiverComSpec :=
  let* _ := check_keywords ["alive_timeout"; "enable_update"; "data_filter"; "handle_data_status"; "handle_never_received"; "handle_timeout_type"; "init_value"; "timeout_substitution_value"; "data_element_ref"; "handle_out_of_range"; "handle_out_of_range_status"; "max_delta_counter_init"; "max_no_new_repeated_data"; "network_representation"; "reception_props"; "replace_with"; "sync_counter_init"; "transformation_com_spec_props"; "uses_end_to_end_protection"] kw in
  let* v_data_element_ref := optional data_element_of (kwarg "data_element_ref" kw) in
  let* v_handle_out_of_range := optional (strict HandleOutOfRange_object) (kwarg "handle_out_of_range" kw) in
  let* v_handle_out_of_range_status := optional (strict HandleOutOfRangeStatus_object) (kwarg "handle_out_of_range_status" kw) in
  let* v_max_delta_counter_init := opt_count (kwarg "max_delta_counter_init" kw) in
  let* v_max_no_new_repeated_data := opt_count (kwarg "max_no_new_repeated_data" kw) in
  let* v_network_representation := optional (strict SwDataDefProps_object) (kwarg "network_representation" kw) in
  let* v_reception_props := optional (strict ReceptionComSpecProps_object) (kwarg "reception_props" kw) in
  let* v_replace_with := optional (strict VariableAccess_object) (kwarg "replace_with" kw) in
  let* v_sync_counter_init := opt_count (kwarg "sync_counter_init" kw) in
  let* v_uses_end_to_end_protection := opt_bool (kwarg "uses_end_to_end_protection" kw) in
  let* v_transformation_com_spec_props := transformation_props (kwarg "transformation_com_spec_props" kw) in
  let* v_alive_timeout := opt_float (kwarg "alive_timeout" kw) in
  let* v_enable_update := opt_bool (kwarg "enable_update" kw) in
  let* v_data_filter := optional (strict DataFilter_object) (kwarg "data_filter" kw) in
  let* v_handle_data_status := opt_bool (kwarg "handle_data_status" kw) in
  let* v_handle_never_received := opt_bool (kwarg "handle_never_received" kw) in
  let* v_handle_timeout_type := optional (strict HandleTimeout_object) (kwarg "handle_timeout_type" kw) in
  let* v_init_value := opt_value_specification (kwarg "init_value" kw) in
  let* v_timeout_substitution_value := opt_value_specification (kwarg "timeout_substitution_value" kw) in
  Ok (mkNonqueuedReceiverComSpec v_data_element_ref v_handle_out_of_range v_handle_out_of_range_status v_max_delta_counter_init v_max_no_new_repeated_data v_network_representation v_reception_props v_replace_with v_sync_counter_init v_transformation_com_spec_props v_uses_end_to_end_protection v_alive_timeout v_enable_update v_data_filter v_handle_data_status v_handle_never_received v_handle_timeout_type v_init_value v_timeout_substitution_value).
(** NvRequireComSpec.__init__, element.py:4588-4596 *)
Definition init_NvRequireComSpec (kw : keyword_args) : result NvRequireComSpec :=
  let* _ := check_keywords ["variable_ref"; "init_value"] kw in
  let* v_init_value := opt_value_specification (kwarg "init_value" kw) in
  let* v_variable_ref := opt_ref rc_VariableDataPrototypeRef (kwarg "variable_ref" kw) in
  Ok (mkNvRequireComSpec v_init_value v_variable_ref).
(** ParameterRequireComSpec.__init__, element.py:4605-4613 *)
Definition init_ParameterRequireComSpec (kw : keyword_args) : result ParameterRequireComSpec :=
  let* _ := check_keywords ["parameter_ref"; "init_value"] kw in
  let* v_init_value := opt_value_specification (kwarg "init_value" kw) in
  let* v_parameter_ref := opt_ref rc_ParameterDataPrototypeRef (kwarg "parameter_ref" kw) in
  Ok (mkParameterRequireComSpec v_init_value v_parameter_ref).
(** ModeSwitchReceiverComSpec.__init__, element.py:4622-4633 *)
Definition init_ModeSwitchReceiverComSpec (kw : keyword_args) : result ModeSwitchReceiverComSpec :=
  let* _ := check_keywords ["mode_group_ref"; "enhanced_mode_api"; "supports_async"] kw in
  let* v_mode_group_ref := opt_ref rc_ModeDeclarationGroupPrototypeRef (kwarg "mode_group_ref" kw) in
  let* v_enhanced_mode_api := opt_bool (kwarg "enhanced_mode_api" kw) in
  let* v_supports_async := opt_bool (kwarg "supports_async" kw) in
  Ok (mkModeSwitchReceiverComSpec v_mode_group_ref v_enhanced_mode_api v_supports_async).
(** ClientComSpec.__init__, element.py:4642-4668 *)
Definition init_ClientComSpec (kw : keyword_args) : result ClientComSpec :=
  let* _ := check_keywords ["operation_ref"; "e2e_call_respone_timeout"; "transformation_com_spec_props"] kw in
  let* v_operation_ref := opt_ref rc_ClientServerOperationRef (kwarg "operation_ref" kw) in
  let* v_e2e_call_respone_timeout := opt_float (kwarg "e2e_call_respone_timeout" kw) in
  let* v_transformation_com_spec_props := transformation_props (kwarg "transformation_com_spec_props" kw) in
  Ok (mkClientComSpec v_operation_ref v_e2e_call_respone_timeout v_transformation_com_spec_props).
(** ServerComSpec.append_transformation_com_spec_props, element.py:4316-4325 *)
Definition append_ServerComSpec_transformation_com_spec_props (x : ServerComSpec) (a : arg) : result ServerComSpec :=
  let* e := strict EndToEndTransformationComSpecProps_object a in Ok (mkServerComSpec (ServerComSpec_operation_ref x) (ServerComSpec_queue_length x) (ServerComSpec_transformation_com_spec_props x ++ [e])).
(** ReceiverComSpec.append_transformation_com_spec_props, element.py:4521-4530 *)
Definition append_QueuedReceiverComSpec_transformation_com_spec_props (x : QueuedReceiverComSpec) (a : arg) : result QueuedReceiverComSpec :=
  let* e := strict EndToEndTransformationComSpecProps_object a in Ok (mkQueuedReceiverComSpec (QueuedReceiverComSpec_data_element_ref x) (QueuedReceiverComSpec_handle_out_of_range x) (QueuedReceiverComSpec_handle_out_of_range_status x) (QueuedReceiverComSpec_max_delta_counter_init x) (QueuedReceiverComSpec_max_no_new_repeated_data x) (QueuedReceiverComSpec_network_representation x) (QueuedReceiverComSpec_reception_props x) (QueuedReceiverComSpec_replace_with x) (QueuedReceiverComSpec_sync_counter_init x) (QueuedReceiverComSpec_transformation_com_spec_props x ++ [e]) (QueuedReceiverComSpec_uses_end_to_end_protection x) (QueuedReceiverComSpec_queue_length x)).
(** ReceiverComSpec.append_transformation_com_spec_props, element.py:4521-4530 *)
Definition append_NonqueuedReceiverComSpec_transformation_com_spec_props (x : NonqueuedReceiverComSpec) (a : arg) : result NonqueuedReceiverComSpec :=
  let* e := strict EndToEndTransformationComSpecProps_object a in Ok (mkNonqueuedReceiverComSpec (NonqueuedReceiverComSpec_data_element_ref x) (NonqueuedReceiverComSpec_handle_out_of_range x) (NonqueuedReceiverComSpec_handle_out_of_range_status x) (NonqueuedReceiverComSpec_max_delta_counter_init x) (NonqueuedReceiverComSpec_max_no_new_repeated_data x) (NonqueuedReceiverComSpec_network_representation x) (NonqueuedReceiverComSpec_reception_props x) (NonqueuedReceiverComSpec_replace_with x) (NonqueuedReceiverComSpec_sync_counter_init x) (NonqueuedReceiverComSpec_transformation_com_spec_props x ++ [e]) (NonqueuedReceiverComSpec_uses_end_to_end_protection x) (NonqueuedReceiverComSpec_alive_timeout x) (NonqueuedReceiverComSpec_enable_update x) (NonqueuedReceiverComSpec_data_filter x) (NonqueuedReceiverComSpec_handle_data_status x) (NonqueuedReceiverComSpec_handle_never_received x) (NonqueuedReceiverComSpec_handle_timeout_type x) (NonqueuedReceiverComSpec_init_value x) (NonqueuedReceiverComSpec_timeout_substitution_value x)).
(** ClientComSpec.append_transformation_com_spec_props, element.py:4670-4679 *)
Definition append_ClientComSpec_transformation_com_spec_props (x : ClientComSpec) (a : arg) : result ClientComSpec :=
  let* e := strict EndToEndTransformationComSpecProps_object a in Ok (mkClientComSpec (ClientComSpec_operation_ref x) (ClientComSpec_e2e_call_respone_timeout x) (ClientComSpec_transformation_com_spec_props x ++ [e])).
