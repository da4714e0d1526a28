(** When a component, interface, package or document read back is the one that was written: the relations of
    SElem for the remaining classes.  They mention neither the writer nor the reader nor the [norm_] functions:
    everything is equal, apart from what SElem says of values, computations, constraints and data properties. *)
From Verif Require Import Base MNum SNum MXml MEnum MRefTab MRef MCodec MElem0 MElem1 MElemA MElemB MElemC MElem2 MElemD MElem3 MElem4 MElemE MElem5 MElemF MArxml SElem.
Open Scope list_scope.

Definition same_Unit (a b : Unit) : Prop :=
  Unit_ident a = Unit_ident b /\
  opt_rel same_names (Unit_display_name a) (Unit_display_name b) /\
  Unit_physical_dimension_ref a = Unit_physical_dimension_ref b /\
  Unit_factor a = Unit_factor b /\
  Unit_offset a = Unit_offset b.
Definition same_ApplicationPrimitiveDataType (a b : ApplicationPrimitiveDataType) : Prop :=
  ApplicationPrimitiveDataType_ident a = ApplicationPrimitiveDataType_ident b /\
  opt_rel same_props (ApplicationPrimitiveDataType_sw_data_def_props a) (ApplicationPrimitiveDataType_sw_data_def_props b).
Definition same_ApplicationArrayElement (a b : ApplicationArrayElement) : Prop :=
  ApplicationArrayElement_ident a = ApplicationArrayElement_ident b /\
  opt_rel same_props (ApplicationArrayElement_sw_data_def_props a) (ApplicationArrayElement_sw_data_def_props b) /\
  ApplicationArrayElement_type_ref a = ApplicationArrayElement_type_ref b /\
  ApplicationArrayElement_array_size_handling a = ApplicationArrayElement_array_size_handling b /\
  ApplicationArrayElement_array_size_semantics a = ApplicationArrayElement_array_size_semantics b /\
  ApplicationArrayElement_max_number_of_elements a = ApplicationArrayElement_max_number_of_elements b /\
  ApplicationArrayElement_index_data_type_ref a = ApplicationArrayElement_index_data_type_ref b.
Definition same_ApplicationRecordElement (a b : ApplicationRecordElement) : Prop :=
  ApplicationRecordElement_ident a = ApplicationRecordElement_ident b /\
  opt_rel same_props (ApplicationRecordElement_sw_data_def_props a) (ApplicationRecordElement_sw_data_def_props b) /\
  ApplicationRecordElement_type_ref a = ApplicationRecordElement_type_ref b /\
  ApplicationRecordElement_is_optional a = ApplicationRecordElement_is_optional b.
Definition same_ApplicationArrayDataType (a b : ApplicationArrayDataType) : Prop :=
  ApplicationArrayDataType_ident a = ApplicationArrayDataType_ident b /\
  opt_rel same_props (ApplicationArrayDataType_sw_data_def_props a) (ApplicationArrayDataType_sw_data_def_props b) /\
  ApplicationArrayDataType_dynamic_array_size_profile a = ApplicationArrayDataType_dynamic_array_size_profile b /\
  opt_rel same_ApplicationArrayElement (ApplicationArrayDataType_element a) (ApplicationArrayDataType_element b).
Definition same_ApplicationRecordDataType (a b : ApplicationRecordDataType) : Prop :=
  ApplicationRecordDataType_ident a = ApplicationRecordDataType_ident b /\
  opt_rel same_props (ApplicationRecordDataType_sw_data_def_props a) (ApplicationRecordDataType_sw_data_def_props b) /\
  Forall2 same_ApplicationRecordElement (ApplicationRecordDataType_elements a) (ApplicationRecordDataType_elements b).
Definition same_VariableDataPrototype (a b : VariableDataPrototype) : Prop :=
  VariableDataPrototype_ident a = VariableDataPrototype_ident b /\
  opt_rel same_props (VariableDataPrototype_sw_data_def_props a) (VariableDataPrototype_sw_data_def_props b) /\
  VariableDataPrototype_type_ref a = VariableDataPrototype_type_ref b /\
  opt_rel same_value_spec (VariableDataPrototype_init_value a) (VariableDataPrototype_init_value b).
Definition same_ParameterDataPrototype (a b : ParameterDataPrototype) : Prop :=
  ParameterDataPrototype_ident a = ParameterDataPrototype_ident b /\
  opt_rel same_props (ParameterDataPrototype_sw_data_def_props a) (ParameterDataPrototype_sw_data_def_props b) /\
  ParameterDataPrototype_type_ref a = ParameterDataPrototype_type_ref b /\
  opt_rel same_value_spec (ParameterDataPrototype_init_value a) (ParameterDataPrototype_init_value b).
Definition same_ArgumentDataPrototype (a b : ArgumentDataPrototype) : Prop :=
  ArgumentDataPrototype_ident a = ArgumentDataPrototype_ident b /\
  opt_rel same_props (ArgumentDataPrototype_sw_data_def_props a) (ArgumentDataPrototype_sw_data_def_props b) /\
  ArgumentDataPrototype_type_ref a = ArgumentDataPrototype_type_ref b /\
  ArgumentDataPrototype_direction a = ArgumentDataPrototype_direction b /\
  ArgumentDataPrototype_server_arg_impl_policy a = ArgumentDataPrototype_server_arg_impl_policy b.
Definition same_ConstantSpecification (a b : ConstantSpecification) : Prop :=
  ConstantSpecification_ident a = ConstantSpecification_ident b /\
  opt_rel same_value_spec (ConstantSpecification_value a) (ConstantSpecification_value b).
Definition same_NvDataInterface (a b : NvDataInterface) : Prop :=
  NvDataInterface_ident a = NvDataInterface_ident b /\
  NvDataInterface_is_service a = NvDataInterface_is_service b /\
  NvDataInterface_service_kind a = NvDataInterface_service_kind b /\
  Forall2 same_VariableDataPrototype (NvDataInterface_data_elements a) (NvDataInterface_data_elements b).
Definition same_ParameterInterface (a b : ParameterInterface) : Prop :=
  ParameterInterface_ident a = ParameterInterface_ident b /\
  ParameterInterface_is_service a = ParameterInterface_is_service b /\
  ParameterInterface_service_kind a = ParameterInterface_service_kind b /\
  Forall2 same_ParameterDataPrototype (ParameterInterface_parameters a) (ParameterInterface_parameters b).
Definition same_SenderReceiverInterface (a b : SenderReceiverInterface) : Prop :=
  SenderReceiverInterface_ident a = SenderReceiverInterface_ident b /\
  SenderReceiverInterface_is_service a = SenderReceiverInterface_is_service b /\
  SenderReceiverInterface_service_kind a = SenderReceiverInterface_service_kind b /\
  Forall2 same_VariableDataPrototype (SenderReceiverInterface_data_elements a) (SenderReceiverInterface_data_elements b) /\
  SenderReceiverInterface_invalidation_policies a = SenderReceiverInterface_invalidation_policies b.
Definition same_ClientServerOperation (a b : ClientServerOperation) : Prop :=
  ClientServerOperation_ident a = ClientServerOperation_ident b /\
  Forall2 same_ArgumentDataPrototype (ClientServerOperation_arguments a) (ClientServerOperation_arguments b) /\
  ClientServerOperation_diag_arg_integrity a = ClientServerOperation_diag_arg_integrity b /\
  ClientServerOperation_fire_and_forget a = ClientServerOperation_fire_and_forget b /\
  ClientServerOperation_possible_error_refs a = ClientServerOperation_possible_error_refs b.
Definition same_ClientServerInterface (a b : ClientServerInterface) : Prop :=
  ClientServerInterface_ident a = ClientServerInterface_ident b /\
  ClientServerInterface_is_service a = ClientServerInterface_is_service b /\
  ClientServerInterface_service_kind a = ClientServerInterface_service_kind b /\
  Forall2 same_ClientServerOperation (ClientServerInterface_operations a) (ClientServerInterface_operations b) /\
  ClientServerInterface_possible_errors a = ClientServerInterface_possible_errors b.
Definition same_QueuedSenderComSpec (a b : QueuedSenderComSpec) : Prop :=
  QueuedSenderComSpec_data_element_ref a = QueuedSenderComSpec_data_element_ref b /\
  QueuedSenderComSpec_handle_out_of_range a = QueuedSenderComSpec_handle_out_of_range b /\
  opt_rel same_props (QueuedSenderComSpec_network_representation a) (QueuedSenderComSpec_network_representation b) /\
  QueuedSenderComSpec_transmission_acknowledge a = QueuedSenderComSpec_transmission_acknowledge b /\
  QueuedSenderComSpec_tranmsission_props a = QueuedSenderComSpec_tranmsission_props b /\
  QueuedSenderComSpec_uses_end_to_end_protection a = QueuedSenderComSpec_uses_end_to_end_protection b.
Definition same_NonqueuedSenderComSpec (a b : NonqueuedSenderComSpec) : Prop :=
  NonqueuedSenderComSpec_data_element_ref a = NonqueuedSenderComSpec_data_element_ref b /\
  NonqueuedSenderComSpec_handle_out_of_range a = NonqueuedSenderComSpec_handle_out_of_range b /\
  opt_rel same_props (NonqueuedSenderComSpec_network_representation a) (NonqueuedSenderComSpec_network_representation b) /\
  NonqueuedSenderComSpec_transmission_acknowledge a = NonqueuedSenderComSpec_transmission_acknowledge b /\
  NonqueuedSenderComSpec_tranmsission_props a = NonqueuedSenderComSpec_tranmsission_props b /\
  NonqueuedSenderComSpec_uses_end_to_end_protection a = NonqueuedSenderComSpec_uses_end_to_end_protection b /\
  NonqueuedSenderComSpec_data_filter a = NonqueuedSenderComSpec_data_filter b /\
  opt_rel same_value_spec (NonqueuedSenderComSpec_init_value a) (NonqueuedSenderComSpec_init_value b).
Definition same_NvProvideComSpec (a b : NvProvideComSpec) : Prop :=
  opt_rel same_value_spec (NvProvideComSpec_ram_block_init_value a) (NvProvideComSpec_ram_block_init_value b) /\
  opt_rel same_value_spec (NvProvideComSpec_rom_block_init_value a) (NvProvideComSpec_rom_block_init_value b) /\
  NvProvideComSpec_variable_ref a = NvProvideComSpec_variable_ref b.
Definition same_ParameterProvideComSpec (a b : ParameterProvideComSpec) : Prop :=
  opt_rel same_value_spec (ParameterProvideComSpec_init_value a) (ParameterProvideComSpec_init_value b) /\
  ParameterProvideComSpec_parameter_ref a = ParameterProvideComSpec_parameter_ref b.
Definition same_NvRequireComSpec (a b : NvRequireComSpec) : Prop :=
  opt_rel same_value_spec (NvRequireComSpec_init_value a) (NvRequireComSpec_init_value b) /\
  NvRequireComSpec_variable_ref a = NvRequireComSpec_variable_ref b.
Definition same_ParameterRequireComSpec (a b : ParameterRequireComSpec) : Prop :=
  opt_rel same_value_spec (ParameterRequireComSpec_init_value a) (ParameterRequireComSpec_init_value b) /\
  ParameterRequireComSpec_parameter_ref a = ParameterRequireComSpec_parameter_ref b.
Definition same_ParameterAccess (a b : ParameterAccess) : Prop :=
  ParameterAccess_ident a = ParameterAccess_ident b /\
  ParameterAccess_return_value_provision a = ParameterAccess_return_value_provision b /\
  ParameterAccess_accessed_parameter a = ParameterAccess_accessed_parameter b /\
  opt_rel same_props (ParameterAccess_sw_data_def_props a) (ParameterAccess_sw_data_def_props b).
Definition same_PortDefinedArgumentValue (a b : PortDefinedArgumentValue) : Prop :=
  opt_rel same_value_spec (PortDefinedArgumentValue_value a) (PortDefinedArgumentValue_value b) /\
  PortDefinedArgumentValue_value_type a = PortDefinedArgumentValue_value_type b.
Definition same_PortApiOption (a b : PortApiOption) : Prop :=
  PortApiOption_enable_take_address a = PortApiOption_enable_take_address b /\
  PortApiOption_error_handling a = PortApiOption_error_handling b /\
  PortApiOption_indirect_api a = PortApiOption_indirect_api b /\
  Forall2 same_PortDefinedArgumentValue (PortApiOption_port_arg_values a) (PortApiOption_port_arg_values b) /\
  PortApiOption_port a = PortApiOption_port b /\
  PortApiOption_supported_features a = PortApiOption_supported_features b /\
  PortApiOption_transformer_status_forwarding a = PortApiOption_transformer_status_forwarding b.
Definition same_QueuedReceiverComSpec (a b : QueuedReceiverComSpec) : Prop :=
  QueuedReceiverComSpec_data_element_ref a = QueuedReceiverComSpec_data_element_ref b /\
  QueuedReceiverComSpec_handle_out_of_range a = QueuedReceiverComSpec_handle_out_of_range b /\
  QueuedReceiverComSpec_handle_out_of_range_status a = QueuedReceiverComSpec_handle_out_of_range_status b /\
  QueuedReceiverComSpec_max_delta_counter_init a = QueuedReceiverComSpec_max_delta_counter_init b /\
  QueuedReceiverComSpec_max_no_new_repeated_data a = QueuedReceiverComSpec_max_no_new_repeated_data b /\
  opt_rel same_props (QueuedReceiverComSpec_network_representation a) (QueuedReceiverComSpec_network_representation b) /\
  QueuedReceiverComSpec_reception_props a = QueuedReceiverComSpec_reception_props b /\
  QueuedReceiverComSpec_replace_with a = QueuedReceiverComSpec_replace_with b /\
  QueuedReceiverComSpec_sync_counter_init a = QueuedReceiverComSpec_sync_counter_init b /\
  QueuedReceiverComSpec_transformation_com_spec_props a = QueuedReceiverComSpec_transformation_com_spec_props b /\
  QueuedReceiverComSpec_uses_end_to_end_protection a = QueuedReceiverComSpec_uses_end_to_end_protection b /\
  QueuedReceiverComSpec_queue_length a = QueuedReceiverComSpec_queue_length b.
Definition same_NonqueuedReceiverComSpec (a b : NonqueuedReceiverComSpec) : Prop :=
  NonqueuedReceiverComSpec_data_element_ref a = NonqueuedReceiverComSpec_data_element_ref b /\
  NonqueuedReceiverComSpec_handle_out_of_range a = NonqueuedReceiverComSpec_handle_out_of_range b /\
  NonqueuedReceiverComSpec_handle_out_of_range_status a = NonqueuedReceiverComSpec_handle_out_of_range_status b /\
  NonqueuedReceiverComSpec_max_delta_counter_init a = NonqueuedReceiverComSpec_max_delta_counter_init b /\
  NonqueuedReceiverComSpec_max_no_new_repeated_data a = NonqueuedReceiverComSpec_max_no_new_repeated_data b /\
  opt_rel same_props (NonqueuedReceiverComSpec_network_representation a) (NonqueuedReceiverComSpec_network_representation b) /\
  NonqueuedReceiverComSpec_reception_props a = NonqueuedReceiverComSpec_reception_props b /\
  NonqueuedReceiverComSpec_replace_with a = NonqueuedReceiverComSpec_replace_with b /\
  NonqueuedReceiverComSpec_sync_counter_init a = NonqueuedReceiverComSpec_sync_counter_init b /\
  NonqueuedReceiverComSpec_transformation_com_spec_props a = NonqueuedReceiverComSpec_transformation_com_spec_props b /\
  NonqueuedReceiverComSpec_uses_end_to_end_protection a = NonqueuedReceiverComSpec_uses_end_to_end_protection b /\
  NonqueuedReceiverComSpec_alive_timeout a = NonqueuedReceiverComSpec_alive_timeout b /\
  NonqueuedReceiverComSpec_enable_update a = NonqueuedReceiverComSpec_enable_update b /\
  NonqueuedReceiverComSpec_data_filter a = NonqueuedReceiverComSpec_data_filter b /\
  NonqueuedReceiverComSpec_handle_data_status a = NonqueuedReceiverComSpec_handle_data_status b /\
  NonqueuedReceiverComSpec_handle_never_received a = NonqueuedReceiverComSpec_handle_never_received b /\
  NonqueuedReceiverComSpec_handle_timeout_type a = NonqueuedReceiverComSpec_handle_timeout_type b /\
  opt_rel same_value_spec (NonqueuedReceiverComSpec_init_value a) (NonqueuedReceiverComSpec_init_value b) /\
  opt_rel same_value_spec (NonqueuedReceiverComSpec_timeout_substitution_value a) (NonqueuedReceiverComSpec_timeout_substitution_value b).
Definition same_ProvidePortComSpec (a b : ProvidePortComSpec) : Prop :=
  match a, b with
  | ProvidePortComSpec_ModeSwitchSenderComSpec x, ProvidePortComSpec_ModeSwitchSenderComSpec y => x = y
  | ProvidePortComSpec_QueuedSenderComSpec x, ProvidePortComSpec_QueuedSenderComSpec y => same_QueuedSenderComSpec x y
  | ProvidePortComSpec_NonqueuedSenderComSpec x, ProvidePortComSpec_NonqueuedSenderComSpec y => same_NonqueuedSenderComSpec x y
  | ProvidePortComSpec_NvProvideComSpec x, ProvidePortComSpec_NvProvideComSpec y => same_NvProvideComSpec x y
  | ProvidePortComSpec_ParameterProvideComSpec x, ProvidePortComSpec_ParameterProvideComSpec y => same_ParameterProvideComSpec x y
  | ProvidePortComSpec_ServerComSpec x, ProvidePortComSpec_ServerComSpec y => x = y
  | _, _ => False
  end.
Definition same_RequirePortComSpec (a b : RequirePortComSpec) : Prop :=
  match a, b with
  | RequirePortComSpec_QueuedReceiverComSpec x, RequirePortComSpec_QueuedReceiverComSpec y => same_QueuedReceiverComSpec x y
  | RequirePortComSpec_NonqueuedReceiverComSpec x, RequirePortComSpec_NonqueuedReceiverComSpec y => same_NonqueuedReceiverComSpec x y
  | RequirePortComSpec_NvRequireComSpec x, RequirePortComSpec_NvRequireComSpec y => same_NvRequireComSpec x y
  | RequirePortComSpec_ParameterRequireComSpec x, RequirePortComSpec_ParameterRequireComSpec y => same_ParameterRequireComSpec x y
  | RequirePortComSpec_ModeSwitchReceiverComSpec x, RequirePortComSpec_ModeSwitchReceiverComSpec y => x = y
  | RequirePortComSpec_ClientComSpec x, RequirePortComSpec_ClientComSpec y => x = y
  | _, _ => False
  end.
Definition same_ProvidePortPrototype (a b : ProvidePortPrototype) : Prop :=
  ProvidePortPrototype_ident a = ProvidePortPrototype_ident b /\
  Forall2 same_ProvidePortComSpec (ProvidePortPrototype_com_spec a) (ProvidePortPrototype_com_spec b) /\
  ProvidePortPrototype_port_interface_ref a = ProvidePortPrototype_port_interface_ref b.
Definition same_RequirePortPrototype (a b : RequirePortPrototype) : Prop :=
  RequirePortPrototype_ident a = RequirePortPrototype_ident b /\
  Forall2 same_RequirePortComSpec (RequirePortPrototype_com_spec a) (RequirePortPrototype_com_spec b) /\
  RequirePortPrototype_allow_unconnected a = RequirePortPrototype_allow_unconnected b /\
  RequirePortPrototype_port_interface_ref a = RequirePortPrototype_port_interface_ref b.
Definition same_PRPortPrototype (a b : PRPortPrototype) : Prop :=
  PRPortPrototype_ident a = PRPortPrototype_ident b /\
  PRPortPrototype_port_interface_ref a = PRPortPrototype_port_interface_ref b /\
  Forall2 same_ProvidePortComSpec (PRPortPrototype_provided_com_spec a) (PRPortPrototype_provided_com_spec b) /\
  Forall2 same_RequirePortComSpec (PRPortPrototype_required_com_spec a) (PRPortPrototype_required_com_spec b).
Definition same_PortPrototypeElement (a b : PortPrototypeElement) : Prop :=
  match a, b with
  | PortPrototypeElement_P x, PortPrototypeElement_P y => same_ProvidePortPrototype x y
  | PortPrototypeElement_R x, PortPrototypeElement_R y => same_RequirePortPrototype x y
  | PortPrototypeElement_PR x, PortPrototypeElement_PR y => same_PRPortPrototype x y
  | _, _ => False
  end.
Definition same_CompositionSwComponentType (a b : CompositionSwComponentType) : Prop :=
  CompositionSwComponentType_ident a = CompositionSwComponentType_ident b /\
  Forall2 same_PortPrototypeElement (CompositionSwComponentType_ports a) (CompositionSwComponentType_ports b) /\
  CompositionSwComponentType_components a = CompositionSwComponentType_components b /\
  CompositionSwComponentType_connectors a = CompositionSwComponentType_connectors b.
Definition same_RunnableEntity (a b : RunnableEntity) : Prop :=
  RunnableEntity_ident a = RunnableEntity_ident b /\
  RunnableEntity_activation_reasons a = RunnableEntity_activation_reasons b /\
  RunnableEntity_can_enter_leave a = RunnableEntity_can_enter_leave b /\
  RunnableEntity_exclusive_area_nesting_order a = RunnableEntity_exclusive_area_nesting_order b /\
  RunnableEntity_minimum_start_interval a = RunnableEntity_minimum_start_interval b /\
  RunnableEntity_reentrancy_level a = RunnableEntity_reentrancy_level b /\
  RunnableEntity_runs_insides a = RunnableEntity_runs_insides b /\
  RunnableEntity_sw_addr_method a = RunnableEntity_sw_addr_method b /\
  RunnableEntity_argument a = RunnableEntity_argument b /\
  RunnableEntity_async_server_call_result_point a = RunnableEntity_async_server_call_result_point b /\
  RunnableEntity_can_be_invoked_concurrently a = RunnableEntity_can_be_invoked_concurrently b /\
  RunnableEntity_data_read_access a = RunnableEntity_data_read_access b /\
  RunnableEntity_data_receive_point_by_argument a = RunnableEntity_data_receive_point_by_argument b /\
  RunnableEntity_data_receive_point_by_value a = RunnableEntity_data_receive_point_by_value b /\
  RunnableEntity_data_send_point a = RunnableEntity_data_send_point b /\
  RunnableEntity_data_write_access a = RunnableEntity_data_write_access b /\
  RunnableEntity_external_triggering_point a = RunnableEntity_external_triggering_point b /\
  RunnableEntity_internal_triggering_point a = RunnableEntity_internal_triggering_point b /\
  RunnableEntity_mode_access_point a = RunnableEntity_mode_access_point b /\
  RunnableEntity_mode_switch_point a = RunnableEntity_mode_switch_point b /\
  Forall2 same_ParameterAccess (RunnableEntity_parameter_access a) (RunnableEntity_parameter_access b) /\
  RunnableEntity_read_local_variable a = RunnableEntity_read_local_variable b /\
  RunnableEntity_server_call_point a = RunnableEntity_server_call_point b /\
  RunnableEntity_symbol a = RunnableEntity_symbol b /\
  RunnableEntity_wait_point a = RunnableEntity_wait_point b /\
  RunnableEntity_write_local_variable a = RunnableEntity_write_local_variable b.
Definition same_SwcInternalBehavior (a b : SwcInternalBehavior) : Prop :=
  SwcInternalBehavior_ident a = SwcInternalBehavior_ident b /\
  SwcInternalBehavior_data_type_mappings a = SwcInternalBehavior_data_type_mappings b /\
  SwcInternalBehavior_exclusive_areas a = SwcInternalBehavior_exclusive_areas b /\
  SwcInternalBehavior_events a = SwcInternalBehavior_events b /\
  Forall2 (fun x y => fst x = fst y /\ same_PortApiOption (snd x) (snd y)) (SwcInternalBehavior_port_api_options a) (SwcInternalBehavior_port_api_options b) /\
  Forall2 same_RunnableEntity (SwcInternalBehavior_runnables a) (SwcInternalBehavior_runnables b).
Definition same_ApplicationSoftwareComponentType (a b : ApplicationSoftwareComponentType) : Prop :=
  ApplicationSoftwareComponentType_ident a = ApplicationSoftwareComponentType_ident b /\
  Forall2 same_PortPrototypeElement (ApplicationSoftwareComponentType_ports a) (ApplicationSoftwareComponentType_ports b) /\
  opt_rel same_SwcInternalBehavior (ApplicationSoftwareComponentType_internal_behavior a) (ApplicationSoftwareComponentType_internal_behavior b) /\
  ApplicationSoftwareComponentType_symbol_props a = ApplicationSoftwareComponentType_symbol_props b.
Definition same_ARElement (a b : ARElement) : Prop :=
  match a, b with
  | AR_CompuMethod x, AR_CompuMethod y => same_CompuMethod x y
  | AR_ApplicationArrayDataType x, AR_ApplicationArrayDataType y => same_ApplicationArrayDataType x y
  | AR_ApplicationRecordDataType x, AR_ApplicationRecordDataType y => same_ApplicationRecordDataType x y
  | AR_ApplicationPrimitiveDataType x, AR_ApplicationPrimitiveDataType y => same_ApplicationPrimitiveDataType x y
  | AR_SwBaseType x, AR_SwBaseType y => x = y
  | AR_SwAddrMethod x, AR_SwAddrMethod y => x = y
  | AR_ImplementationDataType x, AR_ImplementationDataType y => same_ImplementationDataType x y
  | AR_DataTypeMappingSet x, AR_DataTypeMappingSet y => x = y
  | AR_DataConstraint x, AR_DataConstraint y => same_DataConstraint x y
  | AR_Unit x, AR_Unit y => same_Unit x y
  | AR_ConstantSpecification x, AR_ConstantSpecification y => same_ConstantSpecification x y
  | AR_NvDataInterface x, AR_NvDataInterface y => same_NvDataInterface x y
  | AR_ParameterInterface x, AR_ParameterInterface y => same_ParameterInterface x y
  | AR_SenderReceiverInterface x, AR_SenderReceiverInterface y => same_SenderReceiverInterface x y
  | AR_ClientServerInterface x, AR_ClientServerInterface y => same_ClientServerInterface x y
  | AR_ModeSwitchInterface x, AR_ModeSwitchInterface y => x = y
  | AR_ModeDeclarationGroup x, AR_ModeDeclarationGroup y => x = y
  | AR_E2EProfileCompatibilityProps x, AR_E2EProfileCompatibilityProps y => x = y
  | AR_ApplicationSoftwareComponentType x, AR_ApplicationSoftwareComponentType y => same_ApplicationSoftwareComponentType x y
  | AR_CompositionSwComponentType x, AR_CompositionSwComponentType y => same_CompositionSwComponentType x y
  | AR_SwcImplementation x, AR_SwcImplementation y => x = y
  | _, _ => False
  end.
(** The same elements and packages in the same order. *)
Inductive same_package : package -> package -> Prop :=
| same_package_ ident es es' ps ps' : Forall2 same_ARElement es es' -> Forall2 same_package ps ps' -> same_package (mkPackage ident es ps) (mkPackage ident es' ps').
Definition same_document (a b : document) : Prop :=
  doc_schema_version a = doc_schema_version b /\ Forall2 same_package (doc_packages a) (doc_packages b).
