(** Elements built from data properties, value specifications and accesses: which objects survive a round trip (good_), and as what (norm_).
    Generated by tools/gen_codec.py from /repo/src/autosar/xml/{element,writer,reader}.py; the
    line numbers in the comments refer to these files. *)
From Verif Require Import Base MNum SNum MXml SXml MEnum MRefTab MRef SEnum MCodec SCodec MElem0 MElem1 MElemA MElemB MElemC MElem2 SElem1 SElemA SElemB SElemC.

Definition good_ImplementationDataType (e : ImplementationDataType) : Prop :=
  good_ident_no_uuid (ImplementationDataType_ident e) /\ opt_ok good_SwDataDefProps (ImplementationDataType_sw_data_def_props e) /\ opt_ok good_text (ImplementationDataType_dynamic_array_size_profile e) /\ all_ok good_ImplementationDataTypeElement (ImplementationDataType_sub_elements e) /\ opt_ok good_SymbolProps (ImplementationDataType_symbol_props e) /\ opt_ok good_text (ImplementationDataType_type_emitter e).
Definition norm_ImplementationDataType (e : ImplementationDataType) : ImplementationDataType :=
  mkImplementationDataType (ImplementationDataType_ident e) (option_map norm_SwDataDefProps (ImplementationDataType_sw_data_def_props e)) (ImplementationDataType_dynamic_array_size_profile e) (ImplementationDataType_is_struct_with_optional_element e) (map norm_ImplementationDataTypeElement (ImplementationDataType_sub_elements e)) (ImplementationDataType_symbol_props e) (ImplementationDataType_type_emitter e).
Definition good_ApplicationPrimitiveDataType (e : ApplicationPrimitiveDataType) : Prop :=
  good_ident_no_uuid (ApplicationPrimitiveDataType_ident e) /\ opt_ok good_SwDataDefProps (ApplicationPrimitiveDataType_sw_data_def_props e).
Definition norm_ApplicationPrimitiveDataType (e : ApplicationPrimitiveDataType) : ApplicationPrimitiveDataType :=
  mkApplicationPrimitiveDataType (ApplicationPrimitiveDataType_ident e) (option_map norm_SwDataDefProps (ApplicationPrimitiveDataType_sw_data_def_props e)).
Definition good_ApplicationArrayElement (e : ApplicationArrayElement) : Prop :=
  good_ident_no_uuid (ApplicationArrayElement_ident e) /\ opt_ok good_SwDataDefProps (ApplicationArrayElement_sw_data_def_props e) /\ opt_ok (good_ref rc_ApplicationDataTypeRef) (ApplicationArrayElement_type_ref e) /\ opt_ok (fun z => (0 <= z)%Z) (ApplicationArrayElement_max_number_of_elements e) /\ opt_ok (good_ref rc_IndexDataTypeRef) (ApplicationArrayElement_index_data_type_ref e).
Definition norm_ApplicationArrayElement (e : ApplicationArrayElement) : ApplicationArrayElement :=
  mkApplicationArrayElement (ApplicationArrayElement_ident e) (option_map norm_SwDataDefProps (ApplicationArrayElement_sw_data_def_props e)) (ApplicationArrayElement_type_ref e) (ApplicationArrayElement_array_size_handling e) (ApplicationArrayElement_array_size_semantics e) (ApplicationArrayElement_max_number_of_elements e) (ApplicationArrayElement_index_data_type_ref e).
Definition good_ApplicationRecordElement (e : ApplicationRecordElement) : Prop :=
  good_ident_no_uuid (ApplicationRecordElement_ident e) /\ opt_ok good_SwDataDefProps (ApplicationRecordElement_sw_data_def_props e) /\ opt_ok (good_ref rc_ApplicationDataTypeRef) (ApplicationRecordElement_type_ref e).
Definition norm_ApplicationRecordElement (e : ApplicationRecordElement) : ApplicationRecordElement :=
  mkApplicationRecordElement (ApplicationRecordElement_ident e) (option_map norm_SwDataDefProps (ApplicationRecordElement_sw_data_def_props e)) (ApplicationRecordElement_type_ref e) (ApplicationRecordElement_is_optional e).
Definition good_ApplicationArrayDataType (e : ApplicationArrayDataType) : Prop :=
  good_ident_no_uuid (ApplicationArrayDataType_ident e) /\ opt_ok good_SwDataDefProps (ApplicationArrayDataType_sw_data_def_props e) /\ opt_ok good_text (ApplicationArrayDataType_dynamic_array_size_profile e) /\ opt_ok good_ApplicationArrayElement (ApplicationArrayDataType_element e).
Definition norm_ApplicationArrayDataType (e : ApplicationArrayDataType) : ApplicationArrayDataType :=
  mkApplicationArrayDataType (ApplicationArrayDataType_ident e) (option_map norm_SwDataDefProps (ApplicationArrayDataType_sw_data_def_props e)) (ApplicationArrayDataType_dynamic_array_size_profile e) (option_map norm_ApplicationArrayElement (ApplicationArrayDataType_element e)).
Definition good_ApplicationRecordDataType (e : ApplicationRecordDataType) : Prop :=
  good_ident_no_uuid (ApplicationRecordDataType_ident e) /\ opt_ok good_SwDataDefProps (ApplicationRecordDataType_sw_data_def_props e) /\ all_ok good_ApplicationRecordElement (ApplicationRecordDataType_elements e).
Definition norm_ApplicationRecordDataType (e : ApplicationRecordDataType) : ApplicationRecordDataType :=
  mkApplicationRecordDataType (ApplicationRecordDataType_ident e) (option_map norm_SwDataDefProps (ApplicationRecordDataType_sw_data_def_props e)) (map norm_ApplicationRecordElement (ApplicationRecordDataType_elements e)).
Definition good_VariableDataPrototype (e : VariableDataPrototype) : Prop :=
  good_ident (VariableDataPrototype_ident e) /\ opt_ok good_SwDataDefProps (VariableDataPrototype_sw_data_def_props e) /\ opt_ok (good_ref rc_AutosarDataTypeRef) (VariableDataPrototype_type_ref e) /\ opt_ok good_ValueSpecificationElement (VariableDataPrototype_init_value e).
Definition norm_VariableDataPrototype (e : VariableDataPrototype) : VariableDataPrototype :=
  mkVariableDataPrototype (VariableDataPrototype_ident e) (option_map norm_SwDataDefProps (VariableDataPrototype_sw_data_def_props e)) (VariableDataPrototype_type_ref e) (option_map norm_ValueSpecificationElement (VariableDataPrototype_init_value e)).
Definition good_ParameterDataPrototype (e : ParameterDataPrototype) : Prop :=
  good_ident (ParameterDataPrototype_ident e) /\ opt_ok good_SwDataDefProps (ParameterDataPrototype_sw_data_def_props e) /\ opt_ok (good_ref rc_AutosarDataTypeRef) (ParameterDataPrototype_type_ref e) /\ opt_ok good_ValueSpecificationElement (ParameterDataPrototype_init_value e).
Definition norm_ParameterDataPrototype (e : ParameterDataPrototype) : ParameterDataPrototype :=
  mkParameterDataPrototype (ParameterDataPrototype_ident e) (option_map norm_SwDataDefProps (ParameterDataPrototype_sw_data_def_props e)) (ParameterDataPrototype_type_ref e) (option_map norm_ValueSpecificationElement (ParameterDataPrototype_init_value e)).
Definition good_ArgumentDataPrototype (e : ArgumentDataPrototype) : Prop :=
  good_ident (ArgumentDataPrototype_ident e) /\ opt_ok good_SwDataDefProps (ArgumentDataPrototype_sw_data_def_props e) /\ opt_ok (good_ref rc_AutosarDataTypeRef) (ArgumentDataPrototype_type_ref e).
Definition norm_ArgumentDataPrototype (e : ArgumentDataPrototype) : ArgumentDataPrototype :=
  mkArgumentDataPrototype (ArgumentDataPrototype_ident e) (option_map norm_SwDataDefProps (ArgumentDataPrototype_sw_data_def_props e)) (ArgumentDataPrototype_type_ref e) (ArgumentDataPrototype_direction e) (ArgumentDataPrototype_server_arg_impl_policy e).
Definition good_ConstantSpecification (e : ConstantSpecification) : Prop :=
  good_ident (ConstantSpecification_ident e) /\ opt_ok good_ValueSpecificationElement (ConstantSpecification_value e).
Definition norm_ConstantSpecification (e : ConstantSpecification) : ConstantSpecification :=
  mkConstantSpecification (ConstantSpecification_ident e) (option_map norm_ValueSpecificationElement (ConstantSpecification_value e)).
Definition good_NvDataInterface (e : NvDataInterface) : Prop :=
  good_ident_no_uuid (NvDataInterface_ident e) /\ NvDataInterface_service_kind e = None /\ all_ok good_VariableDataPrototype (NvDataInterface_data_elements e).
Definition norm_NvDataInterface (e : NvDataInterface) : NvDataInterface :=
  mkNvDataInterface (NvDataInterface_ident e) (NvDataInterface_is_service e) None (map norm_VariableDataPrototype (NvDataInterface_data_elements e)).
Definition good_ParameterInterface (e : ParameterInterface) : Prop :=
  good_ident_no_uuid (ParameterInterface_ident e) /\ ParameterInterface_service_kind e = None /\ all_ok good_ParameterDataPrototype (ParameterInterface_parameters e).
Definition norm_ParameterInterface (e : ParameterInterface) : ParameterInterface :=
  mkParameterInterface (ParameterInterface_ident e) (ParameterInterface_is_service e) None (map norm_ParameterDataPrototype (ParameterInterface_parameters e)).
Definition good_SenderReceiverInterface (e : SenderReceiverInterface) : Prop :=
  good_ident_no_uuid (SenderReceiverInterface_ident e) /\ SenderReceiverInterface_service_kind e = None /\ all_ok good_VariableDataPrototype (SenderReceiverInterface_data_elements e) /\ all_ok good_InvalidationPolicy (SenderReceiverInterface_invalidation_policies e).
Definition norm_SenderReceiverInterface (e : SenderReceiverInterface) : SenderReceiverInterface :=
  mkSenderReceiverInterface (SenderReceiverInterface_ident e) (SenderReceiverInterface_is_service e) None (map norm_VariableDataPrototype (SenderReceiverInterface_data_elements e)) (SenderReceiverInterface_invalidation_policies e).
Definition good_ClientServerOperation (e : ClientServerOperation) : Prop :=
  good_ident_no_uuid (ClientServerOperation_ident e) /\ all_ok good_ArgumentDataPrototype (ClientServerOperation_arguments e) /\ all_ok (good_ref rc_ApplicationErrorRef) (ClientServerOperation_possible_error_refs e).
Definition norm_ClientServerOperation (e : ClientServerOperation) : ClientServerOperation :=
  mkClientServerOperation (ClientServerOperation_ident e) (map norm_ArgumentDataPrototype (ClientServerOperation_arguments e)) (ClientServerOperation_diag_arg_integrity e) (ClientServerOperation_fire_and_forget e) (ClientServerOperation_possible_error_refs e).
Definition good_ClientServerInterface (e : ClientServerInterface) : Prop :=
  good_ident_no_uuid (ClientServerInterface_ident e) /\ ClientServerInterface_service_kind e = None /\ all_ok good_ClientServerOperation (ClientServerInterface_operations e) /\ all_ok good_ApplicationError (ClientServerInterface_possible_errors e).
Definition norm_ClientServerInterface (e : ClientServerInterface) : ClientServerInterface :=
  mkClientServerInterface (ClientServerInterface_ident e) (ClientServerInterface_is_service e) None (map norm_ClientServerOperation (ClientServerInterface_operations e)) (ClientServerInterface_possible_errors e).
Definition good_QueuedSenderComSpec (e : QueuedSenderComSpec) : Prop :=
  opt_ok (good_ref rc_AutosarDataPrototypeRef) (QueuedSenderComSpec_data_element_ref e) /\ opt_ok good_SwDataDefProps (QueuedSenderComSpec_network_representation e) /\ opt_ok good_TransmissionAcknowledgementRequest (QueuedSenderComSpec_transmission_acknowledge e) /\ opt_ok good_TransmissionComSpecProps (QueuedSenderComSpec_tranmsission_props e).
Definition norm_QueuedSenderComSpec (e : QueuedSenderComSpec) : QueuedSenderComSpec :=
  mkQueuedSenderComSpec (QueuedSenderComSpec_data_element_ref e) (QueuedSenderComSpec_handle_out_of_range e) (option_map norm_SwDataDefProps (QueuedSenderComSpec_network_representation e)) (QueuedSenderComSpec_transmission_acknowledge e) (QueuedSenderComSpec_tranmsission_props e) (QueuedSenderComSpec_uses_end_to_end_protection e).
Definition good_NonqueuedSenderComSpec (e : NonqueuedSenderComSpec) : Prop :=
  opt_ok (good_ref rc_AutosarDataPrototypeRef) (NonqueuedSenderComSpec_data_element_ref e) /\ opt_ok good_SwDataDefProps (NonqueuedSenderComSpec_network_representation e) /\ opt_ok good_TransmissionAcknowledgementRequest (NonqueuedSenderComSpec_transmission_acknowledge e) /\ opt_ok good_TransmissionComSpecProps (NonqueuedSenderComSpec_tranmsission_props e) /\ opt_ok good_DataFilter (NonqueuedSenderComSpec_data_filter e) /\ opt_ok good_ValueSpecificationElement (NonqueuedSenderComSpec_init_value e).
Definition norm_NonqueuedSenderComSpec (e : NonqueuedSenderComSpec) : NonqueuedSenderComSpec :=
  mkNonqueuedSenderComSpec (NonqueuedSenderComSpec_data_element_ref e) (NonqueuedSenderComSpec_handle_out_of_range e) (option_map norm_SwDataDefProps (NonqueuedSenderComSpec_network_representation e)) (NonqueuedSenderComSpec_transmission_acknowledge e) (NonqueuedSenderComSpec_tranmsission_props e) (NonqueuedSenderComSpec_uses_end_to_end_protection e) (NonqueuedSenderComSpec_data_filter e) (option_map norm_ValueSpecificationElement (NonqueuedSenderComSpec_init_value e)).
Definition good_NvProvideComSpec (e : NvProvideComSpec) : Prop :=
  opt_ok good_ValueSpecificationElement (NvProvideComSpec_ram_block_init_value e) /\ opt_ok good_ValueSpecificationElement (NvProvideComSpec_rom_block_init_value e) /\ opt_ok (good_ref rc_VariableDataPrototypeRef) (NvProvideComSpec_variable_ref e).
Definition norm_NvProvideComSpec (e : NvProvideComSpec) : NvProvideComSpec :=
  mkNvProvideComSpec (option_map norm_ValueSpecificationElement (NvProvideComSpec_ram_block_init_value e)) (option_map norm_ValueSpecificationElement (NvProvideComSpec_rom_block_init_value e)) (NvProvideComSpec_variable_ref e).
Definition good_ParameterProvideComSpec (e : ParameterProvideComSpec) : Prop :=
  opt_ok good_ValueSpecificationElement (ParameterProvideComSpec_init_value e) /\ opt_ok (good_ref rc_ParameterDataPrototypeRef) (ParameterProvideComSpec_parameter_ref e).
Definition norm_ParameterProvideComSpec (e : ParameterProvideComSpec) : ParameterProvideComSpec :=
  mkParameterProvideComSpec (option_map norm_ValueSpecificationElement (ParameterProvideComSpec_init_value e)) (ParameterProvideComSpec_parameter_ref e).
Definition good_NvRequireComSpec (e : NvRequireComSpec) : Prop :=
  opt_ok good_ValueSpecificationElement (NvRequireComSpec_init_value e) /\ opt_ok (good_ref rc_VariableDataPrototypeRef) (NvRequireComSpec_variable_ref e).
Definition norm_NvRequireComSpec (e : NvRequireComSpec) : NvRequireComSpec :=
  mkNvRequireComSpec (option_map norm_ValueSpecificationElement (NvRequireComSpec_init_value e)) (NvRequireComSpec_variable_ref e).
Definition good_ParameterRequireComSpec (e : ParameterRequireComSpec) : Prop :=
  opt_ok good_ValueSpecificationElement (ParameterRequireComSpec_init_value e) /\ opt_ok (good_ref rc_ParameterDataPrototypeRef) (ParameterRequireComSpec_parameter_ref e).
Definition norm_ParameterRequireComSpec (e : ParameterRequireComSpec) : ParameterRequireComSpec :=
  mkParameterRequireComSpec (option_map norm_ValueSpecificationElement (ParameterRequireComSpec_init_value e)) (ParameterRequireComSpec_parameter_ref e).
Definition good_AutosarVariableRef (e : AutosarVariableRef) : Prop :=
  opt_ok good_ArVariableInImplementationDataInstanceRef (AutosarVariableRef_ar_variable_in_impl_datatype e) /\ opt_ok good_VariableInAtomicSWCTypeInstanceRef (AutosarVariableRef_ar_variable_iref e) /\ opt_ok (good_ref rc_VariableDataPrototypeRef) (AutosarVariableRef_local_variable_ref e).
Definition good_VariableAccess (e : VariableAccess) : Prop :=
  good_ident_no_uuid (VariableAccess_ident e) /\ opt_ok good_AutosarVariableRef (VariableAccess_accessed_variable e).
Definition good_ParameterAccess (e : ParameterAccess) : Prop :=
  good_ident_no_uuid (ParameterAccess_ident e) /\ opt_ok good_AutosarParameterRef (ParameterAccess_accessed_parameter e) /\ opt_ok good_SwDataDefProps (ParameterAccess_sw_data_def_props e).
Definition norm_ParameterAccess (e : ParameterAccess) : ParameterAccess :=
  mkParameterAccess (ParameterAccess_ident e) (ParameterAccess_return_value_provision e) (ParameterAccess_accessed_parameter e) (option_map norm_SwDataDefProps (ParameterAccess_sw_data_def_props e)).
Definition good_PortDefinedArgumentValue (e : PortDefinedArgumentValue) : Prop :=
  opt_ok good_ValueSpecificationElement (PortDefinedArgumentValue_value e) /\ opt_ok (good_ref rc_ImplementationDataTypeRef) (PortDefinedArgumentValue_value_type e).
Definition norm_PortDefinedArgumentValue (e : PortDefinedArgumentValue) : PortDefinedArgumentValue :=
  mkPortDefinedArgumentValue (option_map norm_ValueSpecificationElement (PortDefinedArgumentValue_value e)) (PortDefinedArgumentValue_value_type e).
Definition good_PortApiOption (e : PortApiOption) : Prop :=
  all_ok good_PortDefinedArgumentValue (PortApiOption_port_arg_values e) /\ opt_ok (good_ref rc_PortPrototypeRef) (PortApiOption_port e) /\ all_ok good_CommunicationBufferLocking (PortApiOption_supported_features e).
Definition norm_PortApiOption (e : PortApiOption) : PortApiOption :=
  mkPortApiOption (PortApiOption_enable_take_address e) (PortApiOption_error_handling e) (PortApiOption_indirect_api e) (map norm_PortDefinedArgumentValue (PortApiOption_port_arg_values e)) (PortApiOption_port e) (PortApiOption_supported_features e) (PortApiOption_transformer_status_forwarding e).
