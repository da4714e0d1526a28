(** C57: code, filters and communication specifications hold what is given. *)
From Verif Require Import Base PBase MNum MXml MEnum MRefTab MRef MCodec MElem0 MElem1 MElemA MElemB MElemC MElem2 MElemD MElem3 MElem4 MElemE MElem5 MElemF MArxml MFind MValue MEvent MPort SPort PPort MAccess SAccess PAccess MRunnable SRunnable PRunnable MIface SIface PIface MData SFormat SData PData MConst SConst PConst  MParts SParts PParts.
Open Scope list_scope.

(** DataFilter succeeds exactly for arguments that describe an object, and makes that one. *)
Theorem C57_DataFilter kw x : init_DataFilter kw = Ok x <-> describes_DataFilter kw x.
Proof. exact (init_DataFilter_iff kw x). Qed.
Example C57_DataFilter_example : describes_DataFilter [("data_filter_type", AObj (ODataFilterType DataFilterType_ALWAYS)); ("min_val", AStr " -7"); ("max_val", AStr " -7"); ("mask", AStr " -7"); ("offset", AStr " -7"); ("period", AStr " -7"); ("x", AStr " -7")]
  (mkDataFilter (Some DataFilterType_ALWAYS) (Some (-7)%Z) (Some (-7)%Z) (Some (-7)%Z) (Some (-7)%Z) (Some (-7)%Z) (Some (-7)%Z)).
Proof. apply C57_DataFilter. reflexivity. Qed.
(** AutosarEngineeringObject succeeds exactly for arguments that describe an object, and makes that one. *)
Theorem C57_AutosarEngineeringObject kw x : init_AutosarEngineeringObject kw = Ok x <-> describes_AutosarEngineeringObject kw x.
Proof. exact (init_AutosarEngineeringObject_iff kw x). Qed.
Example C57_AutosarEngineeringObject_example : describes_AutosarEngineeringObject [("label", AStr "text"); ("category", AStr "text")]
  (mkAutosarEngineeringObject (Some "text") (Some "text")).
Proof. apply C57_AutosarEngineeringObject. reflexivity. Qed.
(** Code succeeds exactly for arguments that describe an object, and makes that one. *)
Theorem C57_Code name kw x : init_Code name kw = Ok x <-> describes_Code name kw x.
Proof. exact (init_Code_iff name kw x). Qed.
Example C57_Code_example : describes_Code "N" [("artifact_descriptors", ATuple [AObj (OAutosarEngineeringObject (mkAutosarEngineeringObject None None)); AObj (OAutosarEngineeringObject (mkAutosarEngineeringObject None None))])]
  (mkCode (mkIdent "N" None None None None None None None) ([(mkAutosarEngineeringObject None None); (mkAutosarEngineeringObject None None)])).
Proof. apply C57_Code. reflexivity. Qed.
(** SwcImplementation succeeds exactly for arguments that describe an object, and makes that one. *)
Theorem C57_SwcImplementation name kw x : init_SwcImplementation name kw = Ok x <-> describes_SwcImplementation name kw x.
Proof. exact (init_SwcImplementation_iff name kw x). Qed.
Example C57_SwcImplementation_example : describes_SwcImplementation "N" [("code_descriptors", ATuple [AObj (OCode (mkCode (mkIdent "N" None None None None None None None) [])); AObj (OCode (mkCode (mkIdent "N" None None None None None None None) []))]); ("behavior_ref", AObj (ORef rc_SwcInternalBehaviorRef (mkRef "/p/r" IdentifiableSubTypes_SWC_INTERNAL_BEHAVIOR))); ("required_rte_vendor", AStr "text")]
  (mkSwcImplementation (mkIdent "N" None None None None None None None) ([(mkCode (mkIdent "N" None None None None None None None) []); (mkCode (mkIdent "N" None None None None None None None) [])]) (Some (mkRef "/p/r" IdentifiableSubTypes_SWC_INTERNAL_BEHAVIOR)) (Some "text")).
Proof. apply C57_SwcImplementation. reflexivity. Qed.
(** ModeRequestTypeMap succeeds exactly for arguments that describe an object, and makes that one. *)
Theorem C57_ModeRequestTypeMap kw x : init_ModeRequestTypeMap kw = Ok x <-> describes_ModeRequestTypeMap kw x.
Proof. exact (init_ModeRequestTypeMap_iff kw x). Qed.
Example C57_ModeRequestTypeMap_example : describes_ModeRequestTypeMap [("implementation_data_type", AObj (ORef rc_ImplementationDataTypeRef (mkRef "/p/r" IdentifiableSubTypes_IMPLEMENTATION_DATA_TYPE))); ("mode_group", AObj (ORef rc_ModeDeclarationGroupRef (mkRef "/p/r" IdentifiableSubTypes_MODE_DECLARATION_GROUP)))]
  (mkModeRequestTypeMap (Some (mkRef "/p/r" IdentifiableSubTypes_IMPLEMENTATION_DATA_TYPE)) (Some (mkRef "/p/r" IdentifiableSubTypes_MODE_DECLARATION_GROUP))).
Proof. apply C57_ModeRequestTypeMap. reflexivity. Qed.
(** E2EProfileCompatibilityProps succeeds exactly for arguments that describe an object, and makes that one. *)
Theorem C57_E2EProfileCompatibilityProps name kw x : init_E2EProfileCompatibilityProps name kw = Ok x <-> describes_E2EProfileCompatibilityProps name kw x.
Proof. exact (init_E2EProfileCompatibilityProps_iff name kw x). Qed.
Example C57_E2EProfileCompatibilityProps_example : describes_E2EProfileCompatibilityProps "N" [("transit_to_invalid_extended", ABool true)]
  (mkE2EProfileCompatibilityProps (mkIdent "N" None None None None None None None) (Some true)).
Proof. apply C57_E2EProfileCompatibilityProps. reflexivity. Qed.
(** EndToEndTransformationComSpecProps succeeds exactly for arguments that describe an object, and makes that one. *)
Theorem C57_EndToEndTransformationComSpecProps kw x : init_EndToEndTransformationComSpecProps kw = Ok x <-> describes_EndToEndTransformationComSpecProps kw x.
Proof. exact (init_EndToEndTransformationComSpecProps_iff kw x). Qed.
Example C57_EndToEndTransformationComSpecProps_example : describes_EndToEndTransformationComSpecProps [("desc", AStr "words"); ("category", ANum (NInt 5)); ("introduction", AObj (ODocumentationBlock [])); ("admin_data", AObj (OAdminData None)); ("clear_from_valid_to_invalid", ABool true); ("disable_e2e_check", ABool true); ("disable_e2e_state_machine", ABool true); ("e2e_profile_compatibility_props_ref", AObj (ORef rc_E2EProfileCompatibilityPropsRef (mkRef "/p/r" IdentifiableSubTypes_E2E_PROFILE_COMPATIBILITY_PROPS))); ("max_delta_counter", ANum (NInt 3)); ("max_error_state_init", ANum (NInt 3)); ("max_error_state_invalid", ANum (NInt 3)); ("max_error_state_valid", ANum (NInt 3)); ("max_no_new_repeated_data", ANum (NInt 3)); ("min_ok_state_init", ANum (NInt 3)); ("min_ok_state_invalid", ANum (NInt 3)); ("min_ok_state_valid", ANum (NInt 3)); ("sync_counter_init", ANum (NInt 3)); ("window_size", ANum (NInt 3)); ("window_size_init", ANum (NInt 3)); ("window_size_invalid", ANum (NInt 3)); ("window_size_valid", ANum (NInt 3))]
  (mkEndToEndTransformationComSpecProps (Some [mkLang Language_FOR_ALL [PText "words"]]) (Some "5") (Some []) (Some None) (Some true) (Some true) (Some true) (Some (mkRef "/p/r" IdentifiableSubTypes_E2E_PROFILE_COMPATIBILITY_PROPS)) (Some 3%Z) (Some 3%Z) (Some 3%Z) (Some 3%Z) (Some 3%Z) (Some 3%Z) (Some 3%Z) (Some 3%Z) (Some 3%Z) (Some 3%Z) (Some 3%Z) (Some 3%Z) (Some 3%Z)).
Proof. apply C57_EndToEndTransformationComSpecProps. reflexivity. Qed.
(** ModeSwitchedAckRequest succeeds exactly for arguments that describe an object, and makes that one. *)
Theorem C57_ModeSwitchedAckRequest kw x : init_ModeSwitchedAckRequest kw = Ok x <-> describes_ModeSwitchedAckRequest kw x.
Proof. exact (init_ModeSwitchedAckRequest_iff kw x). Qed.
Example C57_ModeSwitchedAckRequest_example : describes_ModeSwitchedAckRequest [("timeout", ANum (NInt 2))]
  (mkModeSwitchedAckRequest (Some (NFloat (to_float (NInt 2))))).
Proof. apply C57_ModeSwitchedAckRequest. reflexivity. Qed.
(** TransmissionAcknowledgementRequest succeeds exactly for arguments that describe an object, and makes that one. *)
Theorem C57_TransmissionAcknowledgementRequest kw x : init_TransmissionAcknowledgementRequest kw = Ok x <-> describes_TransmissionAcknowledgementRequest kw x.
Proof. exact (init_TransmissionAcknowledgementRequest_iff kw x). Qed.
Example C57_TransmissionAcknowledgementRequest_example : describes_TransmissionAcknowledgementRequest [("timeout", ANum (NInt 2))]
  (mkTransmissionAcknowledgementRequest (Some (NFloat (to_float (NInt 2))))).
Proof. apply C57_TransmissionAcknowledgementRequest. reflexivity. Qed.
(** TransmissionComSpecProps succeeds exactly for arguments that describe an object, and makes that one. *)
Theorem C57_TransmissionComSpecProps kw x : init_TransmissionComSpecProps kw = Ok x <-> describes_TransmissionComSpecProps kw x.
Proof. exact (init_TransmissionComSpecProps_iff kw x). Qed.
Example C57_TransmissionComSpecProps_example : describes_TransmissionComSpecProps [("data_update_period", ANum (NInt 2)); ("minimum_send_interval", ANum (NInt 2)); ("transmission_mode", AObj (OTransmissionMode TransmissionMode_CYCLIC))]
  (mkTransmissionComSpecProps (Some (NFloat (to_float (NInt 2)))) (Some (NFloat (to_float (NInt 2)))) (Some TransmissionMode_CYCLIC)).
Proof. apply C57_TransmissionComSpecProps. reflexivity. Qed.
(** ReceptionComSpecProps succeeds exactly for arguments that describe an object, and makes that one. *)
Theorem C57_ReceptionComSpecProps kw x : init_ReceptionComSpecProps kw = Ok x <-> describes_ReceptionComSpecProps kw x.
Proof. exact (init_ReceptionComSpecProps_iff kw x). Qed.
Example C57_ReceptionComSpecProps_example : describes_ReceptionComSpecProps [("data_update_period", ANum (NInt 2)); ("timeout", ANum (NInt 2))]
  (mkReceptionComSpecProps (Some (NFloat (to_float (NInt 2)))) (Some (NFloat (to_float (NInt 2))))).
Proof. apply C57_ReceptionComSpecProps. reflexivity. Qed.
(** QueuedSenderComSpec succeeds exactly for arguments that describe an object, and makes that one. *)
Theorem C57_QueuedSenderComSpec kw x : init_QueuedSenderComSpec kw = Ok x <-> describes_QueuedSenderComSpec kw x.
Proof. exact (init_QueuedSenderComSpec_iff kw x). Qed.
Example C57_QueuedSenderComSpec_example : describes_QueuedSenderComSpec [("data_element_ref", AObj (ORef rc_VariableDataPrototypeRef (mkRef "/p/r" IdentifiableSubTypes_VARIABLE_DATA_PROTOTYPE))); ("handle_out_of_range", AObj (OHandleOutOfRange HandleOutOfRange_DEFAULT)); ("network_representation", AObj (OSwDataDefProps (mkSwDataDefProps []))); ("transmission_acknowledge", ANum (NInt 2)); ("tranmsission_props", AObj (OTransmissionComSpecProps (mkTransmissionComSpecProps None None None))); ("uses_end_to_end_protection", AStr "")]
  (mkQueuedSenderComSpec (Some (mkRef "/p/r" IdentifiableSubTypes_VARIABLE_DATA_PROTOTYPE)) (Some HandleOutOfRange_DEFAULT) (Some (mkSwDataDefProps [])) (Some (mkTransmissionAcknowledgementRequest (Some (NFloat (to_float (NInt 2)))))) (Some (mkTransmissionComSpecProps None None None)) (Some false)).
Proof. apply C57_QueuedSenderComSpec. reflexivity. Qed.
(** NonqueuedSenderComSpec succeeds exactly for arguments that describe an object, and makes that one. *)
Theorem C57_NonqueuedSenderComSpec kw x : init_NonqueuedSenderComSpec kw = Ok x <-> describes_NonqueuedSenderComSpec kw x.
Proof. exact (init_NonqueuedSenderComSpec_iff kw x). Qed.
Example C57_NonqueuedSenderComSpec_example : describes_NonqueuedSenderComSpec [("data_element_ref", AObj (ORef rc_VariableDataPrototypeRef (mkRef "/p/r" IdentifiableSubTypes_VARIABLE_DATA_PROTOTYPE))); ("handle_out_of_range", AObj (OHandleOutOfRange HandleOutOfRange_DEFAULT)); ("network_representation", AObj (OSwDataDefProps (mkSwDataDefProps []))); ("transmission_acknowledge", ANum (NInt 2)); ("tranmsission_props", AObj (OTransmissionComSpecProps (mkTransmissionComSpecProps None None None))); ("uses_end_to_end_protection", AStr ""); ("data_filter", AObj (ODataFilter (mkDataFilter None None None None None None None))); ("init_value", AObj (OValueSpecification (NotAvailableValueSpecification None None)))]
  (mkNonqueuedSenderComSpec (Some (mkRef "/p/r" IdentifiableSubTypes_VARIABLE_DATA_PROTOTYPE)) (Some HandleOutOfRange_DEFAULT) (Some (mkSwDataDefProps [])) (Some (mkTransmissionAcknowledgementRequest (Some (NFloat (to_float (NInt 2)))))) (Some (mkTransmissionComSpecProps None None None)) (Some false) (Some (mkDataFilter None None None None None None None)) (Some (NotAvailableValueSpecification None None))).
Proof. apply C57_NonqueuedSenderComSpec. reflexivity. Qed.
(** ModeSwitchSenderComSpec succeeds exactly for arguments that describe an object, and makes that one. *)
Theorem C57_ModeSwitchSenderComSpec kw x : init_ModeSwitchSenderComSpec kw = Ok x <-> describes_ModeSwitchSenderComSpec kw x.
Proof. exact (init_ModeSwitchSenderComSpec_iff kw x). Qed.
Example C57_ModeSwitchSenderComSpec_example : describes_ModeSwitchSenderComSpec [("mode_group_ref", AObj (ORef rc_ModeDeclarationGroupPrototypeRef (mkRef "/p/r" IdentifiableSubTypes_MODE_DECLARATION_GROUP_PROTOTYPE))); ("enhanced_mode_api", AStr ""); ("mode_switched_ack", ANum (NInt 2)); ("queue_length", ANum (NInt 3))]
  (mkModeSwitchSenderComSpec (Some (mkRef "/p/r" IdentifiableSubTypes_MODE_DECLARATION_GROUP_PROTOTYPE)) (Some false) (Some (mkModeSwitchedAckRequest (Some (NFloat (to_float (NInt 2)))))) (Some 3%Z)).
Proof. apply C57_ModeSwitchSenderComSpec. reflexivity. Qed.
(** NvProvideComSpec succeeds exactly for arguments that describe an object, and makes that one. *)
Theorem C57_NvProvideComSpec kw x : init_NvProvideComSpec kw = Ok x <-> describes_NvProvideComSpec kw x.
Proof. exact (init_NvProvideComSpec_iff kw x). Qed.
Example C57_NvProvideComSpec_example : describes_NvProvideComSpec [("ram_block_init_value", AObj (OValueSpecification (NotAvailableValueSpecification None None))); ("rom_block_init_value", AObj (OValueSpecification (NotAvailableValueSpecification None None))); ("variable_ref", AObj (ORef rc_VariableDataPrototypeRef (mkRef "/p/r" IdentifiableSubTypes_VARIABLE_DATA_PROTOTYPE)))]
  (mkNvProvideComSpec (Some (NotAvailableValueSpecification None None)) (Some (NotAvailableValueSpecification None None)) (Some (mkRef "/p/r" IdentifiableSubTypes_VARIABLE_DATA_PROTOTYPE))).
Proof. apply C57_NvProvideComSpec. reflexivity. Qed.
(** ParameterProvideComSpec succeeds exactly for arguments that describe an object, and makes that one. *)
Theorem C57_ParameterProvideComSpec kw x : init_ParameterProvideComSpec kw = Ok x <-> describes_ParameterProvideComSpec kw x.
Proof. exact (init_ParameterProvideComSpec_iff kw x). Qed.
Example C57_ParameterProvideComSpec_example : describes_ParameterProvideComSpec [("init_value", AObj (OValueSpecification (NotAvailableValueSpecification None None))); ("parameter_ref", AObj (ORef rc_ParameterDataPrototypeRef (mkRef "/p/r" IdentifiableSubTypes_PARAMETER_DATA_PROTOTYPE)))]
  (mkParameterProvideComSpec (Some (NotAvailableValueSpecification None None)) (Some (mkRef "/p/r" IdentifiableSubTypes_PARAMETER_DATA_PROTOTYPE))).
Proof. apply C57_ParameterProvideComSpec. reflexivity. Qed.
(** ServerComSpec succeeds exactly for arguments that describe an object, and makes that one. *)
Theorem C57_ServerComSpec kw x : init_ServerComSpec kw = Ok x <-> describes_ServerComSpec kw x.
Proof. exact (init_ServerComSpec_iff kw x). Qed.
Example C57_ServerComSpec_example : describes_ServerComSpec [("operation_ref", AObj (ORef rc_ClientServerOperationRef (mkRef "/p/r" IdentifiableSubTypes_CLIENT_SERVER_OPERATION))); ("queue_length", ANum (NInt 3)); ("transformation_com_spec_props", AObj (OEndToEndTransformationComSpecProps (mkEndToEndTransformationComSpecProps None None None None None None None None None None None None None None None None None None None None None)))]
  (mkServerComSpec (Some (mkRef "/p/r" IdentifiableSubTypes_CLIENT_SERVER_OPERATION)) (Some 3%Z) ([(mkEndToEndTransformationComSpecProps None None None None None None None None None None None None None None None None None None None None None)])).
Proof. apply C57_ServerComSpec. reflexivity. Qed.
(** QueuedReceiverComSpec succeeds exactly for arguments that describe an object, and makes that one. *)
Theorem C57_QueuedReceiverComSpec kw x : init_QueuedReceiverComSpec kw = Ok x <-> describes_QueuedReceiverComSpec kw x.
Proof. exact (init_QueuedReceiverComSpec_iff kw x). Qed.
Example C57_QueuedReceiverComSpec_example : describes_QueuedReceiverComSpec [("data_element_ref", AObj (ORef rc_VariableDataPrototypeRef (mkRef "/p/r" IdentifiableSubTypes_VARIABLE_DATA_PROTOTYPE))); ("handle_out_of_range", AObj (OHandleOutOfRange HandleOutOfRange_DEFAULT)); ("handle_out_of_range_status", AObj (OHandleOutOfRangeStatus HandleOutOfRangeStatus_INDICATE)); ("max_delta_counter_init", ANum (NInt 3)); ("max_no_new_repeated_data", ANum (NInt 3)); ("network_representation", AObj (OSwDataDefProps (mkSwDataDefProps []))); ("reception_props", AObj (OReceptionComSpecProps (mkReceptionComSpecProps None None))); ("replace_with", AObj (OVariableAccess (mkVariableAccess (mkIdent "N" None None None None None None None) None None))); ("sync_counter_init", ANum (NInt 3)); ("transformation_com_spec_props", AObj (OEndToEndTransformationComSpecProps (mkEndToEndTransformationComSpecProps None None None None None None None None None None None None None None None None None None None None None))); ("uses_end_to_end_protection", AStr ""); ("queue_length", ANum (NInt 3))]
  (mkQueuedReceiverComSpec (Some (mkRef "/p/r" IdentifiableSubTypes_VARIABLE_DATA_PROTOTYPE)) (Some HandleOutOfRange_DEFAULT) (Some HandleOutOfRangeStatus_INDICATE) (Some 3%Z) (Some 3%Z) (Some (mkSwDataDefProps [])) (Some (mkReceptionComSpecProps None None)) (Some (mkVariableAccess (mkIdent "N" None None None None None None None) None None)) (Some 3%Z) ([(mkEndToEndTransformationComSpecProps None None None None None None None None None None None None None None None None None None None None None)]) (Some false) (Some 3%Z)).
Proof. apply C57_QueuedReceiverComSpec. reflexivity. Qed.
(** NonqueuedReceiverComSpec succeeds exactly for arguments that describe an object, and makes that one. *)
Theorem C57_NonqueuedReceiverComSpec kw x : init_NonqueuedReceiverComSpec kw = Ok x <-> describes_NonqueuedReceiverComSpec kw x.
Proof. exact (init_NonqueuedReceiverComSpec_iff kw x). Qed.
Example C57_NonqueuedReceiverComSpec_example : describes_NonqueuedReceiverComSpec [("data_element_ref", AObj (ORef rc_VariableDataPrototypeRef (mkRef "/p/r" IdentifiableSubTypes_VARIABLE_DATA_PROTOTYPE))); ("handle_out_of_range", AObj (OHandleOutOfRange HandleOutOfRange_DEFAULT)); ("handle_out_of_range_status", AObj (OHandleOutOfRangeStatus HandleOutOfRangeStatus_INDICATE)); ("max_delta_counter_init", ANum (NInt 3)); ("max_no_new_repeated_data", ANum (NInt 3)); ("network_representation", AObj (OSwDataDefProps (mkSwDataDefProps []))); ("reception_props", AObj (OReceptionComSpecProps (mkReceptionComSpecProps None None))); ("replace_with", AObj (OVariableAccess (mkVariableAccess (mkIdent "N" None None None None None None None) None None))); ("sync_counter_init", ANum (NInt 3)); ("transformation_com_spec_props", AObj (OEndToEndTransformationComSpecProps (mkEndToEndTransformationComSpecProps None None None None None None None None None None None None None None None None None None None None None))); ("uses_end_to_end_protection", AStr ""); ("alive_timeout", ANum (NInt 2)); ("enable_update", AStr ""); ("data_filter", AObj (ODataFilter (mkDataFilter None None None None None None None))); ("handle_data_status", AStr ""); ("handle_never_received", AStr ""); ("handle_timeout_type", AObj (OHandleTimeout HandleTimeout_NONE)); ("init_value", AObj (OValueSpecification (NotAvailableValueSpecification None None))); ("timeout_substitution_value", AObj (OValueSpecification (NotAvailableValueSpecification None None)))]
  (mkNonqueuedReceiverComSpec (Some (mkRef "/p/r" IdentifiableSubTypes_VARIABLE_DATA_PROTOTYPE)) (Some HandleOutOfRange_DEFAULT) (Some HandleOutOfRangeStatus_INDICATE) (Some 3%Z) (Some 3%Z) (Some (mkSwDataDefProps [])) (Some (mkReceptionComSpecProps None None)) (Some (mkVariableAccess (mkIdent "N" None None None None None None None) None None)) (Some 3%Z) ([(mkEndToEndTransformationComSpecProps None None None None None None None None None None None None None None None None None None None None None)]) (Some false) (Some (NFloat (to_float (NInt 2)))) (Some false) (Some (mkDataFilter None None None None None None None)) (Some false) (Some false) (Some HandleTimeout_NONE) (Some (NotAvailableValueSpecification None None)) (Some (NotAvailableValueSpecification None None))).
Proof. apply C57_NonqueuedReceiverComSpec. reflexivity. Qed.
(** NvRequireComSpec succeeds exactly for arguments that describe an object, and makes that one. *)
Theorem C57_NvRequireComSpec kw x : init_NvRequireComSpec kw = Ok x <-> describes_NvRequireComSpec kw x.
Proof. exact (init_NvRequireComSpec_iff kw x). Qed.
Example C57_NvRequireComSpec_example : describes_NvRequireComSpec [("init_value", AObj (OValueSpecification (NotAvailableValueSpecification None None))); ("variable_ref", AObj (ORef rc_VariableDataPrototypeRef (mkRef "/p/r" IdentifiableSubTypes_VARIABLE_DATA_PROTOTYPE)))]
  (mkNvRequireComSpec (Some (NotAvailableValueSpecification None None)) (Some (mkRef "/p/r" IdentifiableSubTypes_VARIABLE_DATA_PROTOTYPE))).
Proof. apply C57_NvRequireComSpec. reflexivity. Qed.
(** ParameterRequireComSpec succeeds exactly for arguments that describe an object, and makes that one. *)
Theorem C57_ParameterRequireComSpec kw x : init_ParameterRequireComSpec kw = Ok x <-> describes_ParameterRequireComSpec kw x.
Proof. exact (init_ParameterRequireComSpec_iff kw x). Qed.
Example C57_ParameterRequireComSpec_example : describes_ParameterRequireComSpec [("init_value", AObj (OValueSpecification (NotAvailableValueSpecification None None))); ("parameter_ref", AObj (ORef rc_ParameterDataPrototypeRef (mkRef "/p/r" IdentifiableSubTypes_PARAMETER_DATA_PROTOTYPE)))]
  (mkParameterRequireComSpec (Some (NotAvailableValueSpecification None None)) (Some (mkRef "/p/r" IdentifiableSubTypes_PARAMETER_DATA_PROTOTYPE))).
Proof. apply C57_ParameterRequireComSpec. reflexivity. Qed.
(** ModeSwitchReceiverComSpec succeeds exactly for arguments that describe an object, and makes that one. *)
Theorem C57_ModeSwitchReceiverComSpec kw x : init_ModeSwitchReceiverComSpec kw = Ok x <-> describes_ModeSwitchReceiverComSpec kw x.
Proof. exact (init_ModeSwitchReceiverComSpec_iff kw x). Qed.
Example C57_ModeSwitchReceiverComSpec_example : describes_ModeSwitchReceiverComSpec [("mode_group_ref", AObj (ORef rc_ModeDeclarationGroupPrototypeRef (mkRef "/p/r" IdentifiableSubTypes_MODE_DECLARATION_GROUP_PROTOTYPE))); ("enhanced_mode_api", AStr ""); ("supports_async", AStr "")]
  (mkModeSwitchReceiverComSpec (Some (mkRef "/p/r" IdentifiableSubTypes_MODE_DECLARATION_GROUP_PROTOTYPE)) (Some false) (Some false)).
Proof. apply C57_ModeSwitchReceiverComSpec. reflexivity. Qed.
(** ClientComSpec succeeds exactly for arguments that describe an object, and makes that one. *)
Theorem C57_ClientComSpec kw x : init_ClientComSpec kw = Ok x <-> describes_ClientComSpec kw x.
Proof. exact (init_ClientComSpec_iff kw x). Qed.
Example C57_ClientComSpec_example : describes_ClientComSpec [("operation_ref", AObj (ORef rc_ClientServerOperationRef (mkRef "/p/r" IdentifiableSubTypes_CLIENT_SERVER_OPERATION))); ("e2e_call_respone_timeout", ANum (NInt 2)); ("transformation_com_spec_props", AObj (OEndToEndTransformationComSpecProps (mkEndToEndTransformationComSpecProps None None None None None None None None None None None None None None None None None None None None None)))]
  (mkClientComSpec (Some (mkRef "/p/r" IdentifiableSubTypes_CLIENT_SERVER_OPERATION)) (Some (NFloat (to_float (NInt 2)))) ([(mkEndToEndTransformationComSpecProps None None None None None None None None None None None None None None None None None None None None None)])).
Proof. apply C57_ClientComSpec. reflexivity. Qed.
Theorem C57_Code_append_artifact_descriptors x a y : append_Code_artifact_descriptors x a = Ok y <-> one_more_Code_artifact_descriptors x a y.
Proof. exact (append_Code_artifact_descriptors_iff x a y). Qed.
Example C57_Code_append_artifact_descriptors_example : one_more_Code_artifact_descriptors (mkCode (mkIdent "N" None None None None None None None) [(mkAutosarEngineeringObject None None)]) (AObj (OAutosarEngineeringObject (mkAutosarEngineeringObject None None))) (mkCode (mkIdent "N" None None None None None None None) [(mkAutosarEngineeringObject None None); (mkAutosarEngineeringObject None None)]).
Proof. apply C57_Code_append_artifact_descriptors. reflexivity. Qed.
Theorem C57_SwcImplementation_append_code_descriptors x a y : append_SwcImplementation_code_descriptors x a = Ok y <-> one_more_SwcImplementation_code_descriptors x a y.
Proof. exact (append_SwcImplementation_code_descriptors_iff x a y). Qed.
Example C57_SwcImplementation_append_code_descriptors_example : one_more_SwcImplementation_code_descriptors (mkSwcImplementation (mkIdent "N" None None None None None None None) [(mkCode (mkIdent "N" None None None None None None None) [])] None None) (AObj (OCode (mkCode (mkIdent "N" None None None None None None None) []))) (mkSwcImplementation (mkIdent "N" None None None None None None None) [(mkCode (mkIdent "N" None None None None None None None) []); (mkCode (mkIdent "N" None None None None None None None) [])] None None).
Proof. apply C57_SwcImplementation_append_code_descriptors. reflexivity. Qed.
Theorem C57_ServerComSpec_append_transformation_com_spec_props x a y : append_ServerComSpec_transformation_com_spec_props x a = Ok y <-> one_more_ServerComSpec_transformation_com_spec_props x a y.
Proof. exact (append_ServerComSpec_transformation_com_spec_props_iff x a y). Qed.
Example C57_ServerComSpec_append_transformation_com_spec_props_example : one_more_ServerComSpec_transformation_com_spec_props (mkServerComSpec None None [(mkEndToEndTransformationComSpecProps None None None None None None None None None None None None None None None None None None None None None)]) (AObj (OEndToEndTransformationComSpecProps (mkEndToEndTransformationComSpecProps None None None None None None None None None None None None None None None None None None None None None))) (mkServerComSpec None None [(mkEndToEndTransformationComSpecProps None None None None None None None None None None None None None None None None None None None None None); (mkEndToEndTransformationComSpecProps None None None None None None None None None None None None None None None None None None None None None)]).
Proof. apply C57_ServerComSpec_append_transformation_com_spec_props. reflexivity. Qed.
Theorem C57_QueuedReceiverComSpec_append_transformation_com_spec_props x a y : append_QueuedReceiverComSpec_transformation_com_spec_props x a = Ok y <-> one_more_QueuedReceiverComSpec_transformation_com_spec_props x a y.
Proof. exact (append_QueuedReceiverComSpec_transformation_com_spec_props_iff x a y). Qed.
Example C57_QueuedReceiverComSpec_append_transformation_com_spec_props_example : one_more_QueuedReceiverComSpec_transformation_com_spec_props (mkQueuedReceiverComSpec None None None None None None None None None [(mkEndToEndTransformationComSpecProps None None None None None None None None None None None None None None None None None None None None None)] None None) (AObj (OEndToEndTransformationComSpecProps (mkEndToEndTransformationComSpecProps None None None None None None None None None None None None None None None None None None None None None))) (mkQueuedReceiverComSpec None None None None None None None None None [(mkEndToEndTransformationComSpecProps None None None None None None None None None None None None None None None None None None None None None); (mkEndToEndTransformationComSpecProps None None None None None None None None None None None None None None None None None None None None None)] None None).
Proof. apply C57_QueuedReceiverComSpec_append_transformation_com_spec_props. reflexivity. Qed.
Theorem C57_NonqueuedReceiverComSpec_append_transformation_com_spec_props x a y : append_NonqueuedReceiverComSpec_transformation_com_spec_props x a = Ok y <-> one_more_NonqueuedReceiverComSpec_transformation_com_spec_props x a y.
Proof. exact (append_NonqueuedReceiverComSpec_transformation_com_spec_props_iff x a y). Qed.
Example C57_NonqueuedReceiverComSpec_append_transformation_com_spec_props_example : one_more_NonqueuedReceiverComSpec_transformation_com_spec_props (mkNonqueuedReceiverComSpec None None None None None None None None None [(mkEndToEndTransformationComSpecProps None None None None None None None None None None None None None None None None None None None None None)] None None None None None None None None None) (AObj (OEndToEndTransformationComSpecProps (mkEndToEndTransformationComSpecProps None None None None None None None None None None None None None None None None None None None None None))) (mkNonqueuedReceiverComSpec None None None None None None None None None [(mkEndToEndTransformationComSpecProps None None None None None None None None None None None None None None None None None None None None None); (mkEndToEndTransformationComSpecProps None None None None None None None None None None None None None None None None None None None None None)] None None None None None None None None None).
Proof. apply C57_NonqueuedReceiverComSpec_append_transformation_com_spec_props. reflexivity. Qed.
Theorem C57_ClientComSpec_append_transformation_com_spec_props x a y : append_ClientComSpec_transformation_com_spec_props x a = Ok y <-> one_more_ClientComSpec_transformation_com_spec_props x a y.
Proof. exact (append_ClientComSpec_transformation_com_spec_props_iff x a y). Qed.
Example C57_ClientComSpec_append_transformation_com_spec_props_example : one_more_ClientComSpec_transformation_com_spec_props (mkClientComSpec None None [(mkEndToEndTransformationComSpecProps None None None None None None None None None None None None None None None None None None None None None)]) (AObj (OEndToEndTransformationComSpecProps (mkEndToEndTransformationComSpecProps None None None None None None None None None None None None None None None None None None None None None))) (mkClientComSpec None None [(mkEndToEndTransformationComSpecProps None None None None None None None None None None None None None None None None None None None None None); (mkEndToEndTransformationComSpecProps None None None None None None None None None None None None None None None None None None None None None)]).
Proof. apply C57_ClientComSpec_append_transformation_com_spec_props. reflexivity. Qed.

Print Assumptions C57_DataFilter.
Print Assumptions C57_AutosarEngineeringObject.
Print Assumptions C57_Code.
Print Assumptions C57_SwcImplementation.
Print Assumptions C57_ModeRequestTypeMap.
Print Assumptions C57_E2EProfileCompatibilityProps.
Print Assumptions C57_EndToEndTransformationComSpecProps.
Print Assumptions C57_ModeSwitchedAckRequest.
Print Assumptions C57_TransmissionAcknowledgementRequest.
Print Assumptions C57_TransmissionComSpecProps.
Print Assumptions C57_ReceptionComSpecProps.
Print Assumptions C57_QueuedSenderComSpec.
Print Assumptions C57_NonqueuedSenderComSpec.
Print Assumptions C57_ModeSwitchSenderComSpec.
Print Assumptions C57_NvProvideComSpec.
Print Assumptions C57_ParameterProvideComSpec.
Print Assumptions C57_ServerComSpec.
Print Assumptions C57_QueuedReceiverComSpec.
Print Assumptions C57_NonqueuedReceiverComSpec.
Print Assumptions C57_NvRequireComSpec.
Print Assumptions C57_ParameterRequireComSpec.
Print Assumptions C57_ModeSwitchReceiverComSpec.
Print Assumptions C57_ClientComSpec.
Print Assumptions C57_Code_append_artifact_descriptors.
Print Assumptions C57_SwcImplementation_append_code_descriptors.
Print Assumptions C57_ServerComSpec_append_transformation_com_spec_props.
Print Assumptions C57_QueuedReceiverComSpec_append_transformation_com_spec_props.
Print Assumptions C57_NonqueuedReceiverComSpec_append_transformation_com_spec_props.
Print Assumptions C57_ClientComSpec_append_transformation_com_spec_props.
