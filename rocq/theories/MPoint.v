(** Creating references into components and parts of runnables.
    Source: /repo/src/autosar/xml/element.py and xml/base.py.  No proofs in this file.
    Positional arguments other than the name are passed as keywords.  Objects are values; functions
    that change one return the changed value. *)
From Verif Require Import Base MNum MXml MEnum MRefTab MRef MCodec MElem0 MElem1 MElemA MElemB MElemC MElem2 MElemD MElem3 MElem4 MElemE MElem5 MElemF MArxml MFind MValue MEvent MPort MAccess MRunnable MIface MData MConst MParts.
Open Scope list_scope.

(** ** Classes of arguments *)
(** isinstance(value, ArVariableInImplementationDataInstanceRef), xml/base.py:102-110 *)
Definition ArVariableInImplementationDataInstanceRef_object (o : lib_object) : option ArVariableInImplementationDataInstanceRef := match o with OArVariableInImplementationDataInstanceRef e => Some e | _ => None end.
(** isinstance(value, VariableInAtomicSWCTypeInstanceRef), xml/base.py:102-110 *)
Definition VariableInAtomicSWCTypeInstanceRef_object (o : lib_object) : option VariableInAtomicSWCTypeInstanceRef := match o with OVariableInAtomicSWCTypeInstanceRef e => Some e | _ => None end.
(** isinstance(value, ParameterInAtomicSwcTypeInstanceRef), xml/base.py:102-110 *)
Definition ParameterInAtomicSwcTypeInstanceRef_object (o : lib_object) : option ParameterInAtomicSwcTypeInstanceRef := match o with OParameterInAtomicSwcTypeInstanceRef e => Some e | _ => None end.
(** isinstance(value, AutosarVariableRef), xml/base.py:102-110 *)
Definition AutosarVariableRef_object (o : lib_object) : option AutosarVariableRef := match o with OAutosarVariableRef e => Some e | _ => None end.
(** isinstance(value, VariableAccessScope), xml/base.py:102-110 *)
Definition VariableAccessScope_object (o : lib_object) : option VariableAccessScope := match o with OVariableAccessScope e => Some e | _ => None end.
(** isinstance(value, RteApiReturnValueProvision), xml/base.py:102-110 *)
Definition RteApiReturnValueProvision_object (o : lib_object) : option RteApiReturnValueProvision := match o with ORteApiReturnValueProvision e => Some e | _ => None end.
(** isinstance(value, ROperationInAtomicSwcInstanceRef), xml/base.py:102-110 *)
Definition ROperationInAtomicSwcInstanceRef_object (o : lib_object) : option ROperationInAtomicSwcInstanceRef := match o with OROperationInAtomicSwcInstanceRef e => Some e | _ => None end.
(** isinstance(value, ExternalTriggeringPointIdent), xml/base.py:102-110 *)
Definition ExternalTriggeringPointIdent_object (o : lib_object) : option ExternalTriggeringPointIdent := match o with OExternalTriggeringPointIdent e => Some e | _ => None end.
(** isinstance(value, PTriggerInAtomicSwcTypeInstanceRef), xml/base.py:102-110 *)
Definition PTriggerInAtomicSwcTypeInstanceRef_object (o : lib_object) : option PTriggerInAtomicSwcTypeInstanceRef := match o with OPTriggerInAtomicSwcTypeInstanceRef e => Some e | _ => None end.
(** isinstance(value, SwImplPolicy), xml/base.py:102-110 *)
Definition SwImplPolicy_object (o : lib_object) : option SwImplPolicy := match o with OSwImplPolicy e => Some e | _ => None end.
(** isinstance(value, ModeAccessPointIdent), xml/base.py:102-110 *)
Definition ModeAccessPointIdent_object (o : lib_object) : option ModeAccessPointIdent := match o with OModeAccessPointIdent e => Some e | _ => None end.
(** isinstance(value, ModeGroupInAtomicSwcInstanceRef), xml/base.py:102-110 *)
Definition ModeGroupInAtomicSwcInstanceRef_object (o : lib_object) : option ModeGroupInAtomicSwcInstanceRef := match o with OModeGroupInAtomicSwcInstanceRef e => Some e | _ => None end.
(** isinstance(value, PModeGroupInAtomicSwcInstanceRef), xml/base.py:102-110 *)
Definition PModeGroupInAtomicSwcInstanceRef_object (o : lib_object) : option PModeGroupInAtomicSwcInstanceRef := match o with OModeGroupInAtomicSwcInstanceRef (ModeGroup_P e) => Some e | _ => None end.
(** isinstance(value, AutosarParameterRef), xml/base.py:102-110 *)
Definition AutosarParameterRef_object (o : lib_object) : option AutosarParameterRef := match o with OAutosarParameterRef e => Some e | _ => None end.

(** ** References to something in a component *)
(** POperationInAtomicSwcInstanceRef.__init__, element.py:5565-5574 *)
Definition init_POperationInAtomicSwcInstanceRef (kw : keyword_args) : result POperationInAtomicSwcInstanceRef :=
  let* _ := check_keywords ["context_port"; "target_provided_operation"] kw in
  let* v_context_port := opt_ref rc_AbstractProvidedPortPrototypeRef (kwarg "context_port" kw) in
  let* v_target_provided_operation := opt_ref rc_ClientServerOperationRef (kwarg "target_provided_operation" kw) in
  Ok (mkPOperationInAtomicSwcInstanceRef v_context_port v_target_provided_operation).
(** PModeGroupInAtomicSwcInstanceRef.__init__, element.py:5584-5596 *)
Definition init_PModeGroupInAtomicSwcInstanceRef (kw : keyword_args) : result PModeGroupInAtomicSwcInstanceRef :=
  let* _ := check_keywords ["context_port"; "target_mode_group"] kw in
  let* v_context_port := opt_ref rc_AbstractProvidedPortPrototypeRef (kwarg "context_port" kw) in
  let* v_target_mode_group := opt_ref rc_ModeDeclarationGroupPrototypeRef (kwarg "target_mode_group" kw) in
  Ok (mkPModeGroupInAtomicSwcInstanceRef v_context_port v_target_mode_group).
(** PTriggerInAtomicSwcTypeInstanceRef.__init__, element.py:5606-5616 *)
Definition init_PTriggerInAtomicSwcTypeInstanceRef (kw : keyword_args) : result PTriggerInAtomicSwcTypeInstanceRef :=
  let* _ := check_keywords ["context_port"; "target_trigger"] kw in
  let* v_context_port := opt_ref rc_AbstractProvidedPortPrototypeRef (kwarg "context_port" kw) in
  let* v_target_trigger := opt_ref rc_TriggerRef (kwarg "target_trigger" kw) in
  Ok (mkPTriggerInAtomicSwcTypeInstanceRef v_context_port v_target_trigger).
(** ROperationInAtomicSwcInstanceRef.__init__, element.py:5625-5634 *)
Definition init_ROperationInAtomicSwcInstanceRef (kw : keyword_args) : result ROperationInAtomicSwcInstanceRef :=
  let* _ := check_keywords ["context_port"; "target_required_operation"] kw in
  let* v_context_port := opt_ref rc_AbstractRequiredPortPrototypeRef (kwarg "context_port" kw) in
  let* v_target_required_operation := opt_ref rc_ClientServerOperationRef (kwarg "target_required_operation" kw) in
  Ok (mkROperationInAtomicSwcInstanceRef v_context_port v_target_required_operation).
(** RModeInAtomicSwcInstanceRef.__init__, element.py:5643-5658 *)
Definition init_RModeInAtomicSwcInstanceRef (kw : keyword_args) : result RModeInAtomicSwcInstanceRef :=
  let* _ := check_keywords ["context_port"; "context_mode_declaration_group_prototype"; "target_mode_declaration"] kw in
  let* v_context_port := opt_ref rc_AbstractRequiredPortPrototypeRef (kwarg "context_port" kw) in
  let* v_context_mode_declaration_group_prototype := opt_ref rc_ModeDeclarationGroupPrototypeRef (kwarg "context_mode_declaration_group_prototype" kw) in
  let* v_target_mode_declaration := opt_ref rc_ModeDeclarationRef (kwarg "target_mode_declaration" kw) in
  Ok (mkRModeInAtomicSwcInstanceRef v_context_port v_context_mode_declaration_group_prototype v_target_mode_declaration).
(** RModeGroupInAtomicSwcInstanceRef.__init__, element.py:5667-5677 *)
Definition init_RModeGroupInAtomicSwcInstanceRef (kw : keyword_args) : result RModeGroupInAtomicSwcInstanceRef :=
  let* _ := check_keywords ["context_port"; "target_mode_group"] kw in
  let* v_context_port := opt_ref rc_AbstractRequiredPortPrototypeRef (kwarg "context_port" kw) in
  let* v_target_mode_group := opt_ref rc_ModeDeclarationGroupPrototypeRef (kwarg "target_mode_group" kw) in
  Ok (mkRModeGroupInAtomicSwcInstanceRef v_context_port v_target_mode_group).
(** RVariableInAtomicSwcInstanceRef.__init__, element.py:5686-5696 *)
Definition init_RVariableInAtomicSwcInstanceRef (kw : keyword_args) : result RVariableInAtomicSwcInstanceRef :=
  let* _ := check_keywords ["context_port"; "target_data_element"] kw in
  let* v_context_port := opt_ref rc_AbstractRequiredPortPrototypeRef (kwarg "context_port" kw) in
  let* v_target_data_element := opt_ref rc_VariableDataPrototypeRef (kwarg "target_data_element" kw) in
  Ok (mkRVariableInAtomicSwcInstanceRef v_context_port v_target_data_element).
(** RTriggerInAtomicSwcInstanceRef.__init__, element.py:5705-5715 *)
Definition init_RTriggerInAtomicSwcInstanceRef (kw : keyword_args) : result RTriggerInAtomicSwcInstanceRef :=
  let* _ := check_keywords ["context_port"; "target_trigger"] kw in
  let* v_context_port := opt_ref rc_AbstractRequiredPortPrototypeRef (kwarg "context_port" kw) in
  let* v_target_trigger := opt_ref rc_TriggerRef (kwarg "target_trigger" kw) in
  Ok (mkRTriggerInAtomicSwcInstanceRef v_context_port v_target_trigger).
(** ArVariableInImplementationDataInstanceRef.__init__, element.py:5730-5758 *)
Definition init_ArVariableInImplementationDataInstanceRef (kw : keyword_args) : result ArVariableInImplementationDataInstanceRef :=
  let* _ := check_keywords ["port_prototype_ref"; "root_variable_data_prototype_ref"; "context_data_prototype_refs"; "target_data_prototype_ref"] kw in
  let* v_port_prototype_ref := opt_ref_strict rc_PortPrototypeRef (kwarg "port_prototype_ref" kw) in
  let* v_root_variable_data_prototype_ref := opt_ref_strict rc_VariableDataPrototypeRef (kwarg "root_variable_data_prototype_ref" kw) in
  let* v_target_data_prototype_ref := opt_ref_strict rc_AbstractImplementationDataTypeElementRef (kwarg "target_data_prototype_ref" kw) in
  let* v_context_data_prototype_refs := lenient (own_ref rc_AbstractImplementationDataTypeElementRef) (kwarg "context_data_prototype_refs" kw) in
  Ok (mkArVariableInImplementationDataInstanceRef v_port_prototype_ref v_root_variable_data_prototype_ref v_context_data_prototype_refs v_target_data_prototype_ref).
(** VariableInAtomicSWCTypeInstanceRef.__init__, element.py:5779-5804 *)
Definition init_VariableInAtomicSWCTypeInstanceRef (kw : keyword_args) : result VariableInAtomicSWCTypeInstanceRef :=
  let* _ := check_keywords ["port_prototype_ref"; "root_variable_data_prototype_ref"; "context_data_prototype_refs"; "target_data_prototype_ref"] kw in
  let* v_port_prototype_ref := opt_ref rc_PortPrototypeRef (kwarg "port_prototype_ref" kw) in
  let* v_root_variable_data_prototype_ref := opt_ref rc_VariableDataPrototypeRef (kwarg "root_variable_data_prototype_ref" kw) in
  let* v_target_data_prototype_ref := opt_ref rc_DataPrototypeRef (kwarg "target_data_prototype_ref" kw) in
  let* v_context_data_prototype_refs := lenient (own_ref rc_ApplicationCompositeElementDataPrototypeRef) (kwarg "context_data_prototype_refs" kw) in
  Ok (mkVariableInAtomicSWCTypeInstanceRef v_port_prototype_ref v_root_variable_data_prototype_ref v_context_data_prototype_refs v_target_data_prototype_ref).
(** AutosarVariableRef.__init__, element.py:5824-5844 *)
Definition init_AutosarVariableRef (kw : keyword_args) : result AutosarVariableRef :=
  let* _ := check_keywords ["ar_variable_in_impl_datatype"; "ar_variable_iref"; "local_variable_ref"] kw in
  let* v_ar_variable_in_impl_datatype := optional (strict ArVariableInImplementationDataInstanceRef_object) (kwarg "ar_variable_in_impl_datatype" kw) in
  let* v_ar_variable_iref := optional (strict VariableInAtomicSWCTypeInstanceRef_object) (kwarg "ar_variable_iref" kw) in
  let* v_local_variable_ref := opt_ref_strict rc_VariableDataPrototypeRef (kwarg "local_variable_ref" kw) in
  Ok (mkAutosarVariableRef v_ar_variable_in_impl_datatype v_ar_variable_iref v_local_variable_ref).
(** ParameterInAtomicSwcTypeInstanceRef.__init__, element.py:6315-6335 *)
Definition init_ParameterInAtomicSwcTypeInstanceRef (kw : keyword_args) : result ParameterInAtomicSwcTypeInstanceRef :=
  let* _ := check_keywords ["port_prototype"; "root_parameter_data_prototype"; "context_data_prototype"; "target_data_prototype"] kw in
  let* v_port_prototype := opt_ref rc_PortPrototypeRef (kwarg "port_prototype" kw) in
  let* v_root_parameter_data_prototype := opt_ref rc_DataPrototypeRef (kwarg "root_parameter_data_prototype" kw) in
  let* v_context_data_prototype := opt_ref rc_ApplicationCompositeElementDataPrototypeRef (kwarg "context_data_prototype" kw) in
  let* v_target_data_prototype := opt_ref rc_DataPrototypeRef (kwarg "target_data_prototype" kw) in
  Ok (mkParameterInAtomicSwcTypeInstanceRef v_port_prototype v_root_parameter_data_prototype v_context_data_prototype v_target_data_prototype).
(** AutosarParameterRef.__init__, element.py:6344-6354 *)
Definition init_AutosarParameterRef (kw : keyword_args) : result AutosarParameterRef :=
  let* _ := check_keywords ["autosar_parameter"; "local_parameter"] kw in
  let* v_autosar_parameter := optional (strict ParameterInAtomicSwcTypeInstanceRef_object) (kwarg "autosar_parameter" kw) in
  let* v_local_parameter := opt_ref rc_DataPrototypeRef (kwarg "local_parameter" kw) in
  Ok (mkAutosarParameterRef v_autosar_parameter v_local_parameter).
(** ArVariableInImplementationDataInstanceRef.append_context_data_protype_ref, element.py:5760-5767 *)
Definition append_ArVariableInImplementationDataInstanceRef_context_data_prototype_refs (x : ArVariableInImplementationDataInstanceRef) (a : arg) : result ArVariableInImplementationDataInstanceRef :=
  let* e := own_ref rc_AbstractImplementationDataTypeElementRef a in Ok (mkArVariableInImplementationDataInstanceRef (ArVariableInImplementationDataInstanceRef_port_prototype_ref x) (ArVariableInImplementationDataInstanceRef_root_variable_data_prototype_ref x) (ArVariableInImplementationDataInstanceRef_context_data_prototype_refs x ++ [e]) (ArVariableInImplementationDataInstanceRef_target_data_prototype_ref x)).
(** VariableInAtomicSWCTypeInstanceRef.append_context_data_protype_ref, element.py:5806-5813 *)
Definition append_VariableInAtomicSWCTypeInstanceRef_context_data_prototype_refs (x : VariableInAtomicSWCTypeInstanceRef) (a : arg) : result VariableInAtomicSWCTypeInstanceRef :=
  let* e := own_ref rc_ApplicationCompositeElementDataPrototypeRef a in Ok (mkVariableInAtomicSWCTypeInstanceRef (VariableInAtomicSWCTypeInstanceRef_port_prototype_ref x) (VariableInAtomicSWCTypeInstanceRef_root_variable_data_prototype_ref x) (VariableInAtomicSWCTypeInstanceRef_context_data_prototype_refs x ++ [e]) (VariableInAtomicSWCTypeInstanceRef_target_data_prototype_ref x)).

(** ** Parts of runnables *)
(** VariableAccess.__init__, element.py:5853-5866 *)
Definition init_VariableAccess (name : string) (kw : keyword_args) : result VariableAccess :=
  let* _ := check_keywords (["accessed_variable"; "scope"] ++ identifiable_keywords) kw in
  let* ident := new_identifiable name kw in
  let* v_accessed_variable := optional (strict AutosarVariableRef_object) (kwarg "accessed_variable" kw) in
  let* v_scope := optional (strict VariableAccessScope_object) (kwarg "scope" kw) in
  Ok (mkVariableAccess ident v_accessed_variable v_scope).
(** ExecutableEntityActivationReason.__init__, element.py:5947-5953, 1866-1871, 183-185 *)
Definition init_ExecutableEntityActivationReason (name : string) (kw : keyword_args) : result ExecutableEntityActivationReason :=
  let* _ := check_keywords ["bit_position"; "symbol"] kw in
  let* v_symbol := opt_text (kwarg "symbol" kw) in
  let* v_bit_position := opt_count (kwarg "bit_position" kw) in
  Ok (mkExecutableEntityActivationReason name v_symbol v_bit_position).
(** ExclusiveAreaRefConditional.__init__, element.py:5962-5965 *)
Definition init_ExclusiveAreaRefConditional (kw : keyword_args) : result ExclusiveAreaRefConditional :=
  let* _ := check_keywords ["exclusive_area"] kw in
  let* v_exclusive_area := opt_ref rc_ExclusiveAreaRef (kwarg "exclusive_area" kw) in
  Ok (mkExclusiveAreaRefConditional v_exclusive_area).
(** RunnableEntityArgument.__init__, element.py:6089-6093 *)
Definition init_RunnableEntityArgument (kw : keyword_args) : result RunnableEntityArgument :=
  let* _ := check_keywords ["symbol"] kw in
  let* v_symbol := opt_text_strict (kwarg "symbol" kw) in
  Ok (mkRunnableEntityArgument v_symbol).
(** AsynchronousServerCallPoint.__init__, element.py:6117-6130, 6101-6109 *)
Definition init_AsynchronousServerCallPoint (name : string) (kw : keyword_args) : result AsynchronousServerCallPoint :=
  let* _ := check_keywords (["operation"; "timeout"; "return_value_provision"] ++ identifiable_keywords) kw in
  let* ident := new_identifiable name kw in
  let* v_return_value_provision := optional (strict RteApiReturnValueProvision_object) (kwarg "return_value_provision" kw) in
  let* v_operation := optional (strict ROperationInAtomicSwcInstanceRef_object) (kwarg "operation" kw) in
  let* v_timeout := opt_float (kwarg "timeout" kw) in
  Ok (mkAsynchronousServerCallPoint ident v_return_value_provision v_operation v_timeout).
(** AsynchronousServerCallResultPoint.__init__, element.py:6155-6163, 6101-6109 *)
Definition init_AsynchronousServerCallResultPoint (name : string) (kw : keyword_args) : result AsynchronousServerCallResultPoint :=
  let* _ := check_keywords (["async_server_call_point"; "return_value_provision"] ++ identifiable_keywords) kw in
  let* ident := new_identifiable name kw in
  let* v_return_value_provision := optional (strict RteApiReturnValueProvision_object) (kwarg "return_value_provision" kw) in
  let* v_async_server_call_point := opt_ref rc_AsynchronousServerCallPointRef (kwarg "async_server_call_point" kw) in
  Ok (mkAsynchronousServerCallResultPoint ident v_return_value_provision v_async_server_call_point).
(** SynchronousServerCallPoint.__init__, element.py:6180-6190, 6117-6130, 6101-6109 *)
Definition init_SynchronousServerCallPoint (name : string) (kw : keyword_args) : result SynchronousServerCallPoint :=
  let* _ := check_keywords (["called_from_within_exclusive_area"; "operation"; "timeout"; "return_value_provision"] ++ identifiable_keywords) kw in
  let* ident := new_identifiable name kw in
  let* v_return_value_provision := optional (strict RteApiReturnValueProvision_object) (kwarg "return_value_provision" kw) in
  let* v_operation := optional (strict ROperationInAtomicSwcInstanceRef_object) (kwarg "operation" kw) in
  let* v_timeout := opt_float (kwarg "timeout" kw) in
  let* v_called_from_within_exclusive_area := opt_ref rc_ExclusiveAreaNestingOrderRef (kwarg "called_from_within_exclusive_area" kw) in
  Ok (mkSynchronousServerCallPoint ident v_return_value_provision v_operation v_timeout v_called_from_within_exclusive_area).
(** ExternalTriggeringPointIdent.__init__, element.py:6101-6109 *)
Definition init_ExternalTriggeringPointIdent (name : string) (kw : keyword_args) : result ExternalTriggeringPointIdent :=
  let* _ := check_keywords (["return_value_provision"] ++ identifiable_keywords) kw in
  let* ident := new_identifiable name kw in
  let* v_return_value_provision := optional (strict RteApiReturnValueProvision_object) (kwarg "return_value_provision" kw) in
  Ok (mkExternalTriggeringPointIdent ident v_return_value_provision).
(** ExternalTriggeringPoint.__init__, element.py:6207-6219 *)
Definition init_ExternalTriggeringPoint (kw : keyword_args) : result ExternalTriggeringPoint :=
  let* _ := check_keywords ["ident"; "trigger"] kw in
  let* v_ident := optional (strict ExternalTriggeringPointIdent_object) (kwarg "ident" kw) in
  let* v_trigger := optional (strict PTriggerInAtomicSwcTypeInstanceRef_object) (kwarg "trigger" kw) in
  Ok (mkExternalTriggeringPoint v_ident v_trigger).
(** InternalTriggeringPoint.__init__, element.py:6228-6235, 6101-6109 *)
Definition init_InternalTriggeringPoint (name : string) (kw : keyword_args) : result InternalTriggeringPoint :=
  let* _ := check_keywords (["sw_impl_policy"; "return_value_provision"] ++ identifiable_keywords) kw in
  let* ident := new_identifiable name kw in
  let* v_return_value_provision := optional (strict RteApiReturnValueProvision_object) (kwarg "return_value_provision" kw) in
  let* v_sw_impl_policy := optional (strict SwImplPolicy_object) (kwarg "sw_impl_policy" kw) in
  Ok (mkInternalTriggeringPoint ident v_return_value_provision v_sw_impl_policy).
(** ModeAccessPointIdent.__init__, element.py:6101-6109 *)
Definition init_ModeAccessPointIdent (name : string) (kw : keyword_args) : result ModeAccessPointIdent :=
  let* _ := check_keywords (["return_value_provision"] ++ identifiable_keywords) kw in
  let* ident := new_identifiable name kw in
  let* v_return_value_provision := optional (strict RteApiReturnValueProvision_object) (kwarg "return_value_provision" kw) in
  Ok (mkModeAccessPointIdent ident v_return_value_provision).
(** ModeAccessPoint.__init__, element.py:6261-6280 *)
Definition init_ModeAccessPoint (kw : keyword_args) : result ModeAccessPoint :=
  let* _ := check_keywords ["ident"; "mode_group"] kw in
  let* v_ident := optional (strict ModeAccessPointIdent_object) (kwarg "ident" kw) in
  let* v_mode_group := optional (strict ModeGroupInAtomicSwcInstanceRef_object) (kwarg "mode_group" kw) in
  Ok (mkModeAccessPoint v_ident v_mode_group).
(** ModeSwitchPoint.__init__, element.py:6289-6298, 6101-6109 *)
Definition init_ModeSwitchPoint (name : string) (kw : keyword_args) : result ModeSwitchPoint :=
  let* _ := check_keywords (["mode_group"; "return_value_provision"] ++ identifiable_keywords) kw in
  let* ident := new_identifiable name kw in
  let* v_return_value_provision := optional (strict RteApiReturnValueProvision_object) (kwarg "return_value_provision" kw) in
  let* v_mode_group := optional (strict PModeGroupInAtomicSwcInstanceRef_object) (kwarg "mode_group" kw) in
  Ok (mkModeSwitchPoint ident v_return_value_provision v_mode_group).
(** ParameterAccess.__init__, element.py:6363-6383, 6101-6109 *)
Definition init_ParameterAccess (name : string) (kw : keyword_args) : result ParameterAccess :=
  let* _ := check_keywords (["accessed_parameter"; "sw_data_def_props"; "return_value_provision"] ++ identifiable_keywords) kw in
  let* ident := new_identifiable name kw in
  let* v_return_value_provision := optional (strict RteApiReturnValueProvision_object) (kwarg "return_value_provision" kw) in
  let* v_accessed_parameter := optional (strict AutosarParameterRef_object) (kwarg "accessed_parameter" kw) in
  let* v_sw_data_def_props := optional props_of_arg (kwarg "sw_data_def_props" kw) in
  Ok (mkParameterAccess ident v_return_value_provision v_accessed_parameter v_sw_data_def_props).
(** WaitPoint.__init__, element.py:6392-6404 *)
Definition init_WaitPoint (name : string) (kw : keyword_args) : result WaitPoint :=
  let* _ := check_keywords (["trigger"; "timeout"] ++ identifiable_keywords) kw in
  let* ident := new_identifiable name kw in
  let* v_trigger := opt_ref rc_RteEventRef (kwarg "trigger" kw) in
  let* v_timeout := opt_float (kwarg "timeout" kw) in
  Ok (mkWaitPoint ident v_timeout v_trigger).
