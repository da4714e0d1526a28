(** C58: references into components and parts of runnables hold what is given. *)
From Verif Require Import Base PBase MNum MXml MEnum MRefTab MRef MCodec MElem0 MElem1 MElemA MElemB MElemC MElem2 MElemD MElem3 MElem4 MElemE MElem5 MElemF MArxml MFind MValue MEvent MPort SPort PPort MAccess SAccess PAccess MRunnable SRunnable PRunnable MIface SIface PIface MData SFormat SData PData MConst SConst PConst MParts SParts PParts MPoint SPoint PPoint.
Open Scope list_scope.

(** POperationInAtomicSwcInstanceRef succeeds exactly for arguments that describe an object, and makes that one. *)
Theorem C58_POperationInAtomicSwcInstanceRef kw x : init_POperationInAtomicSwcInstanceRef kw = Ok x <-> describes_POperationInAtomicSwcInstanceRef kw x.
Proof. exact (init_POperationInAtomicSwcInstanceRef_iff kw x). Qed.
Example C58_POperationInAtomicSwcInstanceRef_example : describes_POperationInAtomicSwcInstanceRef [("context_port", AObj (ORef rc_AbstractProvidedPortPrototypeRef (mkRef "/p/r" IdentifiableSubTypes_ABSTRACT_PROVIDED_PORT_PROTOTYPE))); ("target_provided_operation", AObj (ORef rc_ClientServerOperationRef (mkRef "/p/r" IdentifiableSubTypes_CLIENT_SERVER_OPERATION)))]
  (mkPOperationInAtomicSwcInstanceRef (Some (mkRef "/p/r" IdentifiableSubTypes_ABSTRACT_PROVIDED_PORT_PROTOTYPE)) (Some (mkRef "/p/r" IdentifiableSubTypes_CLIENT_SERVER_OPERATION))).
Proof. apply C58_POperationInAtomicSwcInstanceRef. reflexivity. Qed.
(** PModeGroupInAtomicSwcInstanceRef succeeds exactly for arguments that describe an object, and makes that one. *)
Theorem C58_PModeGroupInAtomicSwcInstanceRef kw x : init_PModeGroupInAtomicSwcInstanceRef kw = Ok x <-> describes_PModeGroupInAtomicSwcInstanceRef kw x.
Proof. exact (init_PModeGroupInAtomicSwcInstanceRef_iff kw x). Qed.
Example C58_PModeGroupInAtomicSwcInstanceRef_example : describes_PModeGroupInAtomicSwcInstanceRef [("context_port", AObj (ORef rc_AbstractProvidedPortPrototypeRef (mkRef "/p/r" IdentifiableSubTypes_ABSTRACT_PROVIDED_PORT_PROTOTYPE))); ("target_mode_group", AObj (ORef rc_ModeDeclarationGroupPrototypeRef (mkRef "/p/r" IdentifiableSubTypes_MODE_DECLARATION_GROUP_PROTOTYPE)))]
  (mkPModeGroupInAtomicSwcInstanceRef (Some (mkRef "/p/r" IdentifiableSubTypes_ABSTRACT_PROVIDED_PORT_PROTOTYPE)) (Some (mkRef "/p/r" IdentifiableSubTypes_MODE_DECLARATION_GROUP_PROTOTYPE))).
Proof. apply C58_PModeGroupInAtomicSwcInstanceRef. reflexivity. Qed.
(** PTriggerInAtomicSwcTypeInstanceRef succeeds exactly for arguments that describe an object, and makes that one. *)
Theorem C58_PTriggerInAtomicSwcTypeInstanceRef kw x : init_PTriggerInAtomicSwcTypeInstanceRef kw = Ok x <-> describes_PTriggerInAtomicSwcTypeInstanceRef kw x.
Proof. exact (init_PTriggerInAtomicSwcTypeInstanceRef_iff kw x). Qed.
Example C58_PTriggerInAtomicSwcTypeInstanceRef_example : describes_PTriggerInAtomicSwcTypeInstanceRef [("context_port", AObj (ORef rc_AbstractProvidedPortPrototypeRef (mkRef "/p/r" IdentifiableSubTypes_ABSTRACT_PROVIDED_PORT_PROTOTYPE))); ("target_trigger", AObj (ORef rc_TriggerRef (mkRef "/p/r" IdentifiableSubTypes_TRIGGER)))]
  (mkPTriggerInAtomicSwcTypeInstanceRef (Some (mkRef "/p/r" IdentifiableSubTypes_ABSTRACT_PROVIDED_PORT_PROTOTYPE)) (Some (mkRef "/p/r" IdentifiableSubTypes_TRIGGER))).
Proof. apply C58_PTriggerInAtomicSwcTypeInstanceRef. reflexivity. Qed.
(** ROperationInAtomicSwcInstanceRef succeeds exactly for arguments that describe an object, and makes that one. *)
Theorem C58_ROperationInAtomicSwcInstanceRef kw x : init_ROperationInAtomicSwcInstanceRef kw = Ok x <-> describes_ROperationInAtomicSwcInstanceRef kw x.
Proof. exact (init_ROperationInAtomicSwcInstanceRef_iff kw x). Qed.
Example C58_ROperationInAtomicSwcInstanceRef_example : describes_ROperationInAtomicSwcInstanceRef [("context_port", AObj (ORef rc_AbstractRequiredPortPrototypeRef (mkRef "/p/r" IdentifiableSubTypes_ABSTRACT_REQUIRED_PORT_PROTOTYPE))); ("target_required_operation", AObj (ORef rc_ClientServerOperationRef (mkRef "/p/r" IdentifiableSubTypes_CLIENT_SERVER_OPERATION)))]
  (mkROperationInAtomicSwcInstanceRef (Some (mkRef "/p/r" IdentifiableSubTypes_ABSTRACT_REQUIRED_PORT_PROTOTYPE)) (Some (mkRef "/p/r" IdentifiableSubTypes_CLIENT_SERVER_OPERATION))).
Proof. apply C58_ROperationInAtomicSwcInstanceRef. reflexivity. Qed.
(** RModeInAtomicSwcInstanceRef succeeds exactly for arguments that describe an object, and makes that one. *)
Theorem C58_RModeInAtomicSwcInstanceRef kw x : init_RModeInAtomicSwcInstanceRef kw = Ok x <-> describes_RModeInAtomicSwcInstanceRef kw x.
Proof. exact (init_RModeInAtomicSwcInstanceRef_iff kw x). Qed.
Example C58_RModeInAtomicSwcInstanceRef_example : describes_RModeInAtomicSwcInstanceRef [("context_port", AObj (ORef rc_AbstractRequiredPortPrototypeRef (mkRef "/p/r" IdentifiableSubTypes_ABSTRACT_REQUIRED_PORT_PROTOTYPE))); ("context_mode_declaration_group_prototype", AObj (ORef rc_ModeDeclarationGroupPrototypeRef (mkRef "/p/r" IdentifiableSubTypes_MODE_DECLARATION_GROUP_PROTOTYPE))); ("target_mode_declaration", AObj (ORef rc_ModeDeclarationRef (mkRef "/p/r" IdentifiableSubTypes_MODE_DECLARATION)))]
  (mkRModeInAtomicSwcInstanceRef (Some (mkRef "/p/r" IdentifiableSubTypes_ABSTRACT_REQUIRED_PORT_PROTOTYPE)) (Some (mkRef "/p/r" IdentifiableSubTypes_MODE_DECLARATION_GROUP_PROTOTYPE)) (Some (mkRef "/p/r" IdentifiableSubTypes_MODE_DECLARATION))).
Proof. apply C58_RModeInAtomicSwcInstanceRef. reflexivity. Qed.
(** RModeGroupInAtomicSwcInstanceRef succeeds exactly for arguments that describe an object, and makes that one. *)
Theorem C58_RModeGroupInAtomicSwcInstanceRef kw x : init_RModeGroupInAtomicSwcInstanceRef kw = Ok x <-> describes_RModeGroupInAtomicSwcInstanceRef kw x.
Proof. exact (init_RModeGroupInAtomicSwcInstanceRef_iff kw x). Qed.
Example C58_RModeGroupInAtomicSwcInstanceRef_example : describes_RModeGroupInAtomicSwcInstanceRef [("context_port", AObj (ORef rc_AbstractRequiredPortPrototypeRef (mkRef "/p/r" IdentifiableSubTypes_ABSTRACT_REQUIRED_PORT_PROTOTYPE))); ("target_mode_group", AObj (ORef rc_ModeDeclarationGroupPrototypeRef (mkRef "/p/r" IdentifiableSubTypes_MODE_DECLARATION_GROUP_PROTOTYPE)))]
  (mkRModeGroupInAtomicSwcInstanceRef (Some (mkRef "/p/r" IdentifiableSubTypes_ABSTRACT_REQUIRED_PORT_PROTOTYPE)) (Some (mkRef "/p/r" IdentifiableSubTypes_MODE_DECLARATION_GROUP_PROTOTYPE))).
Proof. apply C58_RModeGroupInAtomicSwcInstanceRef. reflexivity. Qed.
(** RVariableInAtomicSwcInstanceRef succeeds exactly for arguments that describe an object, and makes that one. *)
Theorem C58_RVariableInAtomicSwcInstanceRef kw x : init_RVariableInAtomicSwcInstanceRef kw = Ok x <-> describes_RVariableInAtomicSwcInstanceRef kw x.
Proof. exact (init_RVariableInAtomicSwcInstanceRef_iff kw x). Qed.
Example C58_RVariableInAtomicSwcInstanceRef_example : describes_RVariableInAtomicSwcInstanceRef [("context_port", AObj (ORef rc_AbstractRequiredPortPrototypeRef (mkRef "/p/r" IdentifiableSubTypes_ABSTRACT_REQUIRED_PORT_PROTOTYPE))); ("target_data_element", AObj (ORef rc_VariableDataPrototypeRef (mkRef "/p/r" IdentifiableSubTypes_VARIABLE_DATA_PROTOTYPE)))]
  (mkRVariableInAtomicSwcInstanceRef (Some (mkRef "/p/r" IdentifiableSubTypes_ABSTRACT_REQUIRED_PORT_PROTOTYPE)) (Some (mkRef "/p/r" IdentifiableSubTypes_VARIABLE_DATA_PROTOTYPE))).
Proof. apply C58_RVariableInAtomicSwcInstanceRef. reflexivity. Qed.
(** RTriggerInAtomicSwcInstanceRef succeeds exactly for arguments that describe an object, and makes that one. *)
Theorem C58_RTriggerInAtomicSwcInstanceRef kw x : init_RTriggerInAtomicSwcInstanceRef kw = Ok x <-> describes_RTriggerInAtomicSwcInstanceRef kw x.
Proof. exact (init_RTriggerInAtomicSwcInstanceRef_iff kw x). Qed.
Example C58_RTriggerInAtomicSwcInstanceRef_example : describes_RTriggerInAtomicSwcInstanceRef [("context_port", AObj (ORef rc_AbstractRequiredPortPrototypeRef (mkRef "/p/r" IdentifiableSubTypes_ABSTRACT_REQUIRED_PORT_PROTOTYPE))); ("target_trigger", AObj (ORef rc_TriggerRef (mkRef "/p/r" IdentifiableSubTypes_TRIGGER)))]
  (mkRTriggerInAtomicSwcInstanceRef (Some (mkRef "/p/r" IdentifiableSubTypes_ABSTRACT_REQUIRED_PORT_PROTOTYPE)) (Some (mkRef "/p/r" IdentifiableSubTypes_TRIGGER))).
Proof. apply C58_RTriggerInAtomicSwcInstanceRef. reflexivity. Qed.
(** ArVariableInImplementationDataInstanceRef succeeds exactly for arguments that describe an object, and makes that one. *)
Theorem C58_ArVariableInImplementationDataInstanceRef kw x : init_ArVariableInImplementationDataInstanceRef kw = Ok x <-> describes_ArVariableInImplementationDataInstanceRef kw x.
Proof. exact (init_ArVariableInImplementationDataInstanceRef_iff kw x). Qed.
Example C58_ArVariableInImplementationDataInstanceRef_example : describes_ArVariableInImplementationDataInstanceRef [("port_prototype_ref", AObj (ORef rc_PortPrototypeRef (mkRef "/p/r" IdentifiableSubTypes_ABSTRACT_PROVIDED_PORT_PROTOTYPE))); ("root_variable_data_prototype_ref", AObj (ORef rc_VariableDataPrototypeRef (mkRef "/p/r" IdentifiableSubTypes_VARIABLE_DATA_PROTOTYPE))); ("context_data_prototype_refs", AList [AObj (ORef rc_AbstractImplementationDataTypeElementRef (mkRef "/p/r" IdentifiableSubTypes_ABSTRACT_IMPLEMENTATION_DATA_TYPE_ELEMENT)); AObj (ORef rc_AbstractImplementationDataTypeElementRef (mkRef "/p/r" IdentifiableSubTypes_ABSTRACT_IMPLEMENTATION_DATA_TYPE_ELEMENT))]); ("target_data_prototype_ref", AObj (ORef rc_AbstractImplementationDataTypeElementRef (mkRef "/p/r" IdentifiableSubTypes_ABSTRACT_IMPLEMENTATION_DATA_TYPE_ELEMENT)))]
  (mkArVariableInImplementationDataInstanceRef (Some (mkRef "/p/r" IdentifiableSubTypes_ABSTRACT_PROVIDED_PORT_PROTOTYPE)) (Some (mkRef "/p/r" IdentifiableSubTypes_VARIABLE_DATA_PROTOTYPE)) ([mkRef "/p/r" IdentifiableSubTypes_ABSTRACT_IMPLEMENTATION_DATA_TYPE_ELEMENT; mkRef "/p/r" IdentifiableSubTypes_ABSTRACT_IMPLEMENTATION_DATA_TYPE_ELEMENT]) (Some (mkRef "/p/r" IdentifiableSubTypes_ABSTRACT_IMPLEMENTATION_DATA_TYPE_ELEMENT))).
Proof. apply C58_ArVariableInImplementationDataInstanceRef. reflexivity. Qed.
(** VariableInAtomicSWCTypeInstanceRef succeeds exactly for arguments that describe an object, and makes that one. *)
Theorem C58_VariableInAtomicSWCTypeInstanceRef kw x : init_VariableInAtomicSWCTypeInstanceRef kw = Ok x <-> describes_VariableInAtomicSWCTypeInstanceRef kw x.
Proof. exact (init_VariableInAtomicSWCTypeInstanceRef_iff kw x). Qed.
Example C58_VariableInAtomicSWCTypeInstanceRef_example : describes_VariableInAtomicSWCTypeInstanceRef [("port_prototype_ref", AObj (ORef rc_PortPrototypeRef (mkRef "/p/r" IdentifiableSubTypes_ABSTRACT_PROVIDED_PORT_PROTOTYPE))); ("root_variable_data_prototype_ref", AObj (ORef rc_VariableDataPrototypeRef (mkRef "/p/r" IdentifiableSubTypes_VARIABLE_DATA_PROTOTYPE))); ("context_data_prototype_refs", AList [AObj (ORef rc_ApplicationCompositeElementDataPrototypeRef (mkRef "/p/r" IdentifiableSubTypes_APPLICATION_ARRAY_ELEMENT)); AObj (ORef rc_ApplicationCompositeElementDataPrototypeRef (mkRef "/p/r" IdentifiableSubTypes_APPLICATION_ARRAY_ELEMENT))]); ("target_data_prototype_ref", AObj (ORef rc_DataPrototypeRef (mkRef "/p/r" IdentifiableSubTypes_APPLICATION_ARRAY_ELEMENT)))]
  (mkVariableInAtomicSWCTypeInstanceRef (Some (mkRef "/p/r" IdentifiableSubTypes_ABSTRACT_PROVIDED_PORT_PROTOTYPE)) (Some (mkRef "/p/r" IdentifiableSubTypes_VARIABLE_DATA_PROTOTYPE)) ([mkRef "/p/r" IdentifiableSubTypes_APPLICATION_ARRAY_ELEMENT; mkRef "/p/r" IdentifiableSubTypes_APPLICATION_ARRAY_ELEMENT]) (Some (mkRef "/p/r" IdentifiableSubTypes_APPLICATION_ARRAY_ELEMENT))).
Proof. apply C58_VariableInAtomicSWCTypeInstanceRef. reflexivity. Qed.
(** AutosarVariableRef succeeds exactly for arguments that describe an object, and makes that one. *)
Theorem C58_AutosarVariableRef kw x : init_AutosarVariableRef kw = Ok x <-> describes_AutosarVariableRef kw x.
Proof. exact (init_AutosarVariableRef_iff kw x). Qed.
Example C58_AutosarVariableRef_example : describes_AutosarVariableRef [("ar_variable_in_impl_datatype", AObj (OArVariableInImplementationDataInstanceRef (mkArVariableInImplementationDataInstanceRef None None [] None))); ("ar_variable_iref", AObj (OVariableInAtomicSWCTypeInstanceRef (mkVariableInAtomicSWCTypeInstanceRef None None [] None))); ("local_variable_ref", AObj (ORef rc_VariableDataPrototypeRef (mkRef "/p/r" IdentifiableSubTypes_VARIABLE_DATA_PROTOTYPE)))]
  (mkAutosarVariableRef (Some (mkArVariableInImplementationDataInstanceRef None None [] None)) (Some (mkVariableInAtomicSWCTypeInstanceRef None None [] None)) (Some (mkRef "/p/r" IdentifiableSubTypes_VARIABLE_DATA_PROTOTYPE))).
Proof. apply C58_AutosarVariableRef. reflexivity. Qed.
(** ParameterInAtomicSwcTypeInstanceRef succeeds exactly for arguments that describe an object, and makes that one. *)
Theorem C58_ParameterInAtomicSwcTypeInstanceRef kw x : init_ParameterInAtomicSwcTypeInstanceRef kw = Ok x <-> describes_ParameterInAtomicSwcTypeInstanceRef kw x.
Proof. exact (init_ParameterInAtomicSwcTypeInstanceRef_iff kw x). Qed.
Example C58_ParameterInAtomicSwcTypeInstanceRef_example : describes_ParameterInAtomicSwcTypeInstanceRef [("port_prototype", AObj (ORef rc_PortPrototypeRef (mkRef "/p/r" IdentifiableSubTypes_ABSTRACT_PROVIDED_PORT_PROTOTYPE))); ("root_parameter_data_prototype", AObj (ORef rc_DataPrototypeRef (mkRef "/p/r" IdentifiableSubTypes_APPLICATION_ARRAY_ELEMENT))); ("context_data_prototype", AObj (ORef rc_ApplicationCompositeElementDataPrototypeRef (mkRef "/p/r" IdentifiableSubTypes_APPLICATION_ARRAY_ELEMENT))); ("target_data_prototype", AObj (ORef rc_DataPrototypeRef (mkRef "/p/r" IdentifiableSubTypes_APPLICATION_ARRAY_ELEMENT)))]
  (mkParameterInAtomicSwcTypeInstanceRef (Some (mkRef "/p/r" IdentifiableSubTypes_ABSTRACT_PROVIDED_PORT_PROTOTYPE)) (Some (mkRef "/p/r" IdentifiableSubTypes_APPLICATION_ARRAY_ELEMENT)) (Some (mkRef "/p/r" IdentifiableSubTypes_APPLICATION_ARRAY_ELEMENT)) (Some (mkRef "/p/r" IdentifiableSubTypes_APPLICATION_ARRAY_ELEMENT))).
Proof. apply C58_ParameterInAtomicSwcTypeInstanceRef. reflexivity. Qed.
(** AutosarParameterRef succeeds exactly for arguments that describe an object, and makes that one. *)
Theorem C58_AutosarParameterRef kw x : init_AutosarParameterRef kw = Ok x <-> describes_AutosarParameterRef kw x.
Proof. exact (init_AutosarParameterRef_iff kw x). Qed.
Example C58_AutosarParameterRef_example : describes_AutosarParameterRef [("autosar_parameter", AObj (OParameterInAtomicSwcTypeInstanceRef (mkParameterInAtomicSwcTypeInstanceRef None None None None))); ("local_parameter", AObj (ORef rc_DataPrototypeRef (mkRef "/p/r" IdentifiableSubTypes_APPLICATION_ARRAY_ELEMENT)))]
  (mkAutosarParameterRef (Some (mkParameterInAtomicSwcTypeInstanceRef None None None None)) (Some (mkRef "/p/r" IdentifiableSubTypes_APPLICATION_ARRAY_ELEMENT))).
Proof. apply C58_AutosarParameterRef. reflexivity. Qed.
(** VariableAccess succeeds exactly for arguments that describe an object, and makes that one. *)
Theorem C58_VariableAccess name kw x : init_VariableAccess name kw = Ok x <-> describes_VariableAccess name kw x.
Proof. exact (init_VariableAccess_iff name kw x). Qed.
Example C58_VariableAccess_example : describes_VariableAccess "N" [("accessed_variable", AObj (OAutosarVariableRef (mkAutosarVariableRef None None None))); ("scope", AObj (OVariableAccessScope VariableAccessScope_COMMUNICATION_INTER_ECU))]
  (mkVariableAccess (mkIdent "N" None None None None None None None) (Some (mkAutosarVariableRef None None None)) (Some VariableAccessScope_COMMUNICATION_INTER_ECU)).
Proof. apply C58_VariableAccess. reflexivity. Qed.
(** ExecutableEntityActivationReason succeeds exactly for arguments that describe an object, and makes that one. *)
Theorem C58_ExecutableEntityActivationReason name kw x : init_ExecutableEntityActivationReason name kw = Ok x <-> describes_ExecutableEntityActivationReason name kw x.
Proof. exact (init_ExecutableEntityActivationReason_iff name kw x). Qed.
Example C58_ExecutableEntityActivationReason_example : describes_ExecutableEntityActivationReason "N" [("symbol", ANum (NInt 5)); ("bit_position", ANum (NInt 3))]
  (mkExecutableEntityActivationReason "N" (Some "5") (Some 3%Z)).
Proof. apply C58_ExecutableEntityActivationReason. reflexivity. Qed.
(** ExclusiveAreaRefConditional succeeds exactly for arguments that describe an object, and makes that one. *)
Theorem C58_ExclusiveAreaRefConditional kw x : init_ExclusiveAreaRefConditional kw = Ok x <-> describes_ExclusiveAreaRefConditional kw x.
Proof. exact (init_ExclusiveAreaRefConditional_iff kw x). Qed.
Example C58_ExclusiveAreaRefConditional_example : describes_ExclusiveAreaRefConditional [("exclusive_area", AObj (ORef rc_ExclusiveAreaRef (mkRef "/p/r" IdentifiableSubTypes_EXCLUSIVE_AREA)))]
  (mkExclusiveAreaRefConditional (Some (mkRef "/p/r" IdentifiableSubTypes_EXCLUSIVE_AREA))).
Proof. apply C58_ExclusiveAreaRefConditional. reflexivity. Qed.
(** RunnableEntityArgument succeeds exactly for arguments that describe an object, and makes that one. *)
Theorem C58_RunnableEntityArgument kw x : init_RunnableEntityArgument kw = Ok x <-> describes_RunnableEntityArgument kw x.
Proof. exact (init_RunnableEntityArgument_iff kw x). Qed.
Example C58_RunnableEntityArgument_example : describes_RunnableEntityArgument [("symbol", AStr "text")]
  (mkRunnableEntityArgument (Some "text")).
Proof. apply C58_RunnableEntityArgument. reflexivity. Qed.
(** AsynchronousServerCallPoint succeeds exactly for arguments that describe an object, and makes that one. *)
Theorem C58_AsynchronousServerCallPoint name kw x : init_AsynchronousServerCallPoint name kw = Ok x <-> describes_AsynchronousServerCallPoint name kw x.
Proof. exact (init_AsynchronousServerCallPoint_iff name kw x). Qed.
Example C58_AsynchronousServerCallPoint_example : describes_AsynchronousServerCallPoint "N" [("return_value_provision", AObj (ORteApiReturnValueProvision RteApiReturnValueProvision_RETURN_VALUE_PROVIDED)); ("operation", AObj (OROperationInAtomicSwcInstanceRef (mkROperationInAtomicSwcInstanceRef None None))); ("timeout", ANum (NInt 2))]
  (mkAsynchronousServerCallPoint (mkIdent "N" None None None None None None None) (Some RteApiReturnValueProvision_RETURN_VALUE_PROVIDED) (Some (mkROperationInAtomicSwcInstanceRef None None)) (Some (NFloat (to_float (NInt 2))))).
Proof. apply C58_AsynchronousServerCallPoint. reflexivity. Qed.
(** AsynchronousServerCallResultPoint succeeds exactly for arguments that describe an object, and makes that one. *)
Theorem C58_AsynchronousServerCallResultPoint name kw x : init_AsynchronousServerCallResultPoint name kw = Ok x <-> describes_AsynchronousServerCallResultPoint name kw x.
Proof. exact (init_AsynchronousServerCallResultPoint_iff name kw x). Qed.
Example C58_AsynchronousServerCallResultPoint_example : describes_AsynchronousServerCallResultPoint "N" [("return_value_provision", AObj (ORteApiReturnValueProvision RteApiReturnValueProvision_RETURN_VALUE_PROVIDED)); ("async_server_call_point", AObj (ORef rc_AsynchronousServerCallPointRef (mkRef "/p/r" IdentifiableSubTypes_ASYNCHRONOUS_SERVER_CALL_POINT)))]
  (mkAsynchronousServerCallResultPoint (mkIdent "N" None None None None None None None) (Some RteApiReturnValueProvision_RETURN_VALUE_PROVIDED) (Some (mkRef "/p/r" IdentifiableSubTypes_ASYNCHRONOUS_SERVER_CALL_POINT))).
Proof. apply C58_AsynchronousServerCallResultPoint. reflexivity. Qed.
(** SynchronousServerCallPoint succeeds exactly for arguments that describe an object, and makes that one. *)
Theorem C58_SynchronousServerCallPoint name kw x : init_SynchronousServerCallPoint name kw = Ok x <-> describes_SynchronousServerCallPoint name kw x.
Proof. exact (init_SynchronousServerCallPoint_iff name kw x). Qed.
Example C58_SynchronousServerCallPoint_example : describes_SynchronousServerCallPoint "N" [("return_value_provision", AObj (ORteApiReturnValueProvision RteApiReturnValueProvision_RETURN_VALUE_PROVIDED)); ("operation", AObj (OROperationInAtomicSwcInstanceRef (mkROperationInAtomicSwcInstanceRef None None))); ("timeout", ANum (NInt 2)); ("called_from_within_exclusive_area", AObj (ORef rc_ExclusiveAreaNestingOrderRef (mkRef "/p/r" IdentifiableSubTypes_EXCLUSIVE_AREA_NESTING_ORDER)))]
  (mkSynchronousServerCallPoint (mkIdent "N" None None None None None None None) (Some RteApiReturnValueProvision_RETURN_VALUE_PROVIDED) (Some (mkROperationInAtomicSwcInstanceRef None None)) (Some (NFloat (to_float (NInt 2)))) (Some (mkRef "/p/r" IdentifiableSubTypes_EXCLUSIVE_AREA_NESTING_ORDER))).
Proof. apply C58_SynchronousServerCallPoint. reflexivity. Qed.
(** ExternalTriggeringPointIdent succeeds exactly for arguments that describe an object, and makes that one. *)
Theorem C58_ExternalTriggeringPointIdent name kw x : init_ExternalTriggeringPointIdent name kw = Ok x <-> describes_ExternalTriggeringPointIdent name kw x.
Proof. exact (init_ExternalTriggeringPointIdent_iff name kw x). Qed.
Example C58_ExternalTriggeringPointIdent_example : describes_ExternalTriggeringPointIdent "N" [("return_value_provision", AObj (ORteApiReturnValueProvision RteApiReturnValueProvision_RETURN_VALUE_PROVIDED))]
  (mkExternalTriggeringPointIdent (mkIdent "N" None None None None None None None) (Some RteApiReturnValueProvision_RETURN_VALUE_PROVIDED)).
Proof. apply C58_ExternalTriggeringPointIdent. reflexivity. Qed.
(** ExternalTriggeringPoint succeeds exactly for arguments that describe an object, and makes that one. *)
Theorem C58_ExternalTriggeringPoint kw x : init_ExternalTriggeringPoint kw = Ok x <-> describes_ExternalTriggeringPoint kw x.
Proof. exact (init_ExternalTriggeringPoint_iff kw x). Qed.
Example C58_ExternalTriggeringPoint_example : describes_ExternalTriggeringPoint [("ident", AObj (OExternalTriggeringPointIdent (mkExternalTriggeringPointIdent (mkIdent "N" None None None None None None None) None))); ("trigger", AObj (OPTriggerInAtomicSwcTypeInstanceRef (mkPTriggerInAtomicSwcTypeInstanceRef None None)))]
  (mkExternalTriggeringPoint (Some (mkExternalTriggeringPointIdent (mkIdent "N" None None None None None None None) None)) (Some (mkPTriggerInAtomicSwcTypeInstanceRef None None))).
Proof. apply C58_ExternalTriggeringPoint. reflexivity. Qed.
(** InternalTriggeringPoint succeeds exactly for arguments that describe an object, and makes that one. *)
Theorem C58_InternalTriggeringPoint name kw x : init_InternalTriggeringPoint name kw = Ok x <-> describes_InternalTriggeringPoint name kw x.
Proof. exact (init_InternalTriggeringPoint_iff name kw x). Qed.
Example C58_InternalTriggeringPoint_example : describes_InternalTriggeringPoint "N" [("return_value_provision", AObj (ORteApiReturnValueProvision RteApiReturnValueProvision_RETURN_VALUE_PROVIDED)); ("sw_impl_policy", AObj (OSwImplPolicy SwImplPolicy_CONST))]
  (mkInternalTriggeringPoint (mkIdent "N" None None None None None None None) (Some RteApiReturnValueProvision_RETURN_VALUE_PROVIDED) (Some SwImplPolicy_CONST)).
Proof. apply C58_InternalTriggeringPoint. reflexivity. Qed.
(** ModeAccessPointIdent succeeds exactly for arguments that describe an object, and makes that one. *)
Theorem C58_ModeAccessPointIdent name kw x : init_ModeAccessPointIdent name kw = Ok x <-> describes_ModeAccessPointIdent name kw x.
Proof. exact (init_ModeAccessPointIdent_iff name kw x). Qed.
Example C58_ModeAccessPointIdent_example : describes_ModeAccessPointIdent "N" [("return_value_provision", AObj (ORteApiReturnValueProvision RteApiReturnValueProvision_RETURN_VALUE_PROVIDED))]
  (mkModeAccessPointIdent (mkIdent "N" None None None None None None None) (Some RteApiReturnValueProvision_RETURN_VALUE_PROVIDED)).
Proof. apply C58_ModeAccessPointIdent. reflexivity. Qed.
(** ModeAccessPoint succeeds exactly for arguments that describe an object, and makes that one. *)
Theorem C58_ModeAccessPoint kw x : init_ModeAccessPoint kw = Ok x <-> describes_ModeAccessPoint kw x.
Proof. exact (init_ModeAccessPoint_iff kw x). Qed.
Example C58_ModeAccessPoint_example : describes_ModeAccessPoint [("ident", AObj (OModeAccessPointIdent (mkModeAccessPointIdent (mkIdent "N" None None None None None None None) None))); ("mode_group", AObj (OModeGroupInAtomicSwcInstanceRef (ModeGroup_P (mkPModeGroupInAtomicSwcInstanceRef None None))))]
  (mkModeAccessPoint (Some (mkModeAccessPointIdent (mkIdent "N" None None None None None None None) None)) (Some (ModeGroup_P (mkPModeGroupInAtomicSwcInstanceRef None None)))).
Proof. apply C58_ModeAccessPoint. reflexivity. Qed.
(** ModeSwitchPoint succeeds exactly for arguments that describe an object, and makes that one. *)
Theorem C58_ModeSwitchPoint name kw x : init_ModeSwitchPoint name kw = Ok x <-> describes_ModeSwitchPoint name kw x.
Proof. exact (init_ModeSwitchPoint_iff name kw x). Qed.
Example C58_ModeSwitchPoint_example : describes_ModeSwitchPoint "N" [("return_value_provision", AObj (ORteApiReturnValueProvision RteApiReturnValueProvision_RETURN_VALUE_PROVIDED)); ("mode_group", AObj (OModeGroupInAtomicSwcInstanceRef (ModeGroup_P (mkPModeGroupInAtomicSwcInstanceRef None None))))]
  (mkModeSwitchPoint (mkIdent "N" None None None None None None None) (Some RteApiReturnValueProvision_RETURN_VALUE_PROVIDED) (Some (mkPModeGroupInAtomicSwcInstanceRef None None))).
Proof. apply C58_ModeSwitchPoint. reflexivity. Qed.
(** ParameterAccess succeeds exactly for arguments that describe an object, and makes that one. *)
Theorem C58_ParameterAccess name kw x : init_ParameterAccess name kw = Ok x <-> describes_ParameterAccess name kw x.
Proof. exact (init_ParameterAccess_iff name kw x). Qed.
Example C58_ParameterAccess_example : describes_ParameterAccess "N" [("return_value_provision", AObj (ORteApiReturnValueProvision RteApiReturnValueProvision_RETURN_VALUE_PROVIDED)); ("accessed_parameter", AObj (OAutosarParameterRef (mkAutosarParameterRef None None))); ("sw_data_def_props", AObj (OSwDataDefProps (mkSwDataDefProps [])))]
  (mkParameterAccess (mkIdent "N" None None None None None None None) (Some RteApiReturnValueProvision_RETURN_VALUE_PROVIDED) (Some (mkAutosarParameterRef None None)) (Some (mkSwDataDefProps []))).
Proof. apply C58_ParameterAccess. reflexivity. Qed.
(** WaitPoint succeeds exactly for arguments that describe an object, and makes that one. *)
Theorem C58_WaitPoint name kw x : init_WaitPoint name kw = Ok x <-> describes_WaitPoint name kw x.
Proof. exact (init_WaitPoint_iff name kw x). Qed.
Example C58_WaitPoint_example : describes_WaitPoint "N" [("timeout", ANum (NInt 2)); ("trigger", AObj (ORef rc_RteEventRef (mkRef "/p/r" IdentifiableSubTypes_ASYNCHRONOUS_SERVER_CALL_RETURNS_EVENT)))]
  (mkWaitPoint (mkIdent "N" None None None None None None None) (Some (NFloat (to_float (NInt 2)))) (Some (mkRef "/p/r" IdentifiableSubTypes_ASYNCHRONOUS_SERVER_CALL_RETURNS_EVENT))).
Proof. apply C58_WaitPoint. reflexivity. Qed.
Theorem C58_ArVariableInImplementationDataInstanceRef_append_context_data_prototype_refs x a y : append_ArVariableInImplementationDataInstanceRef_context_data_prototype_refs x a = Ok y <-> one_more_ArVariableInImplementationDataInstanceRef_context_data_prototype_refs x a y.
Proof. exact (append_ArVariableInImplementationDataInstanceRef_context_data_prototype_refs_iff x a y). Qed.
Example C58_ArVariableInImplementationDataInstanceRef_append_context_data_prototype_refs_example : one_more_ArVariableInImplementationDataInstanceRef_context_data_prototype_refs (mkArVariableInImplementationDataInstanceRef None None [(mkRef "/p/r" IdentifiableSubTypes_ABSTRACT_IMPLEMENTATION_DATA_TYPE_ELEMENT)] None) (AObj (ORef rc_AbstractImplementationDataTypeElementRef (mkRef "/p/r" IdentifiableSubTypes_ABSTRACT_IMPLEMENTATION_DATA_TYPE_ELEMENT))) (mkArVariableInImplementationDataInstanceRef None None [(mkRef "/p/r" IdentifiableSubTypes_ABSTRACT_IMPLEMENTATION_DATA_TYPE_ELEMENT); (mkRef "/p/r" IdentifiableSubTypes_ABSTRACT_IMPLEMENTATION_DATA_TYPE_ELEMENT)] None).
Proof. apply C58_ArVariableInImplementationDataInstanceRef_append_context_data_prototype_refs. reflexivity. Qed.
Theorem C58_VariableInAtomicSWCTypeInstanceRef_append_context_data_prototype_refs x a y : append_VariableInAtomicSWCTypeInstanceRef_context_data_prototype_refs x a = Ok y <-> one_more_VariableInAtomicSWCTypeInstanceRef_context_data_prototype_refs x a y.
Proof. exact (append_VariableInAtomicSWCTypeInstanceRef_context_data_prototype_refs_iff x a y). Qed.
Example C58_VariableInAtomicSWCTypeInstanceRef_append_context_data_prototype_refs_example : one_more_VariableInAtomicSWCTypeInstanceRef_context_data_prototype_refs (mkVariableInAtomicSWCTypeInstanceRef None None [(mkRef "/p/r" IdentifiableSubTypes_APPLICATION_ARRAY_ELEMENT)] None) (AObj (ORef rc_ApplicationCompositeElementDataPrototypeRef (mkRef "/p/r" IdentifiableSubTypes_APPLICATION_ARRAY_ELEMENT))) (mkVariableInAtomicSWCTypeInstanceRef None None [(mkRef "/p/r" IdentifiableSubTypes_APPLICATION_ARRAY_ELEMENT); (mkRef "/p/r" IdentifiableSubTypes_APPLICATION_ARRAY_ELEMENT)] None).
Proof. apply C58_VariableInAtomicSWCTypeInstanceRef_append_context_data_prototype_refs. reflexivity. Qed.

(** References given in a tuple are ignored without an error. *)
Theorem C58_tuple_refuted l : init_ArVariableInImplementationDataInstanceRef [("context_data_prototype_refs", ATuple l)] = Ok (mkArVariableInImplementationDataInstanceRef None None [] None) /\
  init_VariableInAtomicSWCTypeInstanceRef [("context_data_prototype_refs", ATuple l)] = Ok (mkVariableInAtomicSWCTypeInstanceRef None None [] None).
Proof. split; reflexivity. Qed.

Print Assumptions C58_POperationInAtomicSwcInstanceRef.
Print Assumptions C58_PModeGroupInAtomicSwcInstanceRef.
Print Assumptions C58_PTriggerInAtomicSwcTypeInstanceRef.
Print Assumptions C58_ROperationInAtomicSwcInstanceRef.
Print Assumptions C58_RModeInAtomicSwcInstanceRef.
Print Assumptions C58_RModeGroupInAtomicSwcInstanceRef.
Print Assumptions C58_RVariableInAtomicSwcInstanceRef.
Print Assumptions C58_RTriggerInAtomicSwcInstanceRef.
Print Assumptions C58_ArVariableInImplementationDataInstanceRef.
Print Assumptions C58_VariableInAtomicSWCTypeInstanceRef.
Print Assumptions C58_AutosarVariableRef.
Print Assumptions C58_ParameterInAtomicSwcTypeInstanceRef.
Print Assumptions C58_AutosarParameterRef.
Print Assumptions C58_VariableAccess.
Print Assumptions C58_ExecutableEntityActivationReason.
Print Assumptions C58_ExclusiveAreaRefConditional.
Print Assumptions C58_RunnableEntityArgument.
Print Assumptions C58_AsynchronousServerCallPoint.
Print Assumptions C58_AsynchronousServerCallResultPoint.
Print Assumptions C58_SynchronousServerCallPoint.
Print Assumptions C58_ExternalTriggeringPointIdent.
Print Assumptions C58_ExternalTriggeringPoint.
Print Assumptions C58_InternalTriggeringPoint.
Print Assumptions C58_ModeAccessPointIdent.
Print Assumptions C58_ModeAccessPoint.
Print Assumptions C58_ModeSwitchPoint.
Print Assumptions C58_ParameterAccess.
Print Assumptions C58_WaitPoint.
Print Assumptions C58_ArVariableInImplementationDataInstanceRef_append_context_data_prototype_refs.
Print Assumptions C58_VariableInAtomicSWCTypeInstanceRef_append_context_data_prototype_refs.
Print Assumptions C58_tuple_refuted.
