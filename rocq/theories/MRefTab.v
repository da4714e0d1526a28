(** Reference classes.  Generated from /repo/src/autosar/xml/reference.py by tools/gen_enum.py.
    No proofs in this file. *)
From Verif Require Import Base MEnum.

(** How the reader method of a reference class treats the DEST attribute (reader.py:2300-2830): compare
    with a literal text, or convert it with xml_to_enum and pass it to the constructor. *)
Inductive dest_reader := DestText (s : string) | DestEnum | NoReader.

(** A reference class: name, default of the constructor argument dest, accepted_sub_types(), and
    its reader method.  (The writer methods, writer.py:1973-2478, all write the text of dest.) *)
Record ref_class := mkRefClass {
  rc_name : string; rc_default : option IdentifiableSubTypes; rc_accepted : list IdentifiableSubTypes;
  rc_reader : dest_reader }.

(** SwBaseTypeRef, reference.py:9-22, reader.py:2354 *)
Definition rc_SwBaseTypeRef : ref_class := mkRefClass "SwBaseTypeRef" (Some IdentifiableSubTypes_SW_BASE_TYPE)
  [IdentifiableSubTypes_SW_BASE_TYPE]
  (DestText "SW-BASE-TYPE").

(** PackageRef, reference.py:25-38, reader.py:0 *)
Definition rc_PackageRef : ref_class := mkRefClass "PackageRef" (Some IdentifiableSubTypes_AR_PACKAGE)
  [IdentifiableSubTypes_AR_PACKAGE]
  NoReader.

(** CompuMethodRef, reference.py:41-54, reader.py:2300 *)
Definition rc_CompuMethodRef : ref_class := mkRefClass "CompuMethodRef" (Some IdentifiableSubTypes_COMPU_METHOD)
  [IdentifiableSubTypes_COMPU_METHOD]
  (DestText "COMPU-METHOD").

(** FunctionPtrSignatureRef, reference.py:57-70, reader.py:2325 *)
Definition rc_FunctionPtrSignatureRef : ref_class := mkRefClass "FunctionPtrSignatureRef" (Some IdentifiableSubTypes_BSW_MODULE_ENTRY)
  [IdentifiableSubTypes_BSW_MODULE_ENTRY]
  (DestText "BSW-MODULE-ENTRY").

(** ImplementationDataTypeRef, reference.py:73-86, reader.py:2339 *)
Definition rc_ImplementationDataTypeRef : ref_class := mkRefClass "ImplementationDataTypeRef" (Some IdentifiableSubTypes_IMPLEMENTATION_DATA_TYPE)
  [IdentifiableSubTypes_IMPLEMENTATION_DATA_TYPE]
  (DestText "IMPLEMENTATION-DATA-TYPE").

(** SwAddrMethodRef, reference.py:89-102, reader.py:2368 *)
Definition rc_SwAddrMethodRef : ref_class := mkRefClass "SwAddrMethodRef" (Some IdentifiableSubTypes_SW_ADDR_METHOD)
  [IdentifiableSubTypes_SW_ADDR_METHOD]
  (DestText "SW-ADDR-METHOD").

(** DataConstraintRef, reference.py:105-118, reader.py:2311 *)
Definition rc_DataConstraintRef : ref_class := mkRefClass "DataConstraintRef" (Some IdentifiableSubTypes_DATA_CONSTR)
  [IdentifiableSubTypes_DATA_CONSTR]
  (DestText "DATA-CONSTR").

(** PhysicalDimensionRef, reference.py:121-134, reader.py:2392 *)
Definition rc_PhysicalDimensionRef : ref_class := mkRefClass "PhysicalDimensionRef" (Some IdentifiableSubTypes_PHYSICAL_DIMENSION)
  [IdentifiableSubTypes_PHYSICAL_DIMENSION]
  (DestText "PHYSICAL-DIMENSION").

(** UnitRef, reference.py:137-150, reader.py:2380 *)
Definition rc_UnitRef : ref_class := mkRefClass "UnitRef" (Some IdentifiableSubTypes_UNIT)
  [IdentifiableSubTypes_UNIT]
  (DestText "UNIT").

(** IndexDataTypeRef, reference.py:153-166, reader.py:2405 *)
Definition rc_IndexDataTypeRef : ref_class := mkRefClass "IndexDataTypeRef" (Some IdentifiableSubTypes_APPLICATION_PRIMITIVE_DATA_TYPE)
  [IdentifiableSubTypes_APPLICATION_PRIMITIVE_DATA_TYPE]
  (DestText "APPLICATION-PRIMITIVE-DATA-TYPE").

(** ApplicationDataTypeRef, reference.py:169-182, reader.py:2418 *)
Definition rc_ApplicationDataTypeRef : ref_class := mkRefClass "ApplicationDataTypeRef" None
  [IdentifiableSubTypes_APPLICATION_ARRAY_DATA_TYPE;
   IdentifiableSubTypes_APPLICATION_COMPOSITE_DATA_TYPE;
   IdentifiableSubTypes_APPLICATION_DATA_TYPE;
   IdentifiableSubTypes_APPLICATION_DEFERRED_DATA_TYPE;
   IdentifiableSubTypes_APPLICATION_PRIMITIVE_DATA_TYPE;
   IdentifiableSubTypes_APPLICATION_RECORD_DATA_TYPE]
  DestEnum.

(** ApplicationCompositeElementDataPrototypeRef, reference.py:185-196, reader.py:2601 *)
Definition rc_ApplicationCompositeElementDataPrototypeRef : ref_class := mkRefClass "ApplicationCompositeElementDataPrototypeRef" None
  [IdentifiableSubTypes_APPLICATION_ARRAY_ELEMENT;
   IdentifiableSubTypes_APPLICATION_COMPOSITE_ELEMENT_DATA_PROTOTYPE;
   IdentifiableSubTypes_APPLICATION_RECORD_ELEMENT]
  DestEnum.

(** AutosarDataTypeRef, reference.py:199-215, reader.py:2431 *)
Definition rc_AutosarDataTypeRef : ref_class := mkRefClass "AutosarDataTypeRef" None
  [IdentifiableSubTypes_ABSTRACT_IMPLEMENTATION_DATA_TYPE;
   IdentifiableSubTypes_APPLICATION_ARRAY_DATA_TYPE;
   IdentifiableSubTypes_APPLICATION_COMPOSITE_DATA_TYPE;
   IdentifiableSubTypes_APPLICATION_DATA_TYPE;
   IdentifiableSubTypes_APPLICATION_DEFERRED_DATA_TYPE;
   IdentifiableSubTypes_APPLICATION_PRIMITIVE_DATA_TYPE;
   IdentifiableSubTypes_APPLICATION_RECORD_DATA_TYPE;
   IdentifiableSubTypes_AUTOSAR_DATA_TYPE;
   IdentifiableSubTypes_IMPLEMENTATION_DATA_TYPE]
  DestEnum.

(** ConstantRef, reference.py:218-231, reader.py:2444 *)
Definition rc_ConstantRef : ref_class := mkRefClass "ConstantRef" (Some IdentifiableSubTypes_CONSTANT_SPECIFICATION)
  [IdentifiableSubTypes_CONSTANT_SPECIFICATION]
  (DestText "CONSTANT-SPECIFICATION").

(** VariableDataPrototypeRef, reference.py:234-246, reader.py:2459 *)
Definition rc_VariableDataPrototypeRef : ref_class := mkRefClass "VariableDataPrototypeRef" (Some IdentifiableSubTypes_VARIABLE_DATA_PROTOTYPE)
  [IdentifiableSubTypes_VARIABLE_DATA_PROTOTYPE]
  (DestText "VARIABLE-DATA-PROTOTYPE").

(** ParameterDataPrototypeRef, reference.py:249-261, reader.py:2473 *)
Definition rc_ParameterDataPrototypeRef : ref_class := mkRefClass "ParameterDataPrototypeRef" (Some IdentifiableSubTypes_PARAMETER_DATA_PROTOTYPE)
  [IdentifiableSubTypes_PARAMETER_DATA_PROTOTYPE]
  (DestText "PARAMETER-DATA-PROTOTYPE").

(** ApplicationErrorRef, reference.py:264-277, reader.py:2487 *)
Definition rc_ApplicationErrorRef : ref_class := mkRefClass "ApplicationErrorRef" (Some IdentifiableSubTypes_APPLICATION_ERROR)
  [IdentifiableSubTypes_APPLICATION_ERROR]
  (DestText "APPLICATION-ERROR").

(** ModeDeclarationRef, reference.py:280-297, reader.py:2501 *)
Definition rc_ModeDeclarationRef : ref_class := mkRefClass "ModeDeclarationRef" (Some IdentifiableSubTypes_MODE_DECLARATION)
  [IdentifiableSubTypes_MODE_DECLARATION]
  (DestText "MODE-DECLARATION").

(** ModeDeclarationGroupRef, reference.py:300-313, reader.py:2515 *)
Definition rc_ModeDeclarationGroupRef : ref_class := mkRefClass "ModeDeclarationGroupRef" (Some IdentifiableSubTypes_MODE_DECLARATION_GROUP)
  [IdentifiableSubTypes_MODE_DECLARATION_GROUP]
  (DestText "MODE-DECLARATION-GROUP").

(** ModeDeclarationGroupPrototypeRef, reference.py:316-332, reader.py:2529 *)
Definition rc_ModeDeclarationGroupPrototypeRef : ref_class := mkRefClass "ModeDeclarationGroupPrototypeRef" (Some IdentifiableSubTypes_MODE_DECLARATION_GROUP_PROTOTYPE)
  [IdentifiableSubTypes_MODE_DECLARATION_GROUP_PROTOTYPE]
  (DestText "MODE-DECLARATION-GROUP-PROTOTYPE").

(** AutosarDataPrototypeRef, reference.py:335-345, reader.py:2542 *)
Definition rc_AutosarDataPrototypeRef : ref_class := mkRefClass "AutosarDataPrototypeRef" None
  [IdentifiableSubTypes_ARGUMENT_DATA_PROTOTYPE;
   IdentifiableSubTypes_PARAMETER_DATA_PROTOTYPE;
   IdentifiableSubTypes_VARIABLE_DATA_PROTOTYPE]
  DestEnum.

(** E2EProfileCompatibilityPropsRef, reference.py:348-361, reader.py:2553 *)
Definition rc_E2EProfileCompatibilityPropsRef : ref_class := mkRefClass "E2EProfileCompatibilityPropsRef" (Some IdentifiableSubTypes_E2E_PROFILE_COMPATIBILITY_PROPS)
  [IdentifiableSubTypes_E2E_PROFILE_COMPATIBILITY_PROPS]
  (DestText "E-2-E-PROFILE-COMPATIBILITY-PROPS").

(** ClientServerOperationRef, reference.py:364-377, reader.py:2566 *)
Definition rc_ClientServerOperationRef : ref_class := mkRefClass "ClientServerOperationRef" (Some IdentifiableSubTypes_CLIENT_SERVER_OPERATION)
  [IdentifiableSubTypes_CLIENT_SERVER_OPERATION]
  (DestText "CLIENT-SERVER-OPERATION").

(** PortPrototypeRef, reference.py:380-413, reader.py:2579 *)
Definition rc_PortPrototypeRef : ref_class := mkRefClass "PortPrototypeRef" None
  [IdentifiableSubTypes_ABSTRACT_PROVIDED_PORT_PROTOTYPE;
   IdentifiableSubTypes_ABSTRACT_REQUIRED_PORT_PROTOTYPE;
   IdentifiableSubTypes_P_PORT_PROTOTYPE;
   IdentifiableSubTypes_PR_PORT_PROTOTYPE;
   IdentifiableSubTypes_R_PORT_PROTOTYPE]
  DestEnum.

(** AbstractImplementationDataTypeElementRef, reference.py:416-425, reader.py:2590 *)
Definition rc_AbstractImplementationDataTypeElementRef : ref_class := mkRefClass "AbstractImplementationDataTypeElementRef" None
  [IdentifiableSubTypes_ABSTRACT_IMPLEMENTATION_DATA_TYPE_ELEMENT;
   IdentifiableSubTypes_IMPLEMENTATION_DATA_TYPE_ELEMENT]
  DestEnum.

(** DataPrototypeRef, reference.py:428-444, reader.py:2612 *)
Definition rc_DataPrototypeRef : ref_class := mkRefClass "DataPrototypeRef" None
  [IdentifiableSubTypes_APPLICATION_ARRAY_ELEMENT;
   IdentifiableSubTypes_APPLICATION_COMPOSITE_ELEMENT_DATA_PROTOTYPE;
   IdentifiableSubTypes_APPLICATION_RECORD_ELEMENT;
   IdentifiableSubTypes_ARGUMENT_DATA_PROTOTYPE;
   IdentifiableSubTypes_AUTOSAR_DATA_PROTOTYPE;
   IdentifiableSubTypes_DATA_PROTOTYPE;
   IdentifiableSubTypes_PARAMETER_DATA_PROTOTYPE;
   IdentifiableSubTypes_VARIABLE_DATA_PROTOTYPE]
  DestEnum.

(** PortInterfaceRef, reference.py:447-462, reader.py:2623 *)
Definition rc_PortInterfaceRef : ref_class := mkRefClass "PortInterfaceRef" None
  [IdentifiableSubTypes_CLIENT_SERVER_INTERFACE;
   IdentifiableSubTypes_MODE_SWITCH_INTERFACE;
   IdentifiableSubTypes_NV_DATA_INTERFACE;
   IdentifiableSubTypes_PARAMETER_INTERFACE;
   IdentifiableSubTypes_SENDER_RECEIVER_INTERFACE]
  DestEnum.

(** SwComponentTypeRef, reference.py:465-477, reader.py:2634 *)
Definition rc_SwComponentTypeRef : ref_class := mkRefClass "SwComponentTypeRef" None
  [IdentifiableSubTypes_APPLICATION_SW_COMPONENT_TYPE;
   IdentifiableSubTypes_COMPOSITION_SW_COMPONENT_TYPE]
  DestEnum.

(** SwComponentPrototypeRef, reference.py:480-493, reader.py:2645 *)
Definition rc_SwComponentPrototypeRef : ref_class := mkRefClass "SwComponentPrototypeRef" (Some IdentifiableSubTypes_SW_COMPONENT_PROTOTYPE)
  [IdentifiableSubTypes_SW_COMPONENT_PROTOTYPE]
  (DestText "SW-COMPONENT-PROTOTYPE").

(** SwcInternalBehaviorRef, reference.py:496-509, reader.py:2658 *)
Definition rc_SwcInternalBehaviorRef : ref_class := mkRefClass "SwcInternalBehaviorRef" (Some IdentifiableSubTypes_SWC_INTERNAL_BEHAVIOR)
  [IdentifiableSubTypes_SWC_INTERNAL_BEHAVIOR]
  (DestText "SWC-INTERNAL-BEHAVIOR").

(** SwcImplementationRef, reference.py:512-525, reader.py:0 *)
Definition rc_SwcImplementationRef : ref_class := mkRefClass "SwcImplementationRef" (Some IdentifiableSubTypes_SWC_IMPLEMENTATION)
  [IdentifiableSubTypes_SWC_IMPLEMENTATION]
  NoReader.

(** ExclusiveAreaRef, reference.py:528-541, reader.py:2671 *)
Definition rc_ExclusiveAreaRef : ref_class := mkRefClass "ExclusiveAreaRef" (Some IdentifiableSubTypes_EXCLUSIVE_AREA)
  [IdentifiableSubTypes_EXCLUSIVE_AREA]
  DestEnum.

(** ExclusiveAreaNestingOrderRef, reference.py:544-557, reader.py:2682 *)
Definition rc_ExclusiveAreaNestingOrderRef : ref_class := mkRefClass "ExclusiveAreaNestingOrderRef" (Some IdentifiableSubTypes_EXCLUSIVE_AREA_NESTING_ORDER)
  [IdentifiableSubTypes_EXCLUSIVE_AREA_NESTING_ORDER]
  DestEnum.

(** AbstractRequiredPortPrototypeRef, reference.py:560-570, reader.py:2693 *)
Definition rc_AbstractRequiredPortPrototypeRef : ref_class := mkRefClass "AbstractRequiredPortPrototypeRef" None
  [IdentifiableSubTypes_ABSTRACT_REQUIRED_PORT_PROTOTYPE;
   IdentifiableSubTypes_PR_PORT_PROTOTYPE;
   IdentifiableSubTypes_R_PORT_PROTOTYPE]
  DestEnum.

(** AbstractProvidedPortPrototypeRef, reference.py:573-583, reader.py:2702 *)
Definition rc_AbstractProvidedPortPrototypeRef : ref_class := mkRefClass "AbstractProvidedPortPrototypeRef" None
  [IdentifiableSubTypes_ABSTRACT_PROVIDED_PORT_PROTOTYPE;
   IdentifiableSubTypes_P_PORT_PROTOTYPE;
   IdentifiableSubTypes_PR_PORT_PROTOTYPE]
  DestEnum.

(** RunnableEntityRef, reference.py:586-599, reader.py:2711 *)
Definition rc_RunnableEntityRef : ref_class := mkRefClass "RunnableEntityRef" (Some IdentifiableSubTypes_RUNNABLE_ENTITY)
  [IdentifiableSubTypes_RUNNABLE_ENTITY]
  DestEnum.

(** VariableAccessRef, reference.py:602-615, reader.py:2720 *)
Definition rc_VariableAccessRef : ref_class := mkRefClass "VariableAccessRef" (Some IdentifiableSubTypes_VARIABLE_ACCESS)
  [IdentifiableSubTypes_VARIABLE_ACCESS]
  DestEnum.

(** ModeSwitchPointRef, reference.py:618-631, reader.py:2730 *)
Definition rc_ModeSwitchPointRef : ref_class := mkRefClass "ModeSwitchPointRef" (Some IdentifiableSubTypes_MODE_SWITCH_POINT)
  [IdentifiableSubTypes_MODE_SWITCH_POINT]
  DestEnum.

(** AsynchronousServerCallPointRef, reference.py:634-647, reader.py:2740 *)
Definition rc_AsynchronousServerCallPointRef : ref_class := mkRefClass "AsynchronousServerCallPointRef" (Some IdentifiableSubTypes_ASYNCHRONOUS_SERVER_CALL_POINT)
  [IdentifiableSubTypes_ASYNCHRONOUS_SERVER_CALL_POINT]
  DestEnum.

(** AsynchronousServerCallResultPointRef, reference.py:650-663, reader.py:2750 *)
Definition rc_AsynchronousServerCallResultPointRef : ref_class := mkRefClass "AsynchronousServerCallResultPointRef" (Some IdentifiableSubTypes_ASYNCHRONOUS_SERVER_CALL_RESULT_POINT)
  [IdentifiableSubTypes_ASYNCHRONOUS_SERVER_CALL_RESULT_POINT]
  DestEnum.

(** TriggerRef, reference.py:666-679, reader.py:2760 *)
Definition rc_TriggerRef : ref_class := mkRefClass "TriggerRef" (Some IdentifiableSubTypes_TRIGGER)
  [IdentifiableSubTypes_TRIGGER]
  DestEnum.

(** InternalTriggeringPointRef, reference.py:682-695, reader.py:2772 *)
Definition rc_InternalTriggeringPointRef : ref_class := mkRefClass "InternalTriggeringPointRef" (Some IdentifiableSubTypes_INTERNAL_TRIGGERING_POINT)
  [IdentifiableSubTypes_INTERNAL_TRIGGERING_POINT]
  DestEnum.

(** RteEventRef, reference.py:698-721, reader.py:2782 *)
Definition rc_RteEventRef : ref_class := mkRefClass "RteEventRef" None
  [IdentifiableSubTypes_ASYNCHRONOUS_SERVER_CALL_RETURNS_EVENT;
   IdentifiableSubTypes_BACKGROUND_EVENT;
   IdentifiableSubTypes_DATA_RECEIVE_ERROR_EVENT;
   IdentifiableSubTypes_DATA_RECEIVED_EVENT;
   IdentifiableSubTypes_DATA_SEND_COMPLETED_EVENT;
   IdentifiableSubTypes_DATA_WRITE_COMPLETED_EVENT;
   IdentifiableSubTypes_EXTERNAL_TRIGGER_OCCURRED_EVENT;
   IdentifiableSubTypes_INIT_EVENT;
   IdentifiableSubTypes_INTERNAL_TRIGGER_OCCURRED_EVENT;
   IdentifiableSubTypes_MODE_SWITCHED_ACK_EVENT;
   IdentifiableSubTypes_OPERATION_INVOKED_EVENT;
   IdentifiableSubTypes_SWC_MODE_MANAGER_ERROR_EVENT;
   IdentifiableSubTypes_SWC_MODE_SWITCH_EVENT;
   IdentifiableSubTypes_TIMING_EVENT;
   IdentifiableSubTypes_TRANSFORMER_HARD_ERROR_EVENT]
  DestEnum.

(** DataTypeMappingSetRef, reference.py:724-737, reader.py:2792 *)
Definition rc_DataTypeMappingSetRef : ref_class := mkRefClass "DataTypeMappingSetRef" (Some IdentifiableSubTypes_DATA_TYPE_MAPPING_SET)
  [IdentifiableSubTypes_DATA_TYPE_MAPPING_SET]
  DestEnum.

(** ArgumentDataPrototypeRef, reference.py:740-753, reader.py:2802 *)
Definition rc_ArgumentDataPrototypeRef : ref_class := mkRefClass "ArgumentDataPrototypeRef" (Some IdentifiableSubTypes_ARGUMENT_DATA_PROTOTYPE)
  [IdentifiableSubTypes_ARGUMENT_DATA_PROTOTYPE]
  DestEnum.

(** ApplicationArrayElementRef, reference.py:756-769, reader.py:2812 *)
Definition rc_ApplicationArrayElementRef : ref_class := mkRefClass "ApplicationArrayElementRef" (Some IdentifiableSubTypes_APPLICATION_ARRAY_ELEMENT)
  [IdentifiableSubTypes_APPLICATION_ARRAY_ELEMENT]
  DestEnum.

(** ApplicationRecordElementRef, reference.py:772-785, reader.py:2822 *)
Definition rc_ApplicationRecordElementRef : ref_class := mkRefClass "ApplicationRecordElementRef" (Some IdentifiableSubTypes_APPLICATION_RECORD_ELEMENT)
  [IdentifiableSubTypes_APPLICATION_RECORD_ELEMENT]
  DestEnum.

(** All of them. *)
Definition all_ref_classes : list ref_class := [
  rc_SwBaseTypeRef;
  rc_PackageRef;
  rc_CompuMethodRef;
  rc_FunctionPtrSignatureRef;
  rc_ImplementationDataTypeRef;
  rc_SwAddrMethodRef;
  rc_DataConstraintRef;
  rc_PhysicalDimensionRef;
  rc_UnitRef;
  rc_IndexDataTypeRef;
  rc_ApplicationDataTypeRef;
  rc_ApplicationCompositeElementDataPrototypeRef;
  rc_AutosarDataTypeRef;
  rc_ConstantRef;
  rc_VariableDataPrototypeRef;
  rc_ParameterDataPrototypeRef;
  rc_ApplicationErrorRef;
  rc_ModeDeclarationRef;
  rc_ModeDeclarationGroupRef;
  rc_ModeDeclarationGroupPrototypeRef;
  rc_AutosarDataPrototypeRef;
  rc_E2EProfileCompatibilityPropsRef;
  rc_ClientServerOperationRef;
  rc_PortPrototypeRef;
  rc_AbstractImplementationDataTypeElementRef;
  rc_DataPrototypeRef;
  rc_PortInterfaceRef;
  rc_SwComponentTypeRef;
  rc_SwComponentPrototypeRef;
  rc_SwcInternalBehaviorRef;
  rc_SwcImplementationRef;
  rc_ExclusiveAreaRef;
  rc_ExclusiveAreaNestingOrderRef;
  rc_AbstractRequiredPortPrototypeRef;
  rc_AbstractProvidedPortPrototypeRef;
  rc_RunnableEntityRef;
  rc_VariableAccessRef;
  rc_ModeSwitchPointRef;
  rc_AsynchronousServerCallPointRef;
  rc_AsynchronousServerCallResultPointRef;
  rc_TriggerRef;
  rc_InternalTriggeringPointRef;
  rc_RteEventRef;
  rc_DataTypeMappingSetRef;
  rc_ArgumentDataPrototypeRef;
  rc_ApplicationArrayElementRef;
  rc_ApplicationRecordElementRef].
