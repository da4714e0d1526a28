(** References to objects themselves: the function ref() of every class that has one.
    Source: /repo/src/autosar/xml/element.py, xml/reference.py.  No proofs in this file. *)
From Verif Require Import Base MNum MXml MEnum MRefTab MRef MCodec MHeap.
Open Scope string_scope.

(** The classes with a function ref, element.py:1277-7956 *)
Inductive self_class :=
| Self_CompuMethod
| Self_DataConstraint
| Self_Unit
| Self_SwBaseType
| Self_ImplementationDataTypeElement
| Self_ImplementationDataType
| Self_VariableDataPrototype
| Self_ParameterDataPrototype
| Self_ArgumentDataPrototype
| Self_ApplicationPrimitiveDataType
| Self_ApplicationArrayElement
| Self_ApplicationArrayDataType
| Self_ApplicationRecordElement
| Self_ApplicationRecordDataType
| Self_DataTypeMappingSet
| Self_SwAddrMethod
| Self_ConstantSpecification
| Self_Package
| Self_ModeDeclaration
| Self_ModeDeclarationGroup
| Self_ModeDeclarationGroupPrototype
| Self_SenderReceiverInterface
| Self_NvDataInterface
| Self_ParameterInterface
| Self_ApplicationError
| Self_ClientServerOperation
| Self_ClientServerInterface
| Self_ModeSwitchInterface
| Self_E2EProfileCompatibilityProps
| Self_ProvidePortPrototype
| Self_RequirePortPrototype
| Self_PRPortPrototype
| Self_ApplicationSoftwareComponentType
| Self_SwComponentPrototype
| Self_CompositionSwComponentType
| Self_VariableAccess
| Self_SwcImplementation
| Self_AsynchronousServerCallPoint
| Self_AsynchronousServerCallResultPoint
| Self_ModeSwitchPoint
| Self_RunnableEntity
| Self_AsynchronousServerCallReturnsEvent
| Self_BackgroundEvent
| Self_DataReceiveErrorEvent
| Self_DataReceivedEvent
| Self_DataSendCompletedEvent
| Self_DataWriteCompletedEvent
| Self_ExternalTriggerOccurredEvent
| Self_InitEvent
| Self_InternalTriggerOccurredEvent
| Self_ModeSwitchedAckEvent
| Self_OperationInvokedEvent
| Self_SwcModeManagerErrorEvent
| Self_SwcModeSwitchEvent
| Self_TimingEvent
| Self_TransformerHardErrorEvent
| Self_ExclusiveArea
| Self_SwcInternalBehavior.
(** XxxRef(ref_str) or XxxRef(ref_str, <kind>) at the end of ref *)
Definition make_self_ref (c : self_class) (s : string) : result ref :=
  match c with
  | Self_CompuMethod => ref_default rc_CompuMethodRef s (* element.py:1277-1283 *)
  | Self_DataConstraint => ref_default rc_DataConstraintRef s (* element.py:1451-1457 *)
  | Self_Unit => ref_default rc_UnitRef s (* element.py:1552-1558 *)
  | Self_SwBaseType => ref_default rc_SwBaseTypeRef s (* element.py:1603-1609 *)
  | Self_ImplementationDataTypeElement => ref_new rc_AbstractImplementationDataTypeElementRef s (Some IdentifiableSubTypes_IMPLEMENTATION_DATA_TYPE_ELEMENT) (* element.py:1932-1941 *)
  | Self_ImplementationDataType => ref_default rc_ImplementationDataTypeRef s (* element.py:1988-1994 *)
  | Self_VariableDataPrototype => ref_default rc_VariableDataPrototypeRef s (* element.py:2054-2060 *)
  | Self_ParameterDataPrototype => ref_default rc_ParameterDataPrototypeRef s (* element.py:2087-2093 *)
  | Self_ArgumentDataPrototype => ref_default rc_ArgumentDataPrototypeRef s (* element.py:2115-2121 *)
  | Self_ApplicationPrimitiveDataType => ref_new rc_ApplicationDataTypeRef s (Some IdentifiableSubTypes_APPLICATION_PRIMITIVE_DATA_TYPE) (* element.py:2152-2160 *)
  | Self_ApplicationArrayElement => ref_default rc_ApplicationArrayElementRef s (* element.py:2200-2208 *)
  | Self_ApplicationArrayDataType => ref_new rc_ApplicationDataTypeRef s (Some IdentifiableSubTypes_APPLICATION_ARRAY_DATA_TYPE) (* element.py:2228-2236 *)
  | Self_ApplicationRecordElement => ref_default rc_ApplicationRecordElementRef s (* element.py:2253-2261 *)
  | Self_ApplicationRecordDataType => ref_new rc_ApplicationDataTypeRef s (Some IdentifiableSubTypes_APPLICATION_RECORD_DATA_TYPE) (* element.py:2298-2306 *)
  | Self_DataTypeMappingSet => ref_default rc_DataTypeMappingSetRef s (* element.py:2356-2364 *)
  | Self_SwAddrMethod => ref_default rc_SwAddrMethodRef s (* element.py:2408-2414 *)
  | Self_ConstantSpecification => ref_default rc_ConstantRef s (* element.py:2786-2792 *)
  | Self_Package => ref_default rc_PackageRef s (* element.py:2934-2941 *)
  | Self_ModeDeclaration => ref_default rc_ModeDeclarationRef s (* element.py:3125-3131 *)
  | Self_ModeDeclarationGroup => ref_default rc_ModeDeclarationGroupRef s (* element.py:3274-3280 *)
  | Self_ModeDeclarationGroupPrototype => ref_default rc_ModeDeclarationGroupPrototypeRef s (* element.py:3301-3307 *)
  | Self_SenderReceiverInterface => ref_new rc_PortInterfaceRef s (Some IdentifiableSubTypes_SENDER_RECEIVER_INTERFACE) (* element.py:3404-3412 *)
  | Self_NvDataInterface => ref_new rc_PortInterfaceRef s (Some IdentifiableSubTypes_NV_DATA_INTERFACE) (* element.py:3491-3499 *)
  | Self_ParameterInterface => ref_new rc_PortInterfaceRef s (Some IdentifiableSubTypes_PARAMETER_INTERFACE) (* element.py:3548-3556 *)
  | Self_ApplicationError => ref_default rc_ApplicationErrorRef s (* element.py:3597-3605 *)
  | Self_ClientServerOperation => ref_default rc_ClientServerOperationRef s (* element.py:3657-3665 *)
  | Self_ClientServerInterface => ref_new rc_PortInterfaceRef s (Some IdentifiableSubTypes_CLIENT_SERVER_INTERFACE) (* element.py:3786-3794 *)
  | Self_ModeSwitchInterface => ref_new rc_PortInterfaceRef s (Some IdentifiableSubTypes_MODE_SWITCH_INTERFACE) (* element.py:3865-3873 *)
  | Self_E2EProfileCompatibilityProps => ref_default rc_E2EProfileCompatibilityPropsRef s (* element.py:3909-3917 *)
  | Self_ProvidePortPrototype => ref_new rc_PortPrototypeRef s (Some IdentifiableSubTypes_P_PORT_PROTOTYPE) (* element.py:4724-4732 *)
  | Self_RequirePortPrototype => ref_new rc_PortPrototypeRef s (Some IdentifiableSubTypes_R_PORT_PROTOTYPE) (* element.py:4774-4782 *)
  | Self_PRPortPrototype => ref_new rc_PortPrototypeRef s (Some IdentifiableSubTypes_PR_PORT_PROTOTYPE) (* element.py:4830-4838 *)
  | Self_ApplicationSoftwareComponentType => ref_new rc_SwComponentTypeRef s (Some IdentifiableSubTypes_APPLICATION_SW_COMPONENT_TYPE) (* element.py:5193-5201 *)
  | Self_SwComponentPrototype => ref_default rc_SwComponentPrototypeRef s (* element.py:5218-5224 *)
  | Self_CompositionSwComponentType => ref_new rc_SwComponentTypeRef s (Some IdentifiableSubTypes_COMPOSITION_SW_COMPONENT_TYPE) (* element.py:5361-5369 *)
  | Self_VariableAccess => ref_default rc_VariableAccessRef s (* element.py:5900-5908 *)
  | Self_SwcImplementation => ref_default rc_SwcImplementationRef s (* element.py:5930-5938 *)
  | Self_AsynchronousServerCallPoint => ref_default rc_AsynchronousServerCallPointRef s (* element.py:6140-6146 *)
  | Self_AsynchronousServerCallResultPoint => ref_default rc_AsynchronousServerCallResultPointRef s (* element.py:6165-6171 *)
  | Self_ModeSwitchPoint => ref_default rc_ModeSwitchPointRef s (* element.py:6300-6306 *)
  | Self_RunnableEntity => ref_default rc_RunnableEntityRef s (* element.py:6607-6613 *)
  | Self_AsynchronousServerCallReturnsEvent => ref_new rc_RteEventRef s (Some IdentifiableSubTypes_ASYNCHRONOUS_SERVER_CALL_RETURNS_EVENT) (* element.py:7173-7181 *)
  | Self_BackgroundEvent => ref_new rc_RteEventRef s (Some IdentifiableSubTypes_BACKGROUND_EVENT) (* element.py:7191-7199 *)
  | Self_DataReceiveErrorEvent => ref_new rc_RteEventRef s (Some IdentifiableSubTypes_DATA_RECEIVE_ERROR_EVENT) (* element.py:7234-7242 *)
  | Self_DataReceivedEvent => ref_new rc_RteEventRef s (Some IdentifiableSubTypes_DATA_RECEIVED_EVENT) (* element.py:7277-7285 *)
  | Self_DataSendCompletedEvent => ref_new rc_RteEventRef s (Some IdentifiableSubTypes_DATA_SEND_COMPLETED_EVENT) (* element.py:7304-7312 *)
  | Self_DataWriteCompletedEvent => ref_new rc_RteEventRef s (Some IdentifiableSubTypes_DATA_WRITE_COMPLETED_EVENT) (* element.py:7331-7339 *)
  | Self_ExternalTriggerOccurredEvent => ref_new rc_RteEventRef s (Some IdentifiableSubTypes_EXTERNAL_TRIGGER_OCCURRED_EVENT) (* element.py:7371-7379 *)
  | Self_InitEvent => ref_new rc_RteEventRef s (Some IdentifiableSubTypes_INIT_EVENT) (* element.py:7389-7397 *)
  | Self_InternalTriggerOccurredEvent => ref_new rc_RteEventRef s (Some IdentifiableSubTypes_INTERNAL_TRIGGER_OCCURRED_EVENT) (* element.py:7416-7424 *)
  | Self_ModeSwitchedAckEvent => ref_new rc_RteEventRef s (Some IdentifiableSubTypes_MODE_SWITCHED_ACK_EVENT) (* element.py:7443-7451 *)
  | Self_OperationInvokedEvent => ref_new rc_RteEventRef s (Some IdentifiableSubTypes_OPERATION_INVOKED_EVENT) (* element.py:7486-7494 *)
  | Self_SwcModeManagerErrorEvent => ref_new rc_RteEventRef s (Some IdentifiableSubTypes_SWC_MODE_MANAGER_ERROR_EVENT) (* element.py:7531-7539 *)
  | Self_SwcModeSwitchEvent => ref_new rc_RteEventRef s (Some IdentifiableSubTypes_SWC_MODE_SWITCH_EVENT) (* element.py:7597-7605 *)
  | Self_TimingEvent => ref_new rc_RteEventRef s (Some IdentifiableSubTypes_TIMING_EVENT) (* element.py:7629-7637 *)
  | Self_TransformerHardErrorEvent => ref_new rc_RteEventRef s (Some IdentifiableSubTypes_TRANSFORMER_HARD_ERROR_EVENT) (* element.py:7665-7673 *)
  | Self_ExclusiveArea => ref_default rc_ExclusiveAreaRef s (* element.py:7798-7804 *)
  | Self_SwcInternalBehavior => ref_default rc_SwcInternalBehaviorRef s (* element.py:7950-7956 *)
  end.
(** ref: None when there is no reference string, element.py:1277-1283 and the lines above *)
Definition self_ref (c : self_class) (s : option string) : result (option ref) :=
  match s with None => Ok None | Some s => let* r := make_self_ref c s in Ok (Some r) end.
(** x.ref() of the object x, of class c: self._calc_ref_string(), element.py:268-280 *)
Definition object_ref (h : heap) (x : nat) (c : self_class) : result (option ref) :=
  let* s := calc_ref h x in self_ref c s.
