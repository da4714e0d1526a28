(** What is said about writing and reading single elements.  No proofs in this file. *)
From Verif Require Import Base MNum MXml MNs MEnum MRefTab MRef MCodec MStr MElem0 MElemA MElemB MElemC MElemD MElem1 MElem2 MElem3 MElem4 MElem5 MElemE MElemF MArxml MDispatch.
From Verif Require Import SNum SXml SEnum SCodec SElem1 SElemA SElemB SElemC SElem2 SElemD SElem3 SElem4 SElemE SElem5 SElemF SArxml.

(** The element an object is written as.  Objects of some classes appear in documents as elements of
    different names; write_str_elem takes the name of the element for them. *)
Inductive element_is := Always (name : string) | As_given.
(** ... of value specifications *)
Definition value_tag (e : ValueSpecificationElement) : string :=
  match e with
  | TextValueSpecification _ _ => "TEXT-VALUE-SPECIFICATION"
  | NumericalValueSpecification _ _ => "NUMERICAL-VALUE-SPECIFICATION"
  | NotAvailableValueSpecification _ _ => "NOT-AVAILABLE-VALUE-SPECIFICATION"
  | ArrayValueSpecification _ _ => "ARRAY-VALUE-SPECIFICATION"
  | RecordValueSpecification _ _ => "RECORD-VALUE-SPECIFICATION"
  | ApplicationValueSpecification _ _ _ _ => "APPLICATION-VALUE-SPECIFICATION"
  | ConstantReference _ _ => "CONSTANT-REFERENCE"
  end.
(** ... of inline elements of a text *)
Definition inline_tag (i : inline_elem) : string :=
  match i with
  | IBreak => "BR"
  | IEmphasis _ _ _ _ => "E"
  | IIndexEntry _ => "IE"
  | ISubscript _ => "SUB"
  | ISuperscript _ => "SUP"
  | ITechnicalTerm _ _ _ => "TT"
  end.
(** ... of objects *)
Definition element_of (o : any_object) : element_is :=
  match o with
  | An_CompuMethod _ => Always "COMPU-METHOD"
  | An_DataFilter _ => As_given
  | An_AutosarEngineeringObject _ => As_given
  | An_Code _ => Always "CODE"
  | An_ApplicationArrayDataType _ => Always "APPLICATION-ARRAY-DATA-TYPE"
  | An_ApplicationRecordDataType _ => Always "APPLICATION-RECORD-DATA-TYPE"
  | An_ApplicationPrimitiveDataType _ => Always "APPLICATION-PRIMITIVE-DATA-TYPE"
  | An_SwBaseType _ => Always "SW-BASE-TYPE"
  | An_SwAddrMethod _ => Always "SW-ADDR-METHOD"
  | An_ImplementationDataType _ => Always "IMPLEMENTATION-DATA-TYPE"
  | An_DataTypeMappingSet _ => Always "DATA-TYPE-MAPPING-SET"
  | An_DataConstraint _ => Always "DATA-CONSTR"
  | An_Unit _ => Always "UNIT"
  | An_ConstantSpecification _ => Always "CONSTANT-SPECIFICATION"
  | An_NvDataInterface _ => Always "NV-DATA-INTERFACE"
  | An_ParameterInterface _ => Always "PARAMETER-INTERFACE"
  | An_SenderReceiverInterface _ => Always "SENDER-RECEIVER-INTERFACE"
  | An_ClientServerInterface _ => Always "CLIENT-SERVER-INTERFACE"
  | An_ModeSwitchInterface _ => Always "MODE-SWITCH-INTERFACE"
  | An_ModeDeclarationGroup _ => Always "MODE-DECLARATION-GROUP"
  | An_E2EProfileCompatibilityProps _ => Always "E-2-E-PROFILE-COMPATIBILITY-PROPS"
  | An_ApplicationSoftwareComponentType _ => Always "APPLICATION-SW-COMPONENT-TYPE"
  | An_CompositionSwComponentType _ => Always "COMPOSITION-SW-COMPONENT-TYPE"
  | An_SwcImplementation _ => Always "SWC-IMPLEMENTATION"
  | An_ModeSwitchSenderComSpec _ => Always "MODE-SWITCH-SENDER-COM-SPEC"
  | An_QueuedSenderComSpec _ => Always "QUEUED-SENDER-COM-SPEC"
  | An_NonqueuedSenderComSpec _ => Always "NONQUEUED-SENDER-COM-SPEC"
  | An_NvProvideComSpec _ => Always "NV-PROVIDE-COM-SPEC"
  | An_ParameterProvideComSpec _ => Always "PARAMETER-PROVIDE-COM-SPEC"
  | An_ServerComSpec _ => Always "SERVER-COM-SPEC"
  | An_QueuedReceiverComSpec _ => Always "QUEUED-RECEIVER-COM-SPEC"
  | An_NonqueuedReceiverComSpec _ => Always "NONQUEUED-RECEIVER-COM-SPEC"
  | An_NvRequireComSpec _ => Always "NV-REQUIRE-COM-SPEC"
  | An_ParameterRequireComSpec _ => Always "PARAMETER-REQUIRE-COM-SPEC"
  | An_ModeSwitchReceiverComSpec _ => Always "MODE-SWITCH-RECEIVER-COM-SPEC"
  | An_ClientComSpec _ => Always "CLIENT-COM-SPEC"
  | An_AsynchronousServerCallReturnsEvent _ => Always "ASYNCHRONOUS-SERVER-CALL-RETURNS-EVENT"
  | An_BackgroundEvent _ => Always "BACKGROUND-EVENT"
  | An_DataReceiveErrorEvent _ => Always "DATA-RECEIVE-ERROR-EVENT"
  | An_DataReceivedEvent _ => Always "DATA-RECEIVED-EVENT"
  | An_DataSendCompletedEvent _ => Always "DATA-SEND-COMPLETED-EVENT"
  | An_DataWriteCompletedEvent _ => Always "DATA-WRITE-COMPLETED-EVENT"
  | An_ExternalTriggerOccurredEvent _ => Always "EXTERNAL-TRIGGER-OCCURRED-EVENT"
  | An_InitEvent _ => Always "INIT-EVENT"
  | An_InternalTriggerOccurredEvent _ => Always "INTERNAL-TRIGGER-OCCURRED-EVENT"
  | An_ModeSwitchedAckEvent _ => Always "MODE-SWITCHED-ACK-EVENT"
  | An_OperationInvokedEvent _ => Always "OPERATION-INVOKED-EVENT"
  | An_SwcModeManagerErrorEvent _ => Always "SWC-MODE-MANAGER-ERROR-EVENT"
  | An_SwcModeSwitchEvent _ => Always "SWC-MODE-SWITCH-EVENT"
  | An_TimingEvent _ => Always "TIMING-EVENT"
  | An_TransformerHardErrorEvent _ => Always "TRANSFORMER-HARD-ERROR-EVENT"
  | An_Computation _ => As_given
  | An_CompuRational _ => Always "COMPU-RATIONAL-COEFFS"
  | An_CompuScale _ => Always "COMPU-SCALE"
  | An_ScaleConstraint _ => Always "SCALE-CONSTR"
  | An_InternalConstraint _ => Always "INTERNAL-CONSTRS"
  | An_PhysicalConstraint _ => Always "PHYS-CONSTRS"
  | An_DataConstraintRule _ => Always "DATA-CONSTR-RULE"
  | An_SwDataDefPropsConditional _ => Always "SW-DATA-DEF-PROPS-CONDITIONAL"
  | An_SwBitRepresentation _ => Always "SW-BIT-REPRESENTATION"
  | An_SwTextProps _ => Always "SW-TEXT-PROPS"
  | An_SwPointerTargetProps _ => Always "SW-POINTER-TARGET-PROPS"
  | An_SymbolProps _ => As_given
  | An_ImplementationDataTypeElement _ => Always "IMPLEMENTATION-DATA-TYPE-ELEMENT"
  | An_ApplicationArrayElement _ => Always "ELEMENT"
  | An_ApplicationRecordElement _ => Always "APPLICATION-RECORD-ELEMENT"
  | An_DataTypeMap _ => Always "DATA-TYPE-MAP"
  | An_ValueList _ => Always "SW-ARRAYSIZE"
  | An_VariableDataPrototype _ => As_given
  | An_ParameterDataPrototype _ => As_given
  | An_ArgumentDataPrototype _ => Always "ARGUMENT-DATA-PROTOTYPE"
  | An_ModeRequestTypeMap _ => Always "MODE-REQUEST-TYPE-MAP"
  | An_SwValues _ => Always "SW-VALUES-PHYS"
  | An_SwAxisCont _ => Always "SW-AXIS-CONT"
  | An_SwValueCont _ => Always "SW-VALUE-CONT"
  | An_InvalidationPolicy _ => Always "INVALIDATION-POLICY"
  | An_ApplicationError _ => Always "APPLICATION-ERROR"
  | An_ClientServerOperation _ => Always "CLIENT-SERVER-OPERATION"
  | An_ModeDeclaration _ => Always "MODE-DECLARATION"
  | An_ModeErrorBehavior _ => As_given
  | An_ModeTransition _ => Always "MODE-TRANSITION"
  | An_ModeDeclarationGroupPrototype _ => As_given
  | An_EndToEndTransformationComSpecProps _ => Always "END-TO-END-TRANSFORMATION-COM-SPEC-PROPS"
  | An_ModeSwitchedAckRequest _ => Always "MODE-SWITCHED-ACK"
  | An_TransmissionAcknowledgementRequest _ => Always "TRANSMISSION-ACKNOWLEDGE"
  | An_TransmissionComSpecProps _ => Always "TRANSMISSION-PROPS"
  | An_ReceptionComSpecProps _ => Always "RECEPTION-PROPS"
  | An_ProvidePortPrototype _ => Always "P-PORT-PROTOTYPE"
  | An_RequirePortPrototype _ => Always "R-PORT-PROTOTYPE"
  | An_PRPortPrototype _ => Always "PR-PORT-PROTOTYPE"
  | An_SwComponentPrototype _ => Always "SW-COMPONENT-PROTOTYPE"
  | An_AssemblySwConnector _ => Always "ASSEMBLY-SW-CONNECTOR"
  | An_DelegationSwConnector _ => Always "DELEGATION-SW-CONNECTOR"
  | An_PassThroughSwConnector _ => Always "PASS-THROUGH-SW-CONNECTOR"
  | An_RModeInAtomicSwcInstanceRef _ => As_given
  | An_RModeGroupInAtomicSwcInstanceRef _ => Always "R-MODE-GROUP-IN-ATOMIC-SWC-INSTANCE-REF"
  | An_ArVariableInImplementationDataInstanceRef _ => As_given
  | An_VariableInAtomicSWCTypeInstanceRef _ => Always "AUTOSAR-VARIABLE-IREF"
  | An_AutosarVariableRef _ => As_given
  | An_VariableAccess _ => As_given
  | An_SwcInternalBehavior _ => Always "SWC-INTERNAL-BEHAVIOR"
  | An_ExecutableEntityActivationReason _ => Always "EXECUTABLE-ENTITY-ACTIVATION-REASON"
  | An_ExclusiveAreaRefConditional _ => Always "EXCLUSIVE-AREA-REF-CONDITIONAL"
  | An_RunnableEntityArgument _ => Always "RUNNABLE-ENTITY-ARGUMENT"
  | An_RunnableEntity _ => Always "RUNNABLE-ENTITY"
  | An_PortDefinedArgumentValue _ => Always "PORT-DEFINED-ARGUMENT-VALUE"
  | An_CommunicationBufferLocking _ => Always "COMMUNICATION-BUFFER-LOCKING"
  | An_PortApiOption _ => Always "PORT-API-OPTION"
  | An_AsynchronousServerCallPoint _ => Always "ASYNCHRONOUS-SERVER-CALL-POINT"
  | An_SynchronousServerCallPoint _ => Always "SYNCHRONOUS-SERVER-CALL-POINT"
  | An_AsynchronousServerCallResultPoint _ => Always "ASYNCHRONOUS-SERVER-CALL-RESULT-POINT"
  | An_ExternalTriggeringPoint _ => Always "EXTERNAL-TRIGGERING-POINT"
  | An_InternalTriggeringPoint _ => Always "INTERNAL-TRIGGERING-POINT"
  | An_ModeAccessPoint _ => Always "MODE-ACCESS-POINT"
  | An_ModeSwitchPoint _ => Always "MODE-SWITCH-POINT"
  | An_ParameterInAtomicSwcTypeInstanceRef _ => Always "AUTOSAR-PARAMETER-IREF"
  | An_AutosarParameterRef _ => As_given
  | An_ParameterAccess _ => Always "PARAMETER-ACCESS"
  | An_WaitPoint _ => Always "WAIT-POINT"
  | An_value e => Always (value_tag e)
  | An_inline i => Always (inline_tag i)
  | An_doc_item i => Always (match i with Paragraph _ _ _ => "P" | Verbatim _ _ _ _ _ _ => "VERBATIM" end)
  | An_Annotation _ => Always "ANNOTATION"
  | An_DocumentationBlock _ => As_given
  | An_MultilanguageLongName _ => As_given
  | An_MultiLanguageOverviewParagraph _ => As_given
  | An_LanguageLongName _ => Always "L-4"
  | An_LanguageParagraph _ => Always "L-1"
  | An_LanguageVerbatim _ => Always "L-5"
  | An_SingleLanguageUnitNames _ => As_given
  | An_SwBaseTypeRef _ => Always "BASE-TYPE-REF"
  | An_PhysicalDimensionRef _ => Always "PHYSICAL-DIMENSION-REF"
  | An_ApplicationDataTypeRef _ => As_given
  | An_ConstantRef _ => As_given
  | An_PortInCompositionTypeInstanceRef _ => As_given
  | An_Package _ => Always "AR-PACKAGE"
  | An_other _ => As_given
  end.
(** The name of the element in the text, [tag] being the argument of write_str_elem *)
Definition name_in_text (o : any_object) (tag : option string) : string :=
  match element_of o, tag with Always n, _ => n | As_given, Some t => t | As_given, None => "" end.
(** The argument [tag] is given where it is needed, and not otherwise; it is the name of an element.
    With inline elements it makes no difference. *)
Definition called_well (o : any_object) (tag : option string) : Prop :=
  match o with
  | An_inline _ => True
  | An_other _ => False
  | _ => match element_of o, tag with
         | Always _, None => True
         | As_given, Some t => local_name t
         | _, _ => False
         end
  end.

(** The names of elements an object can be written as for read_str_elem to find out its class. *)
Definition known_names (o : any_object) : list string :=
  match o with
  | An_CompuMethod _ => ["COMPU-METHOD"]
  | An_DataFilter _ => ["DATA-FILTER"]
  | An_AutosarEngineeringObject _ => ["AUTOSAR-ENGINEERING-OBJECT"]
  | An_Code _ => ["CODE"]
  | An_ApplicationArrayDataType _ => ["APPLICATION-ARRAY-DATA-TYPE"]
  | An_ApplicationRecordDataType _ => ["APPLICATION-RECORD-DATA-TYPE"]
  | An_ApplicationPrimitiveDataType _ => ["APPLICATION-PRIMITIVE-DATA-TYPE"]
  | An_SwBaseType _ => ["SW-BASE-TYPE"]
  | An_SwAddrMethod _ => ["SW-ADDR-METHOD"]
  | An_ImplementationDataType _ => ["IMPLEMENTATION-DATA-TYPE"]
  | An_DataTypeMappingSet _ => ["DATA-TYPE-MAPPING-SET"]
  | An_DataConstraint _ => ["DATA-CONSTR"]
  | An_Unit _ => ["UNIT"]
  | An_ConstantSpecification _ => ["CONSTANT-SPECIFICATION"]
  | An_NvDataInterface _ => ["NV-DATA-INTERFACE"]
  | An_ParameterInterface _ => ["PARAMETER-INTERFACE"]
  | An_SenderReceiverInterface _ => ["SENDER-RECEIVER-INTERFACE"]
  | An_ClientServerInterface _ => ["CLIENT-SERVER-INTERFACE"]
  | An_ModeSwitchInterface _ => ["MODE-SWITCH-INTERFACE"]
  | An_ModeDeclarationGroup _ => ["MODE-DECLARATION-GROUP"]
  | An_E2EProfileCompatibilityProps _ => ["E-2-E-PROFILE-COMPATIBILITY-PROPS"]
  | An_ApplicationSoftwareComponentType _ => ["APPLICATION-SW-COMPONENT-TYPE"]
  | An_CompositionSwComponentType _ => ["COMPOSITION-SW-COMPONENT-TYPE"]
  | An_SwcImplementation _ => ["SWC-IMPLEMENTATION"]
  | An_ModeSwitchSenderComSpec _ => ["MODE-SWITCH-SENDER-COM-SPEC"]
  | An_QueuedSenderComSpec _ => ["QUEUED-SENDER-COM-SPEC"]
  | An_NonqueuedSenderComSpec _ => ["NONQUEUED-SENDER-COM-SPEC"]
  | An_NvProvideComSpec _ => ["NV-PROVIDE-COM-SPEC"]
  | An_ParameterProvideComSpec _ => ["PARAMETER-PROVIDE-COM-SPEC"]
  | An_ServerComSpec _ => ["SERVER-COM-SPEC"]
  | An_QueuedReceiverComSpec _ => ["QUEUED-RECEIVER-COM-SPEC"]
  | An_NonqueuedReceiverComSpec _ => ["NONQUEUED-RECEIVER-COM-SPEC"]
  | An_NvRequireComSpec _ => ["NV-REQUIRE-COM-SPEC"]
  | An_ParameterRequireComSpec _ => ["PARAMETER-REQUIRE-COM-SPEC"]
  | An_ModeSwitchReceiverComSpec _ => ["MODE-SWITCH-RECEIVER-COM-SPEC"]
  | An_ClientComSpec _ => ["CLIENT-COM-SPEC"]
  | An_AsynchronousServerCallReturnsEvent _ => ["ASYNCHRONOUS-SERVER-CALL-RETURNS-EVENT"]
  | An_BackgroundEvent _ => ["BACKGROUND-EVENT"]
  | An_DataReceiveErrorEvent _ => ["DATA-RECEIVE-ERROR-EVENT"]
  | An_DataReceivedEvent _ => ["DATA-RECEIVED-EVENT"]
  | An_DataSendCompletedEvent _ => ["DATA-SEND-COMPLETED-EVENT"]
  | An_DataWriteCompletedEvent _ => ["DATA-WRITE-COMPLETED-EVENT"]
  | An_ExternalTriggerOccurredEvent _ => ["EXTERNAL-TRIGGER-OCCURRED-EVENT"]
  | An_InitEvent _ => ["INIT-EVENT"]
  | An_InternalTriggerOccurredEvent _ => ["INTERNAL-TRIGGER-OCCURRED-EVENT"]
  | An_ModeSwitchedAckEvent _ => ["MODE-SWITCHED-ACK-EVENT"]
  | An_OperationInvokedEvent _ => ["OPERATION-INVOKED-EVENT"]
  | An_SwcModeManagerErrorEvent _ => ["SWC-MODE-MANAGER-ERROR-EVENT"]
  | An_SwcModeSwitchEvent _ => ["SWC-MODE-SWITCH-EVENT"]
  | An_TimingEvent _ => ["TIMING-EVENT"]
  | An_TransformerHardErrorEvent _ => ["TRANSFORMER-HARD-ERROR-EVENT"]
  | An_Computation _ => ["COMPU-INTERNAL-TO-PHYS"]
  | An_CompuRational _ => ["COMPU-RATIONAL-COEFFS"]
  | An_CompuScale _ => ["COMPU-SCALE"]
  | An_ScaleConstraint _ => ["SCALE-CONSTR"]
  | An_InternalConstraint _ => ["INTERNAL-CONSTRS"]
  | An_PhysicalConstraint _ => ["PHYS-CONSTRS"]
  | An_DataConstraintRule _ => ["DATA-CONSTR-RULE"]
  | An_SwDataDefPropsConditional _ => ["SW-DATA-DEF-PROPS-CONDITIONAL"]
  | An_SwBitRepresentation _ => ["SW-BIT-REPRESENTATION"]
  | An_SwTextProps _ => ["SW-TEXT-PROPS"]
  | An_SwPointerTargetProps _ => ["SW-POINTER-TARGET-PROPS"]
  | An_SymbolProps _ => ["SYMBOL-PROPS"]
  | An_ImplementationDataTypeElement _ => ["IMPLEMENTATION-DATA-TYPE-ELEMENT"]
  | An_ApplicationArrayElement _ => []
  | An_ApplicationRecordElement _ => ["APPLICATION-RECORD-ELEMENT"]
  | An_DataTypeMap _ => ["DATA-TYPE-MAP"]
  | An_ValueList _ => ["SW-ARRAYSIZE"]
  | An_VariableDataPrototype _ => []
  | An_ParameterDataPrototype _ => []
  | An_ArgumentDataPrototype _ => ["ARGUMENT-DATA-PROTOTYPE"]
  | An_ModeRequestTypeMap _ => ["MODE-REQUEST-TYPE-MAP"]
  | An_SwValues _ => ["SW-VALUES-PHYS"]
  | An_SwAxisCont _ => ["SW-AXIS-CONT"]
  | An_SwValueCont _ => ["SW-VALUE-CONT"]
  | An_InvalidationPolicy _ => ["INVALIDATION-POLICY"]
  | An_ApplicationError _ => ["APPLICATION-ERROR"]
  | An_ClientServerOperation _ => ["CLIENT-SERVER-OPERATION"]
  | An_ModeDeclaration _ => ["MODE-DECLARATION"]
  | An_ModeErrorBehavior _ => ["MODE-MANAGER-ERROR-BEHAVIOR"; "MODE-USER-ERROR-BEHAVIOR"]
  | An_ModeTransition _ => ["MODE-TRANSITION"]
  | An_ModeDeclarationGroupPrototype _ => ["MODE-DECLARATION-GROUP-PROTOTYPE"]
  | An_EndToEndTransformationComSpecProps _ => ["END-TO-END-TRANSFORMATION-COM-SPEC-PROPS"]
  | An_ModeSwitchedAckRequest _ => ["MODE-SWITCHED-ACK"]
  | An_TransmissionAcknowledgementRequest _ => ["TRANSMISSION-ACKNOWLEDGE"]
  | An_TransmissionComSpecProps _ => ["TRANSMISSION-PROPS"]
  | An_ReceptionComSpecProps _ => ["RECEPTION-PROPS"]
  | An_ProvidePortPrototype _ => ["P-PORT-PROTOTYPE"]
  | An_RequirePortPrototype _ => ["R-PORT-PROTOTYPE"]
  | An_PRPortPrototype _ => ["PR-PORT-PROTOTYPE"]
  | An_SwComponentPrototype _ => ["SW-COMPONENT-PROTOTYPE"]
  | An_AssemblySwConnector _ => ["ASSEMBLY-SW-CONNECTOR"]
  | An_DelegationSwConnector _ => ["DELEGATION-SW-CONNECTOR"]
  | An_PassThroughSwConnector _ => ["PASS-THROUGH-SW-CONNECTOR"]
  | An_RModeInAtomicSwcInstanceRef _ => ["DISABLED-MODE-IREF"]
  | An_RModeGroupInAtomicSwcInstanceRef _ => ["R-MODE-GROUP-IN-ATOMIC-SWC-INSTANCE-REF"]
  | An_ArVariableInImplementationDataInstanceRef _ => ["AUTOSAR-VARIABLE-IN-IMPL-DATATYPE"]
  | An_VariableInAtomicSWCTypeInstanceRef _ => ["AUTOSAR-VARIABLE-IREF"]
  | An_AutosarVariableRef _ => ["ACCESSED-VARIABLE"]
  | An_VariableAccess _ => ["VARIABLE-ACCESS"]
  | An_SwcInternalBehavior _ => ["SWC-INTERNAL-BEHAVIOR"]
  | An_ExecutableEntityActivationReason _ => ["EXECUTABLE-ENTITY-ACTIVATION-REASON"]
  | An_ExclusiveAreaRefConditional _ => ["EXCLUSIVE-AREA-REF-CONDITIONAL"]
  | An_RunnableEntityArgument _ => ["RUNNABLE-ENTITY-ARGUMENT"]
  | An_RunnableEntity _ => ["RUNNABLE-ENTITY"]
  | An_PortDefinedArgumentValue _ => ["PORT-DEFINED-ARGUMENT-VALUE"]
  | An_CommunicationBufferLocking _ => ["COMMUNICATION-BUFFER-LOCKING"]
  | An_PortApiOption _ => ["PORT-API-OPTION"]
  | An_AsynchronousServerCallPoint _ => ["ASYNCHRONOUS-SERVER-CALL-POINT"]
  | An_SynchronousServerCallPoint _ => ["SYNCHRONOUS-SERVER-CALL-POINT"]
  | An_AsynchronousServerCallResultPoint _ => ["ASYNCHRONOUS-SERVER-CALL-RESULT-POINT"]
  | An_ExternalTriggeringPoint _ => ["EXTERNAL-TRIGGERING-POINT"]
  | An_InternalTriggeringPoint _ => ["INTERNAL-TRIGGERING-POINT"]
  | An_ModeAccessPoint _ => ["MODE-ACCESS-POINT"]
  | An_ModeSwitchPoint _ => ["MODE-SWITCH-POINT"]
  | An_ParameterInAtomicSwcTypeInstanceRef _ => ["AUTOSAR-PARAMETER-IREF"]
  | An_AutosarParameterRef _ => ["ACCESSED-PARAMETER"]
  | An_ParameterAccess _ => ["PARAMETER-ACCESS"]
  | An_WaitPoint _ => ["WAIT-POINT"]
  | An_value e => [value_tag e]
  | An_inline i => [inline_tag i]
  | An_doc_item i => [match i with Paragraph _ _ _ => "P" | Verbatim _ _ _ _ _ _ => "VERBATIM" end]
  | An_Annotation _ => ["ANNOTATION"]
  | An_DocumentationBlock _ => ["ANNOTATION-TEXT"]
  | An_MultilanguageLongName _ => ["LABEL"; "LONG-NAME"]
  | An_MultiLanguageOverviewParagraph _ => ["DESC"]
  | An_LanguageLongName _ => ["L-4"]
  | An_LanguageParagraph _ => ["L-1"]
  | An_LanguageVerbatim _ => ["L-5"]
  | An_SingleLanguageUnitNames _ => ["DISPLAY-NAME"]
  | An_SwBaseTypeRef _ => ["BASE-TYPE-REF"]
  | An_PhysicalDimensionRef _ => ["PHYSICAL-DIMENSION-REF"]
  | An_ApplicationDataTypeRef _ => ["APPLICATION-DATA-TYPE-REF"]
  | An_ConstantRef _ => ["CONSTANT-REF"]
  | An_PortInCompositionTypeInstanceRef _ => ["PROVIDER-IREF"; "REQUESTER-IREF"]
  | An_Package _ => []
  | An_other _ => []
  end.
(** The classes whose name is given to read_str_elem instead, because documents have their objects
    under names that other classes have too. *)
Definition type_name_of (o : any_object) : option string :=
  match o with
  | An_ApplicationArrayElement _ => Some "ApplicationArrayElement"
  | An_ParameterDataPrototype _ => Some "ParameterDataPrototype"
  | An_VariableDataPrototype _ => Some "VariableDataPrototype"
  | _ => None
  end.
(** [type_name], the argument of read_str_elem, suits the element that was written *)
Definition read_well (o : any_object) (tag type_name : option string) : Prop :=
  (type_name = None /\ In (name_in_text o tag) (known_names o)) \/ (type_name <> None /\ type_name = type_name_of o).

(** Inline elements with a text that XML can hold *)
Definition good_inline (i : inline_elem) : Prop :=
  match i with
  | IBreak => True
  | IEmphasis t c _ _ => (exists s, t = Some s /\ good_text s) /\ opt_ok safe_attr c
  | IIndexEntry t | ISubscript t | ISuperscript t => exists s, t = Some s /\ good_text s
  | ITechnicalTerm t x y => (exists s, t = Some s /\ good_text s) /\ opt_ok safe_attr x /\ opt_ok safe_attr y
  end.
(** Objects that XML can hold: the conditions of the classes (C25 to C28 and C41) *)
Definition good_object (v : N) (o : any_object) (tag : option string) : Prop :=
  match o with
  | An_CompuMethod e => good_CompuMethod e
  | An_DataFilter e => good_DataFilter e
  | An_AutosarEngineeringObject e => good_AutosarEngineeringObject e
  | An_Code e => good_Code e
  | An_ApplicationArrayDataType e => good_ApplicationArrayDataType e
  | An_ApplicationRecordDataType e => good_ApplicationRecordDataType e
  | An_ApplicationPrimitiveDataType e => good_ApplicationPrimitiveDataType e
  | An_SwBaseType e => good_SwBaseType e
  | An_SwAddrMethod e => good_SwAddrMethod e
  | An_ImplementationDataType e => good_ImplementationDataType e
  | An_DataTypeMappingSet e => good_DataTypeMappingSet e
  | An_DataConstraint e => good_DataConstraint e
  | An_Unit e => good_Unit e
  | An_ConstantSpecification e => good_ConstantSpecification e
  | An_NvDataInterface e => good_NvDataInterface e
  | An_ParameterInterface e => good_ParameterInterface e
  | An_SenderReceiverInterface e => good_SenderReceiverInterface e
  | An_ClientServerInterface e => good_ClientServerInterface e
  | An_ModeSwitchInterface e => good_ModeSwitchInterface e
  | An_ModeDeclarationGroup e => good_ModeDeclarationGroup e
  | An_E2EProfileCompatibilityProps e => good_E2EProfileCompatibilityProps e
  | An_ApplicationSoftwareComponentType e => good_ApplicationSoftwareComponentType v e
  | An_CompositionSwComponentType e => good_CompositionSwComponentType e
  | An_SwcImplementation e => good_SwcImplementation e
  | An_ModeSwitchSenderComSpec e => good_ModeSwitchSenderComSpec e
  | An_QueuedSenderComSpec e => good_QueuedSenderComSpec e
  | An_NonqueuedSenderComSpec e => good_NonqueuedSenderComSpec e
  | An_NvProvideComSpec e => good_NvProvideComSpec e
  | An_ParameterProvideComSpec e => good_ParameterProvideComSpec e
  | An_ServerComSpec e => good_ServerComSpec e
  | An_QueuedReceiverComSpec e => good_QueuedReceiverComSpec e
  | An_NonqueuedReceiverComSpec e => good_NonqueuedReceiverComSpec e
  | An_NvRequireComSpec e => good_NvRequireComSpec e
  | An_ParameterRequireComSpec e => good_ParameterRequireComSpec e
  | An_ModeSwitchReceiverComSpec e => good_ModeSwitchReceiverComSpec e
  | An_ClientComSpec e => good_ClientComSpec e
  | An_AsynchronousServerCallReturnsEvent e => good_AsynchronousServerCallReturnsEvent e
  | An_BackgroundEvent e => good_BackgroundEvent e
  | An_DataReceiveErrorEvent e => good_DataReceiveErrorEvent e
  | An_DataReceivedEvent e => good_DataReceivedEvent e
  | An_DataSendCompletedEvent e => good_DataSendCompletedEvent e
  | An_DataWriteCompletedEvent e => good_DataWriteCompletedEvent e
  | An_ExternalTriggerOccurredEvent e => good_ExternalTriggerOccurredEvent e
  | An_InitEvent e => good_InitEvent e
  | An_InternalTriggerOccurredEvent e => good_InternalTriggerOccurredEvent e
  | An_ModeSwitchedAckEvent e => good_ModeSwitchedAckEvent e
  | An_OperationInvokedEvent e => good_OperationInvokedEvent e
  | An_SwcModeManagerErrorEvent e => good_SwcModeManagerErrorEvent e
  | An_SwcModeSwitchEvent e => good_SwcModeSwitchEvent e
  | An_TimingEvent e => good_TimingEvent e
  | An_TransformerHardErrorEvent e => good_TransformerHardErrorEvent e
  | An_Computation e => good_Computation e
  | An_CompuRational e => good_CompuRational e
  | An_CompuScale e => good_CompuScale e
  | An_ScaleConstraint e => good_ScaleConstraint e
  | An_InternalConstraint e => good_InternalConstraint e
  | An_PhysicalConstraint e => good_PhysicalConstraint e
  | An_DataConstraintRule e => good_DataConstraintRule e
  | An_SwDataDefPropsConditional e => good_SwDataDefPropsConditional e
  | An_SwBitRepresentation e => good_SwBitRepresentation e
  | An_SwTextProps e => good_SwTextProps e
  | An_SwPointerTargetProps e => good_SwPointerTargetProps e
  | An_SymbolProps e => good_SymbolProps e
  | An_ImplementationDataTypeElement e => good_ImplementationDataTypeElement e
  | An_ApplicationArrayElement e => good_ApplicationArrayElement e
  | An_ApplicationRecordElement e => good_ApplicationRecordElement e
  | An_DataTypeMap e => good_DataTypeMap e
  | An_ValueList e => good_ValueList e
  | An_VariableDataPrototype e => good_VariableDataPrototype e
  | An_ParameterDataPrototype e => good_ParameterDataPrototype e
  | An_ArgumentDataPrototype e => good_ArgumentDataPrototype e
  | An_ModeRequestTypeMap e => good_ModeRequestTypeMap e
  | An_SwValues e => good_SwValues e
  | An_SwAxisCont e => good_SwAxisCont e
  | An_SwValueCont e => good_SwValueCont e
  | An_InvalidationPolicy e => good_InvalidationPolicy e
  | An_ApplicationError e => good_ApplicationError e
  | An_ClientServerOperation e => good_ClientServerOperation e
  | An_ModeDeclaration e => good_ModeDeclaration e
  | An_ModeErrorBehavior e => good_ModeErrorBehavior e
  | An_ModeTransition e => good_ModeTransition e
  | An_ModeDeclarationGroupPrototype e => good_ModeDeclarationGroupPrototype e
  | An_EndToEndTransformationComSpecProps e => good_EndToEndTransformationComSpecProps e
  | An_ModeSwitchedAckRequest e => good_ModeSwitchedAckRequest e
  | An_TransmissionAcknowledgementRequest e => good_TransmissionAcknowledgementRequest e
  | An_TransmissionComSpecProps e => good_TransmissionComSpecProps e
  | An_ReceptionComSpecProps e => good_ReceptionComSpecProps e
  | An_ProvidePortPrototype e => good_ProvidePortPrototype e
  | An_RequirePortPrototype e => good_RequirePortPrototype e
  | An_PRPortPrototype e => good_PRPortPrototype e
  | An_SwComponentPrototype e => good_SwComponentPrototype e
  | An_AssemblySwConnector e => good_AssemblySwConnector e
  | An_DelegationSwConnector e => good_DelegationSwConnector e
  | An_PassThroughSwConnector e => good_PassThroughSwConnector e
  | An_RModeInAtomicSwcInstanceRef e => good_RModeInAtomicSwcInstanceRef e
  | An_RModeGroupInAtomicSwcInstanceRef e => good_RModeGroupInAtomicSwcInstanceRef e
  | An_ArVariableInImplementationDataInstanceRef e => good_ArVariableInImplementationDataInstanceRef e
  | An_VariableInAtomicSWCTypeInstanceRef e => good_VariableInAtomicSWCTypeInstanceRef e
  | An_AutosarVariableRef e => good_AutosarVariableRef e
  | An_VariableAccess e => good_VariableAccess e
  | An_SwcInternalBehavior e => good_SwcInternalBehavior v e
  | An_ExecutableEntityActivationReason e => good_ExecutableEntityActivationReason e
  | An_ExclusiveAreaRefConditional e => good_ExclusiveAreaRefConditional e
  | An_RunnableEntityArgument e => good_RunnableEntityArgument e
  | An_RunnableEntity e => good_RunnableEntity v e
  | An_PortDefinedArgumentValue e => good_PortDefinedArgumentValue e
  | An_CommunicationBufferLocking e => good_CommunicationBufferLocking e
  | An_PortApiOption e => good_PortApiOption e
  | An_AsynchronousServerCallPoint e => good_AsynchronousServerCallPoint e
  | An_SynchronousServerCallPoint e => good_SynchronousServerCallPoint e
  | An_AsynchronousServerCallResultPoint e => good_AsynchronousServerCallResultPoint e
  | An_ExternalTriggeringPoint e => good_ExternalTriggeringPoint e
  | An_InternalTriggeringPoint e => good_InternalTriggeringPoint e
  | An_ModeAccessPoint e => good_ModeAccessPoint e
  | An_ModeSwitchPoint e => good_ModeSwitchPoint e
  | An_ParameterInAtomicSwcTypeInstanceRef e => good_ParameterInAtomicSwcTypeInstanceRef e
  | An_AutosarParameterRef e => good_AutosarParameterRef e
  | An_ParameterAccess e => good_ParameterAccess e
  | An_WaitPoint e => good_WaitPoint e
  | An_value e => good_ValueSpecificationElement e
  | An_inline i => good_inline i
  | An_doc_item i => good_doc_item i
  | An_Annotation e => good_annotation e
  | An_DocumentationBlock e => good_doc e
  | An_MultilanguageLongName e => all_ok good_lang e
  | An_MultiLanguageOverviewParagraph e => all_ok good_lang e
  | An_LanguageLongName e => good_lang e
  | An_LanguageParagraph e => good_lang e
  | An_LanguageVerbatim e => good_lang e
  | An_SingleLanguageUnitNames e => good_names e
  | An_SwBaseTypeRef e => good_ref rc_SwBaseTypeRef e
  | An_PhysicalDimensionRef e => good_ref rc_PhysicalDimensionRef e
  | An_ApplicationDataTypeRef e => good_ref rc_ApplicationDataTypeRef e
  | An_ConstantRef e => good_ref rc_ConstantRef e
  | An_PortInCompositionTypeInstanceRef e =>
      (tag = Some "PROVIDER-IREF" /\ good_port_in_composition provide_dests e) \/
      (tag = Some "REQUESTER-IREF" /\ good_port_in_composition require_dests e)
  | An_Package e => good_package v e
  | An_other _ => False
  end.
(** The object read back: the same one, but for the differences in the way numbers and optional parts
    are held that the norm_ functions describe (C25 to C28 and C41). *)
Definition as_read (o : any_object) : any_object :=
  match o with
  | An_CompuMethod e => An_CompuMethod (norm_CompuMethod e)
  | An_ApplicationArrayDataType e => An_ApplicationArrayDataType (norm_ApplicationArrayDataType e)
  | An_ApplicationRecordDataType e => An_ApplicationRecordDataType (norm_ApplicationRecordDataType e)
  | An_ApplicationPrimitiveDataType e => An_ApplicationPrimitiveDataType (norm_ApplicationPrimitiveDataType e)
  | An_ImplementationDataType e => An_ImplementationDataType (norm_ImplementationDataType e)
  | An_DataConstraint e => An_DataConstraint (norm_DataConstraint e)
  | An_Unit e => An_Unit (norm_Unit e)
  | An_ConstantSpecification e => An_ConstantSpecification (norm_ConstantSpecification e)
  | An_NvDataInterface e => An_NvDataInterface (norm_NvDataInterface e)
  | An_ParameterInterface e => An_ParameterInterface (norm_ParameterInterface e)
  | An_SenderReceiverInterface e => An_SenderReceiverInterface (norm_SenderReceiverInterface e)
  | An_ClientServerInterface e => An_ClientServerInterface (norm_ClientServerInterface e)
  | An_ApplicationSoftwareComponentType e => An_ApplicationSoftwareComponentType (norm_ApplicationSoftwareComponentType e)
  | An_CompositionSwComponentType e => An_CompositionSwComponentType (norm_CompositionSwComponentType e)
  | An_QueuedSenderComSpec e => An_QueuedSenderComSpec (norm_QueuedSenderComSpec e)
  | An_NonqueuedSenderComSpec e => An_NonqueuedSenderComSpec (norm_NonqueuedSenderComSpec e)
  | An_NvProvideComSpec e => An_NvProvideComSpec (norm_NvProvideComSpec e)
  | An_ParameterProvideComSpec e => An_ParameterProvideComSpec (norm_ParameterProvideComSpec e)
  | An_QueuedReceiverComSpec e => An_QueuedReceiverComSpec (norm_QueuedReceiverComSpec e)
  | An_NonqueuedReceiverComSpec e => An_NonqueuedReceiverComSpec (norm_NonqueuedReceiverComSpec e)
  | An_NvRequireComSpec e => An_NvRequireComSpec (norm_NvRequireComSpec e)
  | An_ParameterRequireComSpec e => An_ParameterRequireComSpec (norm_ParameterRequireComSpec e)
  | An_Computation e => An_Computation (norm_Computation e)
  | An_CompuRational e => An_CompuRational (norm_CompuRational e)
  | An_CompuScale e => An_CompuScale (norm_CompuScale e)
  | An_ScaleConstraint e => An_ScaleConstraint (norm_ScaleConstraint e)
  | An_InternalConstraint e => An_InternalConstraint (norm_InternalConstraint e)
  | An_PhysicalConstraint e => An_PhysicalConstraint (norm_PhysicalConstraint e)
  | An_DataConstraintRule e => An_DataConstraintRule (norm_DataConstraintRule e)
  | An_SwDataDefPropsConditional e => An_SwDataDefPropsConditional (norm_SwDataDefPropsConditional e)
  | An_SwPointerTargetProps e => An_SwPointerTargetProps (norm_SwPointerTargetProps e)
  | An_ImplementationDataTypeElement e => An_ImplementationDataTypeElement (norm_ImplementationDataTypeElement e)
  | An_ApplicationArrayElement e => An_ApplicationArrayElement (norm_ApplicationArrayElement e)
  | An_ApplicationRecordElement e => An_ApplicationRecordElement (norm_ApplicationRecordElement e)
  | An_ValueList e => An_ValueList (norm_ValueList e)
  | An_VariableDataPrototype e => An_VariableDataPrototype (norm_VariableDataPrototype e)
  | An_ParameterDataPrototype e => An_ParameterDataPrototype (norm_ParameterDataPrototype e)
  | An_ArgumentDataPrototype e => An_ArgumentDataPrototype (norm_ArgumentDataPrototype e)
  | An_SwValues e => An_SwValues (norm_SwValues e)
  | An_SwAxisCont e => An_SwAxisCont (norm_SwAxisCont e)
  | An_SwValueCont e => An_SwValueCont (norm_SwValueCont e)
  | An_ClientServerOperation e => An_ClientServerOperation (norm_ClientServerOperation e)
  | An_ProvidePortPrototype e => An_ProvidePortPrototype (norm_ProvidePortPrototype e)
  | An_RequirePortPrototype e => An_RequirePortPrototype (norm_RequirePortPrototype e)
  | An_PRPortPrototype e => An_PRPortPrototype (norm_PRPortPrototype e)
  | An_SwcInternalBehavior e => An_SwcInternalBehavior (norm_SwcInternalBehavior e)
  | An_RunnableEntity e => An_RunnableEntity (norm_RunnableEntity e)
  | An_PortDefinedArgumentValue e => An_PortDefinedArgumentValue (norm_PortDefinedArgumentValue e)
  | An_PortApiOption e => An_PortApiOption (norm_PortApiOption e)
  | An_ParameterAccess e => An_ParameterAccess (norm_ParameterAccess e)
  | An_value e => An_value (norm_ValueSpecificationElement e)
  | An_SingleLanguageUnitNames e => An_SingleLanguageUnitNames (merged e)
  | _ => o
  end.

(** The classes whose objects can be written with write_str_elem, those of them that can be the elements
    of a package (write_file_elem), the names of elements that read_str_elem knows, and its type names. *)
Definition writable_classes : list string := [
  "Annotation"; "ApplicationArrayDataType"; "ApplicationArrayElement"; "ApplicationDataTypeRef";
  "ApplicationError"; "ApplicationPrimitiveDataType"; "ApplicationRecordDataType";
  "ApplicationRecordElement"; "ApplicationSoftwareComponentType"; "ApplicationValueSpecification";
  "ArVariableInImplementationDataInstanceRef"; "ArgumentDataPrototype"; "ArrayValueSpecification";
  "AssemblySwConnector"; "AsynchronousServerCallPoint"; "AsynchronousServerCallResultPoint";
  "AsynchronousServerCallReturnsEvent"; "AutosarEngineeringObject"; "AutosarParameterRef";
  "AutosarVariableRef"; "BackgroundEvent"; "Break"; "ClientComSpec"; "ClientServerInterface";
  "ClientServerOperation"; "Code"; "CommunicationBufferLocking"; "CompositionSwComponentType"; "CompuMethod";
  "CompuRational"; "CompuScale"; "Computation"; "ConstantRef"; "ConstantReference"; "ConstantSpecification";
  "DataConstraint"; "DataConstraintRule"; "DataFilter"; "DataReceiveErrorEvent"; "DataReceivedEvent";
  "DataSendCompletedEvent"; "DataTypeMap"; "DataTypeMappingSet"; "DataWriteCompletedEvent";
  "DelegationSwConnector"; "DocumentationBlock"; "E2EProfileCompatibilityProps"; "EmphasisText";
  "EndToEndTransformationComSpecProps"; "ExclusiveAreaRefConditional"; "ExecutableEntityActivationReason";
  "ExternalTriggerOccurredEvent"; "ExternalTriggeringPoint"; "ImplementationDataType";
  "ImplementationDataTypeElement"; "IndexEntry"; "InitEvent"; "InternalConstraint";
  "InternalTriggerOccurredEvent"; "InternalTriggeringPoint"; "InvalidationPolicy"; "LanguageLongName";
  "LanguageParagraph"; "LanguageVerbatim"; "ModeAccessPoint"; "ModeDeclaration"; "ModeDeclarationGroup";
  "ModeDeclarationGroupPrototype"; "ModeErrorBehavior"; "ModeRequestTypeMap"; "ModeSwitchInterface";
  "ModeSwitchPoint"; "ModeSwitchReceiverComSpec"; "ModeSwitchSenderComSpec"; "ModeSwitchedAckEvent";
  "ModeSwitchedAckRequest"; "ModeTransition"; "MultiLanguageOverviewParagraph"; "MultiLanguageParagraph";
  "MultiLanguageVerbatim"; "MultilanguageLongName"; "NonqueuedReceiverComSpec"; "NonqueuedSenderComSpec";
  "NotAvailableValueSpecification"; "NumericalValueSpecification"; "NvDataInterface"; "NvProvideComSpec";
  "NvRequireComSpec"; "OperationInvokedEvent"; "PRPortPrototype"; "Package"; "ParameterAccess";
  "ParameterDataPrototype"; "ParameterInAtomicSwcTypeInstanceRef"; "ParameterInterface";
  "ParameterProvideComSpec"; "ParameterRequireComSpec"; "PassThroughSwConnector"; "PhysicalConstraint";
  "PhysicalDimensionRef"; "PortApiOption"; "PortDefinedArgumentValue"; "PortInCompositionTypeInstanceRef";
  "ProvidePortPrototype"; "QueuedReceiverComSpec"; "QueuedSenderComSpec"; "RModeGroupInAtomicSwcInstanceRef";
  "RModeInAtomicSwcInstanceRef"; "ReceptionComSpecProps"; "RecordValueSpecification"; "RequirePortPrototype";
  "RunnableEntity"; "RunnableEntityArgument"; "ScaleConstraint"; "SenderReceiverInterface"; "ServerComSpec";
  "SingleLanguageUnitNames"; "Subscript"; "Superscript"; "SwAddrMethod"; "SwAxisCont"; "SwBaseType";
  "SwBaseTypeRef"; "SwBitRepresentation"; "SwComponentPrototype"; "SwDataDefPropsConditional";
  "SwPointerTargetProps"; "SwTextProps"; "SwValueCont"; "SwValues"; "SwcImplementation";
  "SwcInternalBehavior"; "SwcModeManagerErrorEvent"; "SwcModeSwitchEvent"; "SymbolProps";
  "SynchronousServerCallPoint"; "TechnicalTerm"; "TextValueSpecification"; "TimingEvent";
  "TransformerHardErrorEvent"; "TransmissionAcknowledgementRequest"; "TransmissionComSpecProps"; "Unit";
  "ValueList"; "VariableAccess"; "VariableDataPrototype"; "VariableInAtomicSWCTypeInstanceRef"; "WaitPoint" ].
Definition collectable_classes : list string := [
  "ApplicationArrayDataType"; "ApplicationPrimitiveDataType"; "ApplicationRecordDataType";
  "ApplicationSoftwareComponentType"; "AutosarEngineeringObject"; "ClientServerInterface"; "Code";
  "CompositionSwComponentType"; "CompuMethod"; "ConstantSpecification"; "DataConstraint"; "DataFilter";
  "DataTypeMappingSet"; "E2EProfileCompatibilityProps"; "ImplementationDataType"; "ModeDeclarationGroup";
  "ModeSwitchInterface"; "NvDataInterface"; "Package"; "ParameterInterface"; "SenderReceiverInterface";
  "SwAddrMethod"; "SwBaseType"; "SwcImplementation"; "Unit" ].
Definition readable_names : list string := [
  "ACCESSED-PARAMETER"; "ACCESSED-VARIABLE"; "ANNOTATION"; "ANNOTATION-TEXT"; "APPLICATION-ARRAY-DATA-TYPE";
  "APPLICATION-DATA-TYPE-REF"; "APPLICATION-ERROR"; "APPLICATION-PRIMITIVE-DATA-TYPE";
  "APPLICATION-RECORD-DATA-TYPE"; "APPLICATION-RECORD-ELEMENT"; "APPLICATION-SW-COMPONENT-TYPE";
  "APPLICATION-VALUE-SPECIFICATION"; "ARGUMENT-DATA-PROTOTYPE"; "ARRAY-VALUE-SPECIFICATION";
  "ASSEMBLY-SW-CONNECTOR"; "ASYNCHRONOUS-SERVER-CALL-POINT"; "ASYNCHRONOUS-SERVER-CALL-RESULT-POINT";
  "ASYNCHRONOUS-SERVER-CALL-RETURNS-EVENT"; "AUTOSAR-ENGINEERING-OBJECT"; "AUTOSAR-PARAMETER-IREF";
  "AUTOSAR-VARIABLE-IN-IMPL-DATATYPE"; "AUTOSAR-VARIABLE-IREF"; "BACKGROUND-EVENT"; "BASE-TYPE-REF"; "BR";
  "CLIENT-COM-SPEC"; "CLIENT-SERVER-INTERFACE"; "CLIENT-SERVER-OPERATION"; "CODE";
  "COMMUNICATION-BUFFER-LOCKING"; "COMPOSITION-SW-COMPONENT-TYPE"; "COMPU-INTERNAL-TO-PHYS"; "COMPU-METHOD";
  "COMPU-RATIONAL-COEFFS"; "COMPU-SCALE"; "CONSTANT-REF"; "CONSTANT-REFERENCE"; "CONSTANT-SPECIFICATION";
  "DATA-CONSTR"; "DATA-CONSTR-RULE"; "DATA-FILTER"; "DATA-RECEIVE-ERROR-EVENT"; "DATA-RECEIVED-EVENT";
  "DATA-SEND-COMPLETED-EVENT"; "DATA-TYPE-MAP"; "DATA-TYPE-MAPPING-SET"; "DATA-WRITE-COMPLETED-EVENT";
  "DELEGATION-SW-CONNECTOR"; "DESC"; "DISABLED-MODE-IREF"; "DISPLAY-NAME"; "E";
  "E-2-E-PROFILE-COMPATIBILITY-PROPS"; "END-TO-END-TRANSFORMATION-COM-SPEC-PROPS";
  "EXCLUSIVE-AREA-REF-CONDITIONAL"; "EXECUTABLE-ENTITY-ACTIVATION-REASON"; "EXTERNAL-TRIGGER-OCCURRED-EVENT";
  "EXTERNAL-TRIGGERING-POINT"; "IE"; "IMPLEMENTATION-DATA-TYPE"; "IMPLEMENTATION-DATA-TYPE-ELEMENT";
  "INIT-EVENT"; "INTERNAL-CONSTRS"; "INTERNAL-TRIGGER-OCCURRED-EVENT"; "INTERNAL-TRIGGERING-POINT";
  "INVALIDATION-POLICY"; "L-1"; "L-4"; "L-5"; "LABEL"; "LONG-NAME"; "MODE-ACCESS-POINT"; "MODE-DECLARATION";
  "MODE-DECLARATION-GROUP"; "MODE-DECLARATION-GROUP-PROTOTYPE"; "MODE-MANAGER-ERROR-BEHAVIOR";
  "MODE-REQUEST-TYPE-MAP"; "MODE-SWITCH-INTERFACE"; "MODE-SWITCH-POINT"; "MODE-SWITCH-RECEIVER-COM-SPEC";
  "MODE-SWITCH-SENDER-COM-SPEC"; "MODE-SWITCHED-ACK"; "MODE-SWITCHED-ACK-EVENT"; "MODE-TRANSITION";
  "MODE-USER-ERROR-BEHAVIOR"; "NONQUEUED-RECEIVER-COM-SPEC"; "NONQUEUED-SENDER-COM-SPEC";
  "NOT-AVAILABLE-VALUE-SPECIFICATION"; "NUMERICAL-VALUE-SPECIFICATION"; "NV-DATA-INTERFACE";
  "NV-PROVIDE-COM-SPEC"; "NV-REQUIRE-COM-SPEC"; "OPERATION-INVOKED-EVENT"; "P"; "P-PORT-PROTOTYPE";
  "PARAMETER-ACCESS"; "PARAMETER-INTERFACE"; "PARAMETER-PROVIDE-COM-SPEC"; "PARAMETER-REQUIRE-COM-SPEC";
  "PASS-THROUGH-SW-CONNECTOR"; "PHYS-CONSTRS"; "PHYSICAL-DIMENSION-REF"; "PORT-API-OPTION";
  "PORT-DEFINED-ARGUMENT-VALUE"; "PR-PORT-PROTOTYPE"; "PROVIDER-IREF"; "QUEUED-RECEIVER-COM-SPEC";
  "QUEUED-SENDER-COM-SPEC"; "R-MODE-GROUP-IN-ATOMIC-SWC-INSTANCE-REF"; "R-PORT-PROTOTYPE"; "RECEPTION-PROPS";
  "RECORD-VALUE-SPECIFICATION"; "REQUESTER-IREF"; "RUNNABLE-ENTITY"; "RUNNABLE-ENTITY-ARGUMENT";
  "SCALE-CONSTR"; "SENDER-RECEIVER-INTERFACE"; "SERVER-COM-SPEC"; "SUB"; "SUP"; "SW-ADDR-METHOD";
  "SW-ARRAYSIZE"; "SW-AXIS-CONT"; "SW-BASE-TYPE"; "SW-BIT-REPRESENTATION"; "SW-COMPONENT-PROTOTYPE";
  "SW-DATA-DEF-PROPS-CONDITIONAL"; "SW-POINTER-TARGET-PROPS"; "SW-TEXT-PROPS"; "SW-VALUE-CONT";
  "SW-VALUES-PHYS"; "SWC-IMPLEMENTATION"; "SWC-INTERNAL-BEHAVIOR"; "SWC-MODE-MANAGER-ERROR-EVENT";
  "SWC-MODE-SWITCH-EVENT"; "SYMBOL-PROPS"; "SYNCHRONOUS-SERVER-CALL-POINT"; "TEXT-VALUE-SPECIFICATION";
  "TIMING-EVENT"; "TRANSFORMER-HARD-ERROR-EVENT"; "TRANSMISSION-ACKNOWLEDGE"; "TRANSMISSION-PROPS"; "TT";
  "UNIT"; "VARIABLE-ACCESS"; "VERBATIM"; "WAIT-POINT" ].
Definition type_names : list string := ["ApplicationArrayElement"; "ParameterDataPrototype"; "VariableDataPrototype"].
