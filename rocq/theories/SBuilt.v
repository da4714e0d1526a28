(** Objects that are built by calls of constructors, of any depth, from values that XML can carry: texts that
    are not empty and need no escaping, numbers that the writer can print, enumeration values, references and
    formatted texts. *)
From Verif Require Import Base MNames MNum SNum MXml SXml MEnum MRefTab MRef SEnum MCodec SCodec MElem0 MElem1 MElemA MElemB MElemC MElem2 MElemD MElem3 MElem4 MElemE MElem5 MElemF MArxml
  SElem1 SElemA SElemB SElemC SElem2 SElemD SElem3 SElem4 SElemE SElem5 SElemF MFind MValue MEvent MPort MAccess MRunnable MIface MData MConst MParts MPoint MOccur MComp MPack SFit.
Open Scope list_scope.

(** ** Arguments whose objects satisfy F *)
Fixpoint arg_of (F : lib_object -> Prop) (a : arg) : Prop :=
  match a with
  | ANone | ABool _ | AOther => True
  | ANum n => good_number n
  | AStr s => fit_text s
  | AList l | ATuple l => all_ok (arg_of F) l
  | ADict l => all_ok (fun p => fit_text (fst p) /\ arg_of F (snd p)) l
  | AObj o => F o
  end.
(** Keyword arguments: where a float is stored the int or text given for it must be one that a float can hold;
    a text that stands for an alignment or for the index of an axis must not look like an int. *)
Definition keyword_of (F : lib_object -> Prop) (p : string * arg) : Prop :=
  arg_of F (snd p) /\
  (In (fst p) real_keywords -> fit_real (snd p)) /\
  (fst p = "alignment" -> fit_index int0 (snd p)) /\
  (fst p = "sw_axis_index" -> fit_index int10 (snd p)).
Definition keywords_of (F : lib_object -> Prop) (kw : keyword_args) : Prop := Forall (keyword_of F) kw.

(** ** Objects that are not built by the constructors below *)
(** Enumeration values, references, formatted texts, numbers, and a few kinds of objects whose constructors
    are not part of the model.  Administrative data and the service kind of an interface cannot be saved
    (C29). *)
Definition given_object (o : lib_object) : Prop :=
  match o with
  | OLongName e | OOverviewParagraph e => all_ok good_lang e
  | OLanguageLongName e => good_lang e
  | OUnitNames e => good_names e
  | OAnnotation e => good_annotation e
  | ODocumentationBlock e => good_doc e
  | ONumericalValue e => good_value (Wrapped e)
  | OValueSpecification (NumericalValueSpecification _ _ as e) => good_ValueSpecificationElement e
  | OValueSpecification (NotAvailableValueSpecification _ _ as e) => good_ValueSpecificationElement e
  | ODataTypeMap e => good_DataTypeMap e
  | ORef c r => In c all_ref_classes /\ good_ref c r
  | OHandleOutOfRange _ | OHandleOutOfRangeStatus _ | OHandleTimeout _ | OLanguage _ | OVariableAccessScope _ | ORteApiReturnValueProvision _ | OReentrancyLevel _ | OHandleInvalid _ | OArgumentDirection _
  | OServerArgImplPolicy _ | OSwCalibrationAccess _ | OModeErrorReactionPolicy _ | ODisplayPresentation _ | OArrayImplPolicy _ | OArraySizeHandling _ | OArraySizeSemantics _ | OSwImplPolicy _
  | OCalibrationAxisCategory _ | ODataFilterType _ | OTransmissionMode _ | OByteOrder _ | OModeActivationKind _ | OSupportBufferLocking _ | ODataTransformationErrorHandling _ | ODataTransformationStatusForwarding _ => True
  | _ => False
  end.

(** ** One call of a constructor, with arguments whose objects satisfy F *)
Inductive made_from (v : N) (F : lib_object -> Prop) : lib_object -> Prop :=
| by_new_bit_representation kw x : keywords_of F kw -> new_bit_representation kw = Ok x -> made_from v F (OSwBitRepresentation x)
| by_new_text_props kw x : keywords_of F kw -> new_text_props kw = Ok x -> made_from v F (OSwTextProps x)
| by_new_pointer_target_props kw x : keywords_of F kw -> new_pointer_target_props kw = Ok x -> made_from v F (OSwPointerTargetProps x)
| by_new_conditional kw x : keywords_of F kw -> new_conditional kw = Ok x -> made_from v F (OSwDataDefPropsConditional x)
| by_new_symbol_props name kw x : keywords_of F kw -> fit_text name -> new_symbol_props name kw = Ok x -> made_from v F (OSymbolProps x)
| by_new_type_element name kw x : keywords_of F kw -> fit_text name -> no_uuid kw -> new_type_element name kw = Ok x -> made_from v F (OImplementationDataTypeElement x)
| by_new_array_element name kw x : keywords_of F kw -> fit_text name -> no_uuid kw -> new_array_element name kw = Ok x -> made_from v F (OApplicationArrayElement x)
| by_new_record_element name kw x : keywords_of F kw -> fit_text name -> no_uuid kw -> new_record_element name kw = Ok x -> made_from v F (OApplicationRecordElement x)
| by_new_variable name kw x : keywords_of F kw -> fit_text name -> new_variable name kw = Ok x -> made_from v F (OVariableDataPrototype x)
| by_new_parameter name kw x : keywords_of F kw -> fit_text name -> new_parameter name kw = Ok x -> made_from v F (OParameterDataPrototype x)
| by_new_argument name direction kw x : keywords_of F kw -> fit_text name -> new_argument name direction kw = Ok x -> made_from v F (OArgumentDataPrototype x)
| by_new_policy kw x : keywords_of F kw -> new_policy kw = Ok x -> made_from v F (OInvalidationPolicy x)
| by_new_application_error name kw x : keywords_of F kw -> fit_text name -> no_uuid kw -> new_application_error name kw = Ok x -> made_from v F (OApplicationError x)
| by_new_operation name kw x : keywords_of F kw -> fit_text name -> no_uuid kw -> new_operation name kw = Ok x -> made_from v F (OClientServerOperation x)
| by_new_group_prototype name kw x : keywords_of F kw -> fit_text name -> new_group_prototype name kw = Ok x -> made_from v F (OModeDeclarationGroupPrototype x)
| by_new_mode name kw x : keywords_of F kw -> fit_text name -> no_uuid kw -> new_mode name kw = Ok x -> made_from v F (OModeDeclaration x)
| by_new_error_behavior kw x : keywords_of F kw -> new_error_behavior kw = Ok x -> made_from v F (OModeErrorBehavior x)
| by_new_transition name kw x : keywords_of F kw -> fit_text name -> no_uuid kw -> new_transition name kw = Ok x -> made_from v F (OModeTransition x)
| by_new_axis_cont kw x : keywords_of F kw -> new_axis_cont kw = Ok x -> made_from v F (OSwAxisCont x)
| by_new_value_cont kw x : keywords_of F kw -> new_value_cont kw = Ok x -> made_from v F (OSwValueCont x)
| by_init_AutosarEngineeringObject kw x : keywords_of F kw -> init_AutosarEngineeringObject kw = Ok x -> made_from v F (OAutosarEngineeringObject x)
| by_init_Code name kw x : keywords_of F kw -> fit_text name -> init_Code name kw = Ok x -> made_from v F (OCode x)
| by_init_EndToEndTransformationComSpecProps kw x : keywords_of F kw -> init_EndToEndTransformationComSpecProps kw = Ok x -> made_from v F (OEndToEndTransformationComSpecProps x)
| by_init_ModeSwitchedAckRequest kw x : keywords_of F kw -> init_ModeSwitchedAckRequest kw = Ok x -> made_from v F (OModeSwitchedAckRequest x)
| by_init_TransmissionAcknowledgementRequest kw x : keywords_of F kw -> init_TransmissionAcknowledgementRequest kw = Ok x -> made_from v F (OTransmissionAcknowledgementRequest x)
| by_init_TransmissionComSpecProps kw x : keywords_of F kw -> init_TransmissionComSpecProps kw = Ok x -> made_from v F (OTransmissionComSpecProps x)
| by_init_ReceptionComSpecProps kw x : keywords_of F kw -> init_ReceptionComSpecProps kw = Ok x -> made_from v F (OReceptionComSpecProps x)
| by_init_QueuedSenderComSpec kw x : keywords_of F kw -> init_QueuedSenderComSpec kw = Ok x -> made_from v F (OProvidePortComSpec (ProvidePortComSpec_QueuedSenderComSpec x))
| by_init_NonqueuedSenderComSpec kw x : keywords_of F kw -> init_NonqueuedSenderComSpec kw = Ok x -> made_from v F (OProvidePortComSpec (ProvidePortComSpec_NonqueuedSenderComSpec x))
| by_init_ModeSwitchSenderComSpec kw x : keywords_of F kw -> init_ModeSwitchSenderComSpec kw = Ok x -> made_from v F (OProvidePortComSpec (ProvidePortComSpec_ModeSwitchSenderComSpec x))
| by_init_NvProvideComSpec kw x : keywords_of F kw -> init_NvProvideComSpec kw = Ok x -> made_from v F (OProvidePortComSpec (ProvidePortComSpec_NvProvideComSpec x))
| by_init_ParameterProvideComSpec kw x : keywords_of F kw -> init_ParameterProvideComSpec kw = Ok x -> made_from v F (OProvidePortComSpec (ProvidePortComSpec_ParameterProvideComSpec x))
| by_init_ServerComSpec kw x : keywords_of F kw -> init_ServerComSpec kw = Ok x -> made_from v F (OProvidePortComSpec (ProvidePortComSpec_ServerComSpec x))
| by_init_QueuedReceiverComSpec kw x : keywords_of F kw -> init_QueuedReceiverComSpec kw = Ok x -> made_from v F (ORequirePortComSpec (RequirePortComSpec_QueuedReceiverComSpec x))
| by_init_NonqueuedReceiverComSpec kw x : keywords_of F kw -> init_NonqueuedReceiverComSpec kw = Ok x -> made_from v F (ORequirePortComSpec (RequirePortComSpec_NonqueuedReceiverComSpec x))
| by_init_NvRequireComSpec kw x : keywords_of F kw -> init_NvRequireComSpec kw = Ok x -> made_from v F (ORequirePortComSpec (RequirePortComSpec_NvRequireComSpec x))
| by_init_ParameterRequireComSpec kw x : keywords_of F kw -> init_ParameterRequireComSpec kw = Ok x -> made_from v F (ORequirePortComSpec (RequirePortComSpec_ParameterRequireComSpec x))
| by_init_ModeSwitchReceiverComSpec kw x : keywords_of F kw -> init_ModeSwitchReceiverComSpec kw = Ok x -> made_from v F (ORequirePortComSpec (RequirePortComSpec_ModeSwitchReceiverComSpec x))
| by_init_ClientComSpec kw x : keywords_of F kw -> init_ClientComSpec kw = Ok x -> made_from v F (ORequirePortComSpec (RequirePortComSpec_ClientComSpec x))
| by_init_POperationInAtomicSwcInstanceRef kw x : keywords_of F kw -> init_POperationInAtomicSwcInstanceRef kw = Ok x -> made_from v F (OPOperationInAtomicSwcInstanceRef x)
| by_init_PModeGroupInAtomicSwcInstanceRef kw x : keywords_of F kw -> init_PModeGroupInAtomicSwcInstanceRef kw = Ok x -> made_from v F (OModeGroupInAtomicSwcInstanceRef (ModeGroup_P x))
| by_init_PTriggerInAtomicSwcTypeInstanceRef kw x : keywords_of F kw -> init_PTriggerInAtomicSwcTypeInstanceRef kw = Ok x -> made_from v F (OPTriggerInAtomicSwcTypeInstanceRef x)
| by_init_ROperationInAtomicSwcInstanceRef kw x : keywords_of F kw -> init_ROperationInAtomicSwcInstanceRef kw = Ok x -> made_from v F (OROperationInAtomicSwcInstanceRef x)
| by_init_RModeInAtomicSwcInstanceRef kw x : keywords_of F kw -> init_RModeInAtomicSwcInstanceRef kw = Ok x -> made_from v F (ORModeInAtomicSwcInstanceRef x)
| by_init_RModeGroupInAtomicSwcInstanceRef kw x : keywords_of F kw -> init_RModeGroupInAtomicSwcInstanceRef kw = Ok x -> made_from v F (OModeGroupInAtomicSwcInstanceRef (ModeGroup_R x))
| by_init_RVariableInAtomicSwcInstanceRef kw x : keywords_of F kw -> init_RVariableInAtomicSwcInstanceRef kw = Ok x -> made_from v F (ORVariableInAtomicSwcInstanceRef x)
| by_init_RTriggerInAtomicSwcInstanceRef kw x : keywords_of F kw -> init_RTriggerInAtomicSwcInstanceRef kw = Ok x -> made_from v F (ORTriggerInAtomicSwcInstanceRef x)
| by_init_ArVariableInImplementationDataInstanceRef kw x : keywords_of F kw -> init_ArVariableInImplementationDataInstanceRef kw = Ok x -> made_from v F (OArVariableInImplementationDataInstanceRef x)
| by_init_VariableInAtomicSWCTypeInstanceRef kw x : keywords_of F kw -> init_VariableInAtomicSWCTypeInstanceRef kw = Ok x -> made_from v F (OVariableInAtomicSWCTypeInstanceRef x)
| by_init_AutosarVariableRef kw x : keywords_of F kw -> init_AutosarVariableRef kw = Ok x -> made_from v F (OAutosarVariableRef x)
| by_init_ParameterInAtomicSwcTypeInstanceRef kw x : keywords_of F kw -> init_ParameterInAtomicSwcTypeInstanceRef kw = Ok x -> made_from v F (OParameterInAtomicSwcTypeInstanceRef x)
| by_init_AutosarParameterRef kw x : keywords_of F kw -> init_AutosarParameterRef kw = Ok x -> made_from v F (OAutosarParameterRef x)
| by_init_VariableAccess name kw x : keywords_of F kw -> fit_text name -> no_uuid kw -> init_VariableAccess name kw = Ok x -> made_from v F (OVariableAccess x)
| by_init_ExecutableEntityActivationReason name kw x : keywords_of F kw -> fit_text name -> init_ExecutableEntityActivationReason name kw = Ok x -> made_from v F (OExecutableEntityActivationReason x)
| by_init_ExclusiveAreaRefConditional kw x : keywords_of F kw -> init_ExclusiveAreaRefConditional kw = Ok x -> ((v < 50)%N -> ExclusiveAreaRefConditional_exclusive_area x <> None) -> made_from v F (OExclusiveAreaRefConditional x)
| by_init_RunnableEntityArgument kw x : keywords_of F kw -> init_RunnableEntityArgument kw = Ok x -> made_from v F (ORunnableEntityArgument x)
| by_init_AsynchronousServerCallPoint name kw x : keywords_of F kw -> fit_text name -> no_uuid kw -> init_AsynchronousServerCallPoint name kw = Ok x -> made_from v F (OServerCallPoint (ServerCallPointElement_Async x))
| by_init_AsynchronousServerCallResultPoint name kw x : keywords_of F kw -> fit_text name -> no_uuid kw -> init_AsynchronousServerCallResultPoint name kw = Ok x -> made_from v F (OAsynchronousServerCallResultPoint x)
| by_init_SynchronousServerCallPoint name kw x : keywords_of F kw -> fit_text name -> no_uuid kw -> init_SynchronousServerCallPoint name kw = Ok x -> made_from v F (OServerCallPoint (ServerCallPointElement_Sync x))
| by_init_ExternalTriggeringPointIdent name kw x : keywords_of F kw -> fit_text name -> no_uuid kw -> init_ExternalTriggeringPointIdent name kw = Ok x -> made_from v F (OExternalTriggeringPointIdent x)
| by_init_ExternalTriggeringPoint kw x : keywords_of F kw -> init_ExternalTriggeringPoint kw = Ok x -> made_from v F (OExternalTriggeringPoint x)
| by_init_InternalTriggeringPoint name kw x : keywords_of F kw -> fit_text name -> no_uuid kw -> init_InternalTriggeringPoint name kw = Ok x -> made_from v F (OInternalTriggeringPoint x)
| by_init_ModeAccessPointIdent name kw x : keywords_of F kw -> fit_text name -> no_uuid kw -> init_ModeAccessPointIdent name kw = Ok x -> made_from v F (OModeAccessPointIdent x)
| by_init_ModeAccessPoint kw x : keywords_of F kw -> init_ModeAccessPoint kw = Ok x -> made_from v F (OModeAccessPoint x)
| by_init_ModeSwitchPoint name kw x : keywords_of F kw -> fit_text name -> no_uuid kw -> init_ModeSwitchPoint name kw = Ok x -> made_from v F (OModeSwitchPoint x)
| by_init_ParameterAccess name kw x : keywords_of F kw -> fit_text name -> no_uuid kw -> init_ParameterAccess name kw = Ok x -> made_from v F (OParameterAccess x)
| by_init_WaitPoint name kw x : keywords_of F kw -> fit_text name -> no_uuid kw -> init_WaitPoint name kw = Ok x -> made_from v F (OWaitPoint x)
| by_init_AsynchronousServerCallReturnsEvent name kw x : keywords_of F kw -> fit_text name -> no_uuid kw -> init_AsynchronousServerCallReturnsEvent name kw = Ok x -> made_from v F (ORteEvent (RteEvent_AsynchronousServerCallReturnsEvent x))
| by_init_BackgroundEvent name kw x : keywords_of F kw -> fit_text name -> no_uuid kw -> init_BackgroundEvent name kw = Ok x -> made_from v F (ORteEvent (RteEvent_BackgroundEvent x))
| by_init_DataReceiveErrorEvent name kw x : keywords_of F kw -> fit_text name -> no_uuid kw -> init_DataReceiveErrorEvent name kw = Ok x -> made_from v F (ORteEvent (RteEvent_DataReceiveErrorEvent x))
| by_make_DataReceiveErrorEvent name kw x : keywords_of F kw -> fit_text name -> no_uuid kw -> make_DataReceiveErrorEvent name kw = Ok x -> made_from v F (ORteEvent (RteEvent_DataReceiveErrorEvent x))
| by_init_DataReceivedEvent name kw x : keywords_of F kw -> fit_text name -> no_uuid kw -> init_DataReceivedEvent name kw = Ok x -> made_from v F (ORteEvent (RteEvent_DataReceivedEvent x))
| by_make_DataReceivedEvent name kw x : keywords_of F kw -> fit_text name -> no_uuid kw -> make_DataReceivedEvent name kw = Ok x -> made_from v F (ORteEvent (RteEvent_DataReceivedEvent x))
| by_init_DataSendCompletedEvent name kw x : keywords_of F kw -> fit_text name -> no_uuid kw -> init_DataSendCompletedEvent name kw = Ok x -> made_from v F (ORteEvent (RteEvent_DataSendCompletedEvent x))
| by_init_DataWriteCompletedEvent name kw x : keywords_of F kw -> fit_text name -> no_uuid kw -> init_DataWriteCompletedEvent name kw = Ok x -> made_from v F (ORteEvent (RteEvent_DataWriteCompletedEvent x))
| by_init_ExternalTriggerOccurredEvent name kw x : keywords_of F kw -> fit_text name -> no_uuid kw -> init_ExternalTriggerOccurredEvent name kw = Ok x -> made_from v F (ORteEvent (RteEvent_ExternalTriggerOccurredEvent x))
| by_make_ExternalTriggerOccurredEvent name kw x : keywords_of F kw -> fit_text name -> no_uuid kw -> make_ExternalTriggerOccurredEvent name kw = Ok x -> made_from v F (ORteEvent (RteEvent_ExternalTriggerOccurredEvent x))
| by_init_InitEvent name kw x : keywords_of F kw -> fit_text name -> no_uuid kw -> init_InitEvent name kw = Ok x -> made_from v F (ORteEvent (RteEvent_InitEvent x))
| by_init_InternalTriggerOccurredEvent name kw x : keywords_of F kw -> fit_text name -> no_uuid kw -> init_InternalTriggerOccurredEvent name kw = Ok x -> made_from v F (ORteEvent (RteEvent_InternalTriggerOccurredEvent x))
| by_init_ModeSwitchedAckEvent name kw x : keywords_of F kw -> fit_text name -> no_uuid kw -> init_ModeSwitchedAckEvent name kw = Ok x -> made_from v F (ORteEvent (RteEvent_ModeSwitchedAckEvent x))
| by_init_OperationInvokedEvent name kw x : keywords_of F kw -> fit_text name -> no_uuid kw -> init_OperationInvokedEvent name kw = Ok x -> made_from v F (ORteEvent (RteEvent_OperationInvokedEvent x))
| by_make_OperationInvokedEvent name kw x : keywords_of F kw -> fit_text name -> no_uuid kw -> make_OperationInvokedEvent name kw = Ok x -> made_from v F (ORteEvent (RteEvent_OperationInvokedEvent x))
| by_init_SwcModeManagerErrorEvent name kw x : keywords_of F kw -> fit_text name -> no_uuid kw -> init_SwcModeManagerErrorEvent name kw = Ok x -> made_from v F (ORteEvent (RteEvent_SwcModeManagerErrorEvent x))
| by_make_SwcModeManagerErrorEvent name kw x : keywords_of F kw -> fit_text name -> no_uuid kw -> make_SwcModeManagerErrorEvent name kw = Ok x -> made_from v F (ORteEvent (RteEvent_SwcModeManagerErrorEvent x))
| by_init_SwcModeSwitchEvent name kw x : keywords_of F kw -> fit_text name -> no_uuid kw -> init_SwcModeSwitchEvent name kw = Ok x -> made_from v F (ORteEvent (RteEvent_SwcModeSwitchEvent x))
| by_make_SwcModeSwitchEvent name kw x : keywords_of F kw -> fit_text name -> no_uuid kw -> make_SwcModeSwitchEvent name kw = Ok x -> made_from v F (ORteEvent (RteEvent_SwcModeSwitchEvent x))
| by_init_TimingEvent name kw x : keywords_of F kw -> fit_text name -> no_uuid kw -> init_TimingEvent name kw = Ok x -> made_from v F (ORteEvent (RteEvent_TimingEvent x))
| by_init_TransformerHardErrorEvent name kw x : keywords_of F kw -> fit_text name -> no_uuid kw -> init_TransformerHardErrorEvent name kw = Ok x -> made_from v F (ORteEvent (RteEvent_TransformerHardErrorEvent x))
| by_init_PortDefinedArgumentValue kw x : keywords_of F kw -> init_PortDefinedArgumentValue kw = Ok x -> made_from v F (OPortDefinedArgumentValue x)
| by_init_CommunicationBufferLocking kw x : keywords_of F kw -> init_CommunicationBufferLocking kw = Ok x -> made_from v F (OCommunicationBufferLocking x)
| by_init_PortApiOption kw x : keywords_of F kw -> init_PortApiOption kw = Ok x -> made_from v F (OPortApiOption x)
| by_init_ProvidePortPrototype name kw x : keywords_of F kw -> fit_text name -> no_uuid kw -> init_ProvidePortPrototype name kw = Ok x -> made_from v F (OPortPrototype (PortPrototypeElement_P x))
| by_init_RequirePortPrototype name kw x : keywords_of F kw -> fit_text name -> no_uuid kw -> init_RequirePortPrototype name kw = Ok x -> made_from v F (OPortPrototype (PortPrototypeElement_R x))
| by_init_SwComponentPrototype name kw x : keywords_of F kw -> fit_text name -> no_uuid kw -> init_SwComponentPrototype name kw = Ok x -> made_from v F (OSwComponentPrototype x)
| by_init_PassThroughSwConnector name kw x : keywords_of F kw -> fit_text name -> no_uuid kw -> init_PassThroughSwConnector name kw = Ok x -> made_from v F (OSwConnector (SwConnectorElement_PassThrough x))
| by_init_DataFilter kw x : not_negative (kwarg "offset" kw) -> not_negative (kwarg "period" kw) -> init_DataFilter kw = Ok x -> made_from v F (ODataFilter x)
| by_new_props a x : arg_of F a -> new_props a = Ok x -> made_from v F (OSwDataDefProps x)
| by_make_value_list a x : arg_of F a -> make_value_list a = Ok x -> made_from v F (OValueList x)
| by_make_sw_values a x : arg_of F a -> make_sw_values a = Ok x -> made_from v F (OSwValues x)
| by_new_text_value label a x : opt_ok good_text label -> arg_of F a -> new_text_value label a = Ok x -> made_from v F (OValueSpecification x)
| by_new_array_value label a x : opt_ok good_text label -> arg_of F a -> new_array_value label a = Ok x -> made_from v F (OValueSpecification x)
| by_new_record_value label a x : opt_ok good_text label -> arg_of F a -> new_record_value label a = Ok x -> made_from v F (OValueSpecification x)
| by_new_application_value label kw x : opt_ok good_text label -> keywords_of F kw -> new_application_value label kw = Ok x -> made_from v F (OValueSpecification x)
| by_new_constant_reference label a x : opt_ok good_text label -> arg_of F a -> new_constant_reference label a = Ok x -> made_from v F (OValueSpecification x)
| by_init_AssemblySwConnector name kw x : keywords_of F kw -> fit_text name -> no_uuid kw -> leads_to provide_dests (kwarg "provide_port" kw) -> leads_to require_dests (kwarg "require_port" kw) -> init_AssemblySwConnector name kw = Ok x -> made_from v F (OSwConnector (SwConnectorElement_Assembly x))
| by_init_DelegationSwConnector name kw x : keywords_of F kw -> fit_text name -> no_uuid kw -> leads_to (provide_dests ++ require_dests)%list (kwarg "inner_port" kw) -> port_is_named (kwarg "inner_port" kw) -> init_DelegationSwConnector name kw = Ok x -> made_from v F (OSwConnector (SwConnectorElement_Delegation x))
| by_init_PRPortPrototype name kw x : keywords_of F kw -> fit_text name -> no_uuid kw -> init_PRPortPrototype name kw = Ok x -> (PRPortPrototype_provided_com_spec x = [] \/ PRPortPrototype_required_com_spec x <> []) -> made_from v F (OPortPrototype (PortPrototypeElement_PR x))
| by_new_runnable name kw x : keywords_of F kw -> fit_text name -> no_uuid kw -> new_runnable name kw = Ok x -> distinct_points x -> made_from v F (ORunnableEntity x)
| by_new_behavior name kw x : keywords_of F kw -> fit_text name -> no_uuid kw -> new_behavior name kw = Ok x -> made_from v F (OSwcInternalBehavior x)
| by_value_group kw label values : keywords_of F kw -> new_value_group kw = Ok (label, values) -> made_from v F (OValueGroup label values)
| by_init_PortInCompositionTypeInstanceRef kw x : keywords_of F kw -> init_PortInCompositionTypeInstanceRef kw = Ok x -> made_from v F (OPortInCompositionTypeInstanceRef x)
| by_create_exclusive_area b b' name kw x : keywords_of F kw -> fit_text name -> no_uuid kw -> create_exclusive_area b name kw = (b', Ok x) -> made_from v F (OExclusiveArea x).

(** ** Any number of calls: objects of depth at most n *)
Fixpoint built (v : N) (n : nat) (o : lib_object) : Prop :=
  match n with
  | 0%nat => given_object o
  | S n => built v n o \/ made_from v (built v n) o
  end.
Definition built_keywords (v : N) (kw : keyword_args) : Prop := exists n, keywords_of (built v n) kw.

(** ** Elements of packages *)
(** The constructors of computation methods, data constraints and base types store their arguments as they are
    (element.py:1116-1283, 1289-1451, 1564-1602); such elements are described by the condition on their parts. *)
Inductive made_element (v : N) : ARElement -> Prop :=
| el_CompuMethod e : good_CompuMethod e -> made_element v (AR_CompuMethod e)
| el_DataConstraint e : good_DataConstraint e -> made_element v (AR_DataConstraint e)
| el_SwBaseType e : good_SwBaseType e -> made_element v (AR_SwBaseType e)
| el_SwAddrMethod name kw x : built_keywords v kw -> fit_text name -> new_addr_method name kw = Ok x -> made_element v (AR_SwAddrMethod x)
| el_Unit name kw u x : built_keywords v kw -> fit_text name -> new_unit name kw = Ok u -> unit_of u = Some x -> made_element v (AR_Unit x)
| el_ImplementationDataType name kw x : built_keywords v kw -> fit_text name -> no_uuid kw -> new_implementation_type name kw = Ok x -> made_element v (AR_ImplementationDataType x)
| el_ApplicationPrimitiveDataType name kw x : built_keywords v kw -> fit_text name -> no_uuid kw -> new_primitive_type name kw = Ok x -> made_element v (AR_ApplicationPrimitiveDataType x)
| el_ApplicationArrayDataType name kw x : built_keywords v kw -> fit_text name -> no_uuid kw -> new_array_type name kw = Ok x -> made_element v (AR_ApplicationArrayDataType x)
| el_ApplicationRecordDataType name kw x : built_keywords v kw -> fit_text name -> no_uuid kw -> new_record_type name kw = Ok x -> made_element v (AR_ApplicationRecordDataType x)
| el_DataTypeMappingSet name kw x : built_keywords v kw -> fit_text name -> new_mapping_set name kw = Ok x -> made_element v (AR_DataTypeMappingSet x)
| el_SenderReceiverInterface name kw x : built_keywords v kw -> fit_text name -> no_uuid kw -> new_sender_receiver_interface name kw = Ok x -> made_element v (AR_SenderReceiverInterface x)
| el_NvDataInterface name kw x : built_keywords v kw -> fit_text name -> no_uuid kw -> new_nv_data_interface name kw = Ok x -> made_element v (AR_NvDataInterface x)
| el_ParameterInterface name kw x : built_keywords v kw -> fit_text name -> no_uuid kw -> new_parameter_interface name kw = Ok x -> made_element v (AR_ParameterInterface x)
| el_ModeSwitchInterface name kw x : built_keywords v kw -> fit_text name -> no_uuid kw -> new_mode_switch_interface name kw = Ok x -> made_element v (AR_ModeSwitchInterface x)
| el_ClientServerInterface name kw x : built_keywords v kw -> fit_text name -> no_uuid kw -> new_client_server_interface name kw = Ok x -> made_element v (AR_ClientServerInterface x)
| el_ModeDeclarationGroup name kw x : built_keywords v kw -> fit_text name -> new_mode_declaration_group name kw = Ok x -> made_element v (AR_ModeDeclarationGroup x)
| el_ConstantSpecification name kw x : built_keywords v kw -> fit_text name -> new_constant name kw = Ok x -> made_element v (AR_ConstantSpecification x)
| el_SwcImplementation name kw x : built_keywords v kw -> fit_text name -> no_uuid kw -> init_SwcImplementation name kw = Ok x -> made_element v (AR_SwcImplementation x)
| el_E2EProfileCompatibilityProps name kw x : built_keywords v kw -> fit_text name -> no_uuid kw -> init_E2EProfileCompatibilityProps name kw = Ok x -> made_element v (AR_E2EProfileCompatibilityProps x)
| el_ApplicationSoftwareComponentType name kw x : built_keywords v kw -> fit_text name -> no_uuid kw -> init_ApplicationSoftwareComponentType name kw = Ok x -> made_element v (AR_ApplicationSoftwareComponentType x)
| el_CompositionSwComponentType name kw x : built_keywords v kw -> fit_text name -> no_uuid kw -> init_CompositionSwComponentType name kw = Ok x -> made_element v (AR_CompositionSwComponentType x)
(** component.internal_behavior = behavior; create_internal_behavior does the same with a new behavior *)
| el_behavior n c b : made_element v (AR_ApplicationSoftwareComponentType c) -> built v n (OSwcInternalBehavior b) ->
    made_element v (AR_ApplicationSoftwareComponentType (set_internal_behavior c b)).

(** ** Packages and documents: made empty, then filled by append *)
Inductive built_package (v : N) : package -> Prop :=
| pk_new name kw p : built_keywords v kw -> fit_text name -> new_package name kw = Ok p -> built_package v p
| pk_element p e p' : built_package v p -> made_element v e -> append_element p e = Ok p' -> built_package v p'
| pk_package p q p' : built_package v p -> built_package v q -> append_package p q = Ok p' -> built_package v p'.
Inductive built_packages (v : N) : list package -> Prop :=
| pks_none : built_packages v []
| pks_append l p l' : built_packages v l -> built_package v p -> collection_append l p = Ok l' -> built_packages v l'.
Definition built_document (d : document) : Prop := built_packages (doc_schema_version d) (doc_packages d).
