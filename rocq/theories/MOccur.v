(** Creating events and port API options.
    Source: /repo/src/autosar/xml/element.py and xml/base.py.  No proofs in this file.
    Positional arguments other than the name are passed as keywords.  Objects are values; functions
    that change one return the changed value. *)
From Verif Require Import Base MNum MXml MEnum MRefTab MRef MCodec MElem0 MElem1 MElemA MElemB MElemC MElem2 MElemD MElem3 MElem4 MElemE MElem5 MElemF MArxml MFind MValue MEvent MPort MAccess MRunnable MIface MData MConst MParts MPoint.
Open Scope list_scope.

(** ** Classes of arguments *)
(** isinstance(value, RModeInAtomicSwcInstanceRef), xml/base.py:102-110 *)
Definition RModeInAtomicSwcInstanceRef_object (o : lib_object) : option RModeInAtomicSwcInstanceRef := match o with ORModeInAtomicSwcInstanceRef e => Some e | _ => None end.
(** isinstance(value, RVariableInAtomicSwcInstanceRef), xml/base.py:102-110 *)
Definition RVariableInAtomicSwcInstanceRef_object (o : lib_object) : option RVariableInAtomicSwcInstanceRef := match o with ORVariableInAtomicSwcInstanceRef e => Some e | _ => None end.
(** isinstance(value, RTriggerInAtomicSwcInstanceRef), xml/base.py:102-110 *)
Definition RTriggerInAtomicSwcInstanceRef_object (o : lib_object) : option RTriggerInAtomicSwcInstanceRef := match o with ORTriggerInAtomicSwcInstanceRef e => Some e | _ => None end.
(** isinstance(value, POperationInAtomicSwcInstanceRef), xml/base.py:102-110 *)
Definition POperationInAtomicSwcInstanceRef_object (o : lib_object) : option POperationInAtomicSwcInstanceRef := match o with OPOperationInAtomicSwcInstanceRef e => Some e | _ => None end.
(** isinstance(value, ModeActivationKind), xml/base.py:102-110 *)
Definition ModeActivationKind_object (o : lib_object) : option ModeActivationKind := match o with OModeActivationKind e => Some e | _ => None end.
(** isinstance(value, SupportBufferLocking), xml/base.py:102-110 *)
Definition SupportBufferLocking_object (o : lib_object) : option SupportBufferLocking := match o with OSupportBufferLocking e => Some e | _ => None end.
(** isinstance(value, DataTransformationErrorHandling), xml/base.py:102-110 *)
Definition DataTransformationErrorHandling_object (o : lib_object) : option DataTransformationErrorHandling := match o with ODataTransformationErrorHandling e => Some e | _ => None end.
(** isinstance(value, DataTransformationStatusForwarding), xml/base.py:102-110 *)
Definition DataTransformationStatusForwarding_object (o : lib_object) : option DataTransformationStatusForwarding := match o with ODataTransformationStatusForwarding e => Some e | _ => None end.
(** isinstance(value, PortDefinedArgumentValue), xml/base.py:102-110 *)
Definition PortDefinedArgumentValue_object (o : lib_object) : option PortDefinedArgumentValue := match o with OPortDefinedArgumentValue e => Some e | _ => None end.
(** isinstance(value, CommunicationBufferLocking), xml/base.py:102-110 *)
Definition CommunicationBufferLocking_object (o : lib_object) : option CommunicationBufferLocking := match o with OCommunicationBufferLocking e => Some e | _ => None end.
(** The argument mode, element.py:7563-7574: one mode or a tuple.  Simplification: what follows the
    second element of a tuple is kept in the object but never looked at, writer.py:4784-4791, and is
    left out here. *)
Definition switch_mode_of (a : arg) : result SwitchMode :=
  match a with
  | AObj o => match RModeInAtomicSwcInstanceRef_object o with Some m => Ok (OneMode m) | None => Err TypeError end
  | ATuple [] => Err IndexError
  | ATuple [x] => let* _ := strict RModeInAtomicSwcInstanceRef_object x in Err IndexError
  | ATuple (x :: y :: _) => let* m := strict RModeInAtomicSwcInstanceRef_object x in let* n := strict RModeInAtomicSwcInstanceRef_object y in Ok (TwoModes m n)
  | _ => Err TypeError
  end.

(** ** Events *)
(** AsynchronousServerCallReturnsEvent.__init__, element.py:7163-7171, 7128-7145 *)
Definition init_AsynchronousServerCallReturnsEvent (name : string) (kw : keyword_args) : result AsynchronousServerCallReturnsEvent :=
  let* _ := check_keywords (["start_on_event"; "event_source"; "disabled_modes"] ++ identifiable_keywords) kw in
  let* ident := new_identifiable name kw in
  let* v_disabled_modes := lenient (strict RModeInAtomicSwcInstanceRef_object) (kwarg "disabled_modes" kw) in
  let* v_start_on_event := opt_ref rc_RunnableEntityRef (kwarg "start_on_event" kw) in
  let* v_event_source := opt_ref rc_AsynchronousServerCallResultPointRef (kwarg "event_source" kw) in
  Ok (mkAsynchronousServerCallReturnsEvent ident v_disabled_modes v_start_on_event v_event_source).
(** RteEvent.append_disabled_mode, element.py:7147-7154 *)
Definition append_AsynchronousServerCallReturnsEvent_disabled_modes (x : AsynchronousServerCallReturnsEvent) (a : arg) : result AsynchronousServerCallReturnsEvent :=
  let* e := strict RModeInAtomicSwcInstanceRef_object a in Ok (mkAsynchronousServerCallReturnsEvent (AsynchronousServerCallReturnsEvent_ident x) (AsynchronousServerCallReturnsEvent_disabled_modes x ++ [e]) (AsynchronousServerCallReturnsEvent_start_on_event x) (AsynchronousServerCallReturnsEvent_event_source x)).
(** BackgroundEvent.__init__, element.py:7128-7145 *)
Definition init_BackgroundEvent (name : string) (kw : keyword_args) : result BackgroundEvent :=
  let* _ := check_keywords (["start_on_event"; "disabled_modes"] ++ identifiable_keywords) kw in
  let* ident := new_identifiable name kw in
  let* v_disabled_modes := lenient (strict RModeInAtomicSwcInstanceRef_object) (kwarg "disabled_modes" kw) in
  let* v_start_on_event := opt_ref rc_RunnableEntityRef (kwarg "start_on_event" kw) in
  Ok (mkBackgroundEvent ident v_disabled_modes v_start_on_event).
(** RteEvent.append_disabled_mode, element.py:7147-7154 *)
Definition append_BackgroundEvent_disabled_modes (x : BackgroundEvent) (a : arg) : result BackgroundEvent :=
  let* e := strict RModeInAtomicSwcInstanceRef_object a in Ok (mkBackgroundEvent (BackgroundEvent_ident x) (BackgroundEvent_disabled_modes x ++ [e]) (BackgroundEvent_start_on_event x)).
(** DataReceiveErrorEvent.__init__, element.py:7208-7216, 7128-7145 *)
Definition init_DataReceiveErrorEvent (name : string) (kw : keyword_args) : result DataReceiveErrorEvent :=
  let* _ := check_keywords (["start_on_event"; "data"; "disabled_modes"] ++ identifiable_keywords) kw in
  let* ident := new_identifiable name kw in
  let* v_disabled_modes := lenient (strict RModeInAtomicSwcInstanceRef_object) (kwarg "disabled_modes" kw) in
  let* v_start_on_event := opt_ref rc_RunnableEntityRef (kwarg "start_on_event" kw) in
  let* v_data := optional (strict RVariableInAtomicSwcInstanceRef_object) (kwarg "data" kw) in
  Ok (mkDataReceiveErrorEvent ident v_disabled_modes v_start_on_event v_data).
(** DataReceiveErrorEvent.make, element.py:7219-7232, with RVariableInAtomicSwcInstanceRef.__init__, 5686-5696, and DataReceiveErrorEvent.__init__, 7208-7216, 7128-7145 *)
Definition make_DataReceiveErrorEvent (name : string) (kw : keyword_args) : result DataReceiveErrorEvent :=
  let* _ := no_clash ["cls"] kw in
  let* p_context_port := opt_ref rc_AbstractRequiredPortPrototypeRef (kwarg "context_port" kw) in
  let* p_target_data_element := opt_ref rc_VariableDataPrototypeRef (kwarg "target_data_element" kw) in
  let* _ := check_keywords (["start_on_event"; "context_port"; "target_data_element"; "disabled_modes"] ++ identifiable_keywords) kw in
  let* ident := new_identifiable name kw in
  let* v_disabled_modes := lenient (strict RModeInAtomicSwcInstanceRef_object) (kwarg "disabled_modes" kw) in
  let* v_start_on_event := opt_ref rc_RunnableEntityRef (kwarg "start_on_event" kw) in
  Ok (mkDataReceiveErrorEvent ident v_disabled_modes v_start_on_event (Some ((mkRVariableInAtomicSwcInstanceRef p_context_port p_target_data_element)))).
(** RteEvent.append_disabled_mode, element.py:7147-7154 *)
Definition append_DataReceiveErrorEvent_disabled_modes (x : DataReceiveErrorEvent) (a : arg) : result DataReceiveErrorEvent :=
  let* e := strict RModeInAtomicSwcInstanceRef_object a in Ok (mkDataReceiveErrorEvent (DataReceiveErrorEvent_ident x) (DataReceiveErrorEvent_disabled_modes x ++ [e]) (DataReceiveErrorEvent_start_on_event x) (DataReceiveErrorEvent_data x)).
(** DataReceivedEvent.__init__, element.py:7251-7259, 7128-7145 *)
Definition init_DataReceivedEvent (name : string) (kw : keyword_args) : result DataReceivedEvent :=
  let* _ := check_keywords (["start_on_event"; "data"; "disabled_modes"] ++ identifiable_keywords) kw in
  let* ident := new_identifiable name kw in
  let* v_disabled_modes := lenient (strict RModeInAtomicSwcInstanceRef_object) (kwarg "disabled_modes" kw) in
  let* v_start_on_event := opt_ref rc_RunnableEntityRef (kwarg "start_on_event" kw) in
  let* v_data := optional (strict RVariableInAtomicSwcInstanceRef_object) (kwarg "data" kw) in
  Ok (mkDataReceivedEvent ident v_disabled_modes v_start_on_event v_data).
(** DataReceivedEvent.make, element.py:7262-7275, with RVariableInAtomicSwcInstanceRef.__init__, 5686-5696, and DataReceivedEvent.__init__, 7251-7259, 7128-7145 *)
Definition make_DataReceivedEvent (name : string) (kw : keyword_args) : result DataReceivedEvent :=
  let* _ := no_clash ["cls"] kw in
  let* p_context_port := opt_ref rc_AbstractRequiredPortPrototypeRef (kwarg "context_port" kw) in
  let* p_target_data_element := opt_ref rc_VariableDataPrototypeRef (kwarg "target_data_element" kw) in
  let* _ := check_keywords (["start_on_event"; "context_port"; "target_data_element"; "disabled_modes"] ++ identifiable_keywords) kw in
  let* ident := new_identifiable name kw in
  let* v_disabled_modes := lenient (strict RModeInAtomicSwcInstanceRef_object) (kwarg "disabled_modes" kw) in
  let* v_start_on_event := opt_ref rc_RunnableEntityRef (kwarg "start_on_event" kw) in
  Ok (mkDataReceivedEvent ident v_disabled_modes v_start_on_event (Some ((mkRVariableInAtomicSwcInstanceRef p_context_port p_target_data_element)))).
(** RteEvent.append_disabled_mode, element.py:7147-7154 *)
Definition append_DataReceivedEvent_disabled_modes (x : DataReceivedEvent) (a : arg) : result DataReceivedEvent :=
  let* e := strict RModeInAtomicSwcInstanceRef_object a in Ok (mkDataReceivedEvent (DataReceivedEvent_ident x) (DataReceivedEvent_disabled_modes x ++ [e]) (DataReceivedEvent_start_on_event x) (DataReceivedEvent_data x)).
(** DataSendCompletedEvent.__init__, element.py:7294-7302, 7128-7145 *)
Definition init_DataSendCompletedEvent (name : string) (kw : keyword_args) : result DataSendCompletedEvent :=
  let* _ := check_keywords (["start_on_event"; "event_source"; "disabled_modes"] ++ identifiable_keywords) kw in
  let* ident := new_identifiable name kw in
  let* v_disabled_modes := lenient (strict RModeInAtomicSwcInstanceRef_object) (kwarg "disabled_modes" kw) in
  let* v_start_on_event := opt_ref rc_RunnableEntityRef (kwarg "start_on_event" kw) in
  let* v_event_source := opt_ref rc_VariableAccessRef (kwarg "event_source" kw) in
  Ok (mkDataSendCompletedEvent ident v_disabled_modes v_start_on_event v_event_source).
(** RteEvent.append_disabled_mode, element.py:7147-7154 *)
Definition append_DataSendCompletedEvent_disabled_modes (x : DataSendCompletedEvent) (a : arg) : result DataSendCompletedEvent :=
  let* e := strict RModeInAtomicSwcInstanceRef_object a in Ok (mkDataSendCompletedEvent (DataSendCompletedEvent_ident x) (DataSendCompletedEvent_disabled_modes x ++ [e]) (DataSendCompletedEvent_start_on_event x) (DataSendCompletedEvent_event_source x)).
(** DataWriteCompletedEvent.__init__, element.py:7321-7329, 7128-7145 *)
Definition init_DataWriteCompletedEvent (name : string) (kw : keyword_args) : result DataWriteCompletedEvent :=
  let* _ := check_keywords (["start_on_event"; "event_source"; "disabled_modes"] ++ identifiable_keywords) kw in
  let* ident := new_identifiable name kw in
  let* v_disabled_modes := lenient (strict RModeInAtomicSwcInstanceRef_object) (kwarg "disabled_modes" kw) in
  let* v_start_on_event := opt_ref rc_RunnableEntityRef (kwarg "start_on_event" kw) in
  let* v_event_source := opt_ref rc_VariableAccessRef (kwarg "event_source" kw) in
  Ok (mkDataWriteCompletedEvent ident v_disabled_modes v_start_on_event v_event_source).
(** RteEvent.append_disabled_mode, element.py:7147-7154 *)
Definition append_DataWriteCompletedEvent_disabled_modes (x : DataWriteCompletedEvent) (a : arg) : result DataWriteCompletedEvent :=
  let* e := strict RModeInAtomicSwcInstanceRef_object a in Ok (mkDataWriteCompletedEvent (DataWriteCompletedEvent_ident x) (DataWriteCompletedEvent_disabled_modes x ++ [e]) (DataWriteCompletedEvent_start_on_event x) (DataWriteCompletedEvent_event_source x)).
(** ExternalTriggerOccurredEvent.__init__, element.py:7348-7356, 7128-7145 *)
Definition init_ExternalTriggerOccurredEvent (name : string) (kw : keyword_args) : result ExternalTriggerOccurredEvent :=
  let* _ := check_keywords (["start_on_event"; "trigger"; "disabled_modes"] ++ identifiable_keywords) kw in
  let* ident := new_identifiable name kw in
  let* v_disabled_modes := lenient (strict RModeInAtomicSwcInstanceRef_object) (kwarg "disabled_modes" kw) in
  let* v_start_on_event := opt_ref rc_RunnableEntityRef (kwarg "start_on_event" kw) in
  let* v_trigger := optional (strict RTriggerInAtomicSwcInstanceRef_object) (kwarg "trigger" kw) in
  Ok (mkExternalTriggerOccurredEvent ident v_disabled_modes v_start_on_event v_trigger).
(** ExternalTriggerOccurredEvent.make, element.py:7359-7369, with RTriggerInAtomicSwcInstanceRef.__init__, 5705-5715, and ExternalTriggerOccurredEvent.__init__, 7348-7356, 7128-7145 *)
Definition make_ExternalTriggerOccurredEvent (name : string) (kw : keyword_args) : result ExternalTriggerOccurredEvent :=
  let* _ := no_clash ["cls"] kw in
  let* p_context_port := opt_ref rc_AbstractRequiredPortPrototypeRef (kwarg "context_port" kw) in
  let* p_target_trigger := opt_ref rc_TriggerRef (kwarg "target_trigger" kw) in
  let* _ := check_keywords (["start_on_event"; "context_port"; "target_trigger"; "disabled_modes"] ++ identifiable_keywords) kw in
  let* ident := new_identifiable name kw in
  let* v_disabled_modes := lenient (strict RModeInAtomicSwcInstanceRef_object) (kwarg "disabled_modes" kw) in
  let* v_start_on_event := opt_ref rc_RunnableEntityRef (kwarg "start_on_event" kw) in
  Ok (mkExternalTriggerOccurredEvent ident v_disabled_modes v_start_on_event (Some ((mkRTriggerInAtomicSwcInstanceRef p_context_port p_target_trigger)))).
(** RteEvent.append_disabled_mode, element.py:7147-7154 *)
Definition append_ExternalTriggerOccurredEvent_disabled_modes (x : ExternalTriggerOccurredEvent) (a : arg) : result ExternalTriggerOccurredEvent :=
  let* e := strict RModeInAtomicSwcInstanceRef_object a in Ok (mkExternalTriggerOccurredEvent (ExternalTriggerOccurredEvent_ident x) (ExternalTriggerOccurredEvent_disabled_modes x ++ [e]) (ExternalTriggerOccurredEvent_start_on_event x) (ExternalTriggerOccurredEvent_trigger x)).
(** InitEvent.__init__, element.py:7128-7145 *)
Definition init_InitEvent (name : string) (kw : keyword_args) : result InitEvent :=
  let* _ := check_keywords (["start_on_event"; "disabled_modes"] ++ identifiable_keywords) kw in
  let* ident := new_identifiable name kw in
  let* v_disabled_modes := lenient (strict RModeInAtomicSwcInstanceRef_object) (kwarg "disabled_modes" kw) in
  let* v_start_on_event := opt_ref rc_RunnableEntityRef (kwarg "start_on_event" kw) in
  Ok (mkInitEvent ident v_disabled_modes v_start_on_event).
(** RteEvent.append_disabled_mode, element.py:7147-7154 *)
Definition append_InitEvent_disabled_modes (x : InitEvent) (a : arg) : result InitEvent :=
  let* e := strict RModeInAtomicSwcInstanceRef_object a in Ok (mkInitEvent (InitEvent_ident x) (InitEvent_disabled_modes x ++ [e]) (InitEvent_start_on_event x)).
(** InternalTriggerOccurredEvent.__init__, element.py:7406-7414, 7128-7145 *)
Definition init_InternalTriggerOccurredEvent (name : string) (kw : keyword_args) : result InternalTriggerOccurredEvent :=
  let* _ := check_keywords (["start_on_event"; "event_source"; "disabled_modes"] ++ identifiable_keywords) kw in
  let* ident := new_identifiable name kw in
  let* v_disabled_modes := lenient (strict RModeInAtomicSwcInstanceRef_object) (kwarg "disabled_modes" kw) in
  let* v_start_on_event := opt_ref rc_RunnableEntityRef (kwarg "start_on_event" kw) in
  let* v_event_source := opt_ref rc_InternalTriggeringPointRef (kwarg "event_source" kw) in
  Ok (mkInternalTriggerOccurredEvent ident v_disabled_modes v_start_on_event v_event_source).
(** RteEvent.append_disabled_mode, element.py:7147-7154 *)
Definition append_InternalTriggerOccurredEvent_disabled_modes (x : InternalTriggerOccurredEvent) (a : arg) : result InternalTriggerOccurredEvent :=
  let* e := strict RModeInAtomicSwcInstanceRef_object a in Ok (mkInternalTriggerOccurredEvent (InternalTriggerOccurredEvent_ident x) (InternalTriggerOccurredEvent_disabled_modes x ++ [e]) (InternalTriggerOccurredEvent_start_on_event x) (InternalTriggerOccurredEvent_event_source x)).
(** ModeSwitchedAckEvent.__init__, element.py:7433-7441, 7128-7145 *)
Definition init_ModeSwitchedAckEvent (name : string) (kw : keyword_args) : result ModeSwitchedAckEvent :=
  let* _ := check_keywords (["start_on_event"; "event_source"; "disabled_modes"] ++ identifiable_keywords) kw in
  let* ident := new_identifiable name kw in
  let* v_disabled_modes := lenient (strict RModeInAtomicSwcInstanceRef_object) (kwarg "disabled_modes" kw) in
  let* v_start_on_event := opt_ref rc_RunnableEntityRef (kwarg "start_on_event" kw) in
  let* v_event_source := opt_ref rc_ModeSwitchPointRef (kwarg "event_source" kw) in
  Ok (mkModeSwitchedAckEvent ident v_disabled_modes v_start_on_event v_event_source).
(** RteEvent.append_disabled_mode, element.py:7147-7154 *)
Definition append_ModeSwitchedAckEvent_disabled_modes (x : ModeSwitchedAckEvent) (a : arg) : result ModeSwitchedAckEvent :=
  let* e := strict RModeInAtomicSwcInstanceRef_object a in Ok (mkModeSwitchedAckEvent (ModeSwitchedAckEvent_ident x) (ModeSwitchedAckEvent_disabled_modes x ++ [e]) (ModeSwitchedAckEvent_start_on_event x) (ModeSwitchedAckEvent_event_source x)).
(** OperationInvokedEvent.__init__, element.py:7460-7468, 7128-7145 *)
Definition init_OperationInvokedEvent (name : string) (kw : keyword_args) : result OperationInvokedEvent :=
  let* _ := check_keywords (["start_on_event"; "operation"; "disabled_modes"] ++ identifiable_keywords) kw in
  let* ident := new_identifiable name kw in
  let* v_disabled_modes := lenient (strict RModeInAtomicSwcInstanceRef_object) (kwarg "disabled_modes" kw) in
  let* v_start_on_event := opt_ref rc_RunnableEntityRef (kwarg "start_on_event" kw) in
  let* v_operation := optional (strict POperationInAtomicSwcInstanceRef_object) (kwarg "operation" kw) in
  Ok (mkOperationInvokedEvent ident v_disabled_modes v_start_on_event v_operation).
(** OperationInvokedEvent.make, element.py:7471-7484, with POperationInAtomicSwcInstanceRef.__init__, 5565-5574, and OperationInvokedEvent.__init__, 7460-7468, 7128-7145 *)
Definition make_OperationInvokedEvent (name : string) (kw : keyword_args) : result OperationInvokedEvent :=
  let* _ := no_clash ["cls"] kw in
  let* p_context_port := opt_ref rc_AbstractProvidedPortPrototypeRef (kwarg "context_port" kw) in
  let* p_target_provided_operation := opt_ref rc_ClientServerOperationRef (kwarg "target_provided_operation" kw) in
  let* _ := check_keywords (["start_on_event"; "context_port"; "target_provided_operation"; "disabled_modes"] ++ identifiable_keywords) kw in
  let* ident := new_identifiable name kw in
  let* v_disabled_modes := lenient (strict RModeInAtomicSwcInstanceRef_object) (kwarg "disabled_modes" kw) in
  let* v_start_on_event := opt_ref rc_RunnableEntityRef (kwarg "start_on_event" kw) in
  Ok (mkOperationInvokedEvent ident v_disabled_modes v_start_on_event (Some ((mkPOperationInAtomicSwcInstanceRef p_context_port p_target_provided_operation)))).
(** RteEvent.append_disabled_mode, element.py:7147-7154 *)
Definition append_OperationInvokedEvent_disabled_modes (x : OperationInvokedEvent) (a : arg) : result OperationInvokedEvent :=
  let* e := strict RModeInAtomicSwcInstanceRef_object a in Ok (mkOperationInvokedEvent (OperationInvokedEvent_ident x) (OperationInvokedEvent_disabled_modes x ++ [e]) (OperationInvokedEvent_start_on_event x) (OperationInvokedEvent_operation x)).
(** SwcModeManagerErrorEvent.__init__, element.py:7508-7516, 7128-7145 *)
Definition init_SwcModeManagerErrorEvent (name : string) (kw : keyword_args) : result SwcModeManagerErrorEvent :=
  let* _ := check_keywords (["start_on_event"; "mode_group"; "disabled_modes"] ++ identifiable_keywords) kw in
  let* ident := new_identifiable name kw in
  let* v_disabled_modes := lenient (strict RModeInAtomicSwcInstanceRef_object) (kwarg "disabled_modes" kw) in
  let* v_start_on_event := opt_ref rc_RunnableEntityRef (kwarg "start_on_event" kw) in
  let* v_mode_group := optional (strict PModeGroupInAtomicSwcInstanceRef_object) (kwarg "mode_group" kw) in
  Ok (mkSwcModeManagerErrorEvent ident v_disabled_modes v_start_on_event v_mode_group).
(** SwcModeManagerErrorEvent.make, element.py:7519-7529, with PModeGroupInAtomicSwcInstanceRef.__init__, 5584-5596, and SwcModeManagerErrorEvent.__init__, 7508-7516, 7128-7145 *)
Definition make_SwcModeManagerErrorEvent (name : string) (kw : keyword_args) : result SwcModeManagerErrorEvent :=
  let* _ := no_clash ["cls"] kw in
  let* p_context_port := opt_ref rc_AbstractProvidedPortPrototypeRef (kwarg "context_port" kw) in
  let* p_target_mode_group := opt_ref rc_ModeDeclarationGroupPrototypeRef (kwarg "context_mode_declaration_group_prototype" kw) in
  let* _ := check_keywords (["start_on_event"; "context_port"; "context_mode_declaration_group_prototype"; "disabled_modes"] ++ identifiable_keywords) kw in
  let* ident := new_identifiable name kw in
  let* v_disabled_modes := lenient (strict RModeInAtomicSwcInstanceRef_object) (kwarg "disabled_modes" kw) in
  let* v_start_on_event := opt_ref rc_RunnableEntityRef (kwarg "start_on_event" kw) in
  Ok (mkSwcModeManagerErrorEvent ident v_disabled_modes v_start_on_event (Some ((mkPModeGroupInAtomicSwcInstanceRef p_context_port p_target_mode_group)))).
(** RteEvent.append_disabled_mode, element.py:7147-7154 *)
Definition append_SwcModeManagerErrorEvent_disabled_modes (x : SwcModeManagerErrorEvent) (a : arg) : result SwcModeManagerErrorEvent :=
  let* e := strict RModeInAtomicSwcInstanceRef_object a in Ok (mkSwcModeManagerErrorEvent (SwcModeManagerErrorEvent_ident x) (SwcModeManagerErrorEvent_disabled_modes x ++ [e]) (SwcModeManagerErrorEvent_start_on_event x) (SwcModeManagerErrorEvent_mode_group x)).
(** SwcModeSwitchEvent.__init__, element.py:7548-7574, 7128-7145 *)
Definition init_SwcModeSwitchEvent (name : string) (kw : keyword_args) : result SwcModeSwitchEvent :=
  let* _ := check_keywords (["start_on_event"; "activation"; "mode"; "disabled_modes"] ++ identifiable_keywords) kw in
  let* ident := new_identifiable name kw in
  let* v_disabled_modes := lenient (strict RModeInAtomicSwcInstanceRef_object) (kwarg "disabled_modes" kw) in
  let* v_start_on_event := opt_ref rc_RunnableEntityRef (kwarg "start_on_event" kw) in
  let* v_activation := optional (strict ModeActivationKind_object) (kwarg "activation" kw) in
  let* v_mode := optional switch_mode_of (kwarg "mode" kw) in
  Ok (mkSwcModeSwitchEvent ident v_disabled_modes v_start_on_event v_activation v_mode).
(** SwcModeSwitchEvent.make, element.py:7577-7595, with RModeInAtomicSwcInstanceRef.__init__, 5643-5658, and SwcModeSwitchEvent.__init__, 7548-7574, 7128-7145 *)
Definition make_SwcModeSwitchEvent (name : string) (kw : keyword_args) : result SwcModeSwitchEvent :=
  let* _ := no_clash ["cls"] kw in
  let* p_context_port := opt_ref rc_AbstractRequiredPortPrototypeRef (kwarg "context_port" kw) in
  let* p_context_mode_declaration_group_prototype := opt_ref rc_ModeDeclarationGroupPrototypeRef (kwarg "context_mode_declaration_group_prototype" kw) in
  let* p_target_mode_declaration := opt_ref rc_ModeDeclarationRef (kwarg "target_mode_declaration" kw) in
  let* _ := check_keywords (["start_on_event"; "activation"; "context_port"; "context_mode_declaration_group_prototype"; "target_mode_declaration"; "disabled_modes"] ++ identifiable_keywords) kw in
  let* ident := new_identifiable name kw in
  let* v_disabled_modes := lenient (strict RModeInAtomicSwcInstanceRef_object) (kwarg "disabled_modes" kw) in
  let* v_start_on_event := opt_ref rc_RunnableEntityRef (kwarg "start_on_event" kw) in
  let* v_activation := optional (strict ModeActivationKind_object) (kwarg "activation" kw) in
  Ok (mkSwcModeSwitchEvent ident v_disabled_modes v_start_on_event v_activation (Some (OneMode (mkRModeInAtomicSwcInstanceRef p_context_port p_context_mode_declaration_group_prototype p_target_mode_declaration)))).
(** RteEvent.append_disabled_mode, element.py:7147-7154 *)
Definition append_SwcModeSwitchEvent_disabled_modes (x : SwcModeSwitchEvent) (a : arg) : result SwcModeSwitchEvent :=
  let* e := strict RModeInAtomicSwcInstanceRef_object a in Ok (mkSwcModeSwitchEvent (SwcModeSwitchEvent_ident x) (SwcModeSwitchEvent_disabled_modes x ++ [e]) (SwcModeSwitchEvent_start_on_event x) (SwcModeSwitchEvent_activation x) (SwcModeSwitchEvent_mode x)).
(** TimingEvent.__init__, element.py:7614-7627, 7128-7145 *)
Definition init_TimingEvent (name : string) (kw : keyword_args) : result TimingEvent :=
  let* _ := check_keywords (["start_on_event"; "period"; "offset"; "disabled_modes"] ++ identifiable_keywords) kw in
  let* ident := new_identifiable name kw in
  let* v_disabled_modes := lenient (strict RModeInAtomicSwcInstanceRef_object) (kwarg "disabled_modes" kw) in
  let* v_start_on_event := opt_ref rc_RunnableEntityRef (kwarg "start_on_event" kw) in
  let* v_offset := opt_float (kwarg "offset" kw) in
  let* v_period := opt_float (kwarg "period" kw) in
  Ok (mkTimingEvent ident v_disabled_modes v_start_on_event v_offset v_period).
(** RteEvent.append_disabled_mode, element.py:7147-7154 *)
Definition append_TimingEvent_disabled_modes (x : TimingEvent) (a : arg) : result TimingEvent :=
  let* e := strict RModeInAtomicSwcInstanceRef_object a in Ok (mkTimingEvent (TimingEvent_ident x) (TimingEvent_disabled_modes x ++ [e]) (TimingEvent_start_on_event x) (TimingEvent_offset x) (TimingEvent_period x)).
(** TransformerHardErrorEvent.__init__, element.py:7646-7663, 7128-7145 *)
Definition init_TransformerHardErrorEvent (name : string) (kw : keyword_args) : result TransformerHardErrorEvent :=
  let* _ := check_keywords (["start_on_event"; "operation"; "required_trigger"; "trigger"; "disabled_modes"] ++ identifiable_keywords) kw in
  let* ident := new_identifiable name kw in
  let* v_disabled_modes := lenient (strict RModeInAtomicSwcInstanceRef_object) (kwarg "disabled_modes" kw) in
  let* v_start_on_event := opt_ref rc_RunnableEntityRef (kwarg "start_on_event" kw) in
  let* v_operation := optional (strict POperationInAtomicSwcInstanceRef_object) (kwarg "operation" kw) in
  let* v_required_trigger := optional (strict RTriggerInAtomicSwcInstanceRef_object) (kwarg "required_trigger" kw) in
  let* v_trigger := optional (strict PTriggerInAtomicSwcTypeInstanceRef_object) (kwarg "trigger" kw) in
  Ok (mkTransformerHardErrorEvent ident v_disabled_modes v_start_on_event v_operation v_required_trigger v_trigger).
(** RteEvent.append_disabled_mode, element.py:7147-7154 *)
Definition append_TransformerHardErrorEvent_disabled_modes (x : TransformerHardErrorEvent) (a : arg) : result TransformerHardErrorEvent :=
  let* e := strict RModeInAtomicSwcInstanceRef_object a in Ok (mkTransformerHardErrorEvent (TransformerHardErrorEvent_ident x) (TransformerHardErrorEvent_disabled_modes x ++ [e]) (TransformerHardErrorEvent_start_on_event x) (TransformerHardErrorEvent_operation x) (TransformerHardErrorEvent_required_trigger x) (TransformerHardErrorEvent_trigger x)).

(** ** Port API options *)
(** PortDefinedArgumentValue.__init__, element.py:7682-7692 *)
Definition init_PortDefinedArgumentValue (kw : keyword_args) : result PortDefinedArgumentValue :=
  let* _ := check_keywords ["value"; "value_type"] kw in
  let* v_value := opt_value_specification (kwarg "value" kw) in
  let* v_value_type := opt_ref rc_ImplementationDataTypeRef (kwarg "value_type" kw) in
  Ok (mkPortDefinedArgumentValue v_value v_value_type).
(** CommunicationBufferLocking.__init__, element.py:7707-7713 *)
Definition init_CommunicationBufferLocking (kw : keyword_args) : result CommunicationBufferLocking :=
  let* _ := check_keywords ["support_buffer_locking"] kw in
  let* v_support_buffer_locking := optional (strict SupportBufferLocking_object) (kwarg "support_buffer_locking" kw) in
  Ok (mkCommunicationBufferLocking v_support_buffer_locking).
(** PortApiOption.__init__, element.py:7726-7770 *)
Definition init_PortApiOption (kw : keyword_args) : result PortApiOption :=
  let* _ := check_keywords ["port"; "enable_take_address"; "indirect_api"; "error_handling"; "port_arg_values"; "supported_features"; "transformer_status_forwarding"] kw in
  let* v_enable_take_address := opt_bool (kwarg "enable_take_address" kw) in
  let* v_error_handling := optional (strict DataTransformationErrorHandling_object) (kwarg "error_handling" kw) in
  let* v_indirect_api := opt_bool (kwarg "indirect_api" kw) in
  let* v_port := opt_ref rc_PortPrototypeRef (kwarg "port" kw) in
  let* v_transformer_status_forwarding := optional (strict DataTransformationStatusForwarding_object) (kwarg "transformer_status_forwarding" kw) in
  let* v_port_arg_values := one_or_list (strict PortDefinedArgumentValue_object) (kwarg "port_arg_values" kw) in
  let* v_supported_features := one_or_list (strict CommunicationBufferLocking_object) (kwarg "supported_features" kw) in
  Ok (mkPortApiOption v_enable_take_address v_error_handling v_indirect_api v_port_arg_values v_port v_supported_features v_transformer_status_forwarding).
(** PortApiOption.append_port_arg_value, element.py:7772-7779 *)
Definition append_PortApiOption_port_arg_values (x : PortApiOption) (a : arg) : result PortApiOption :=
  let* e := strict PortDefinedArgumentValue_object a in Ok (mkPortApiOption (PortApiOption_enable_take_address x) (PortApiOption_error_handling x) (PortApiOption_indirect_api x) (PortApiOption_port_arg_values x ++ [e]) (PortApiOption_port x) (PortApiOption_supported_features x) (PortApiOption_transformer_status_forwarding x)).
(** PortApiOption.append_supported_feature, element.py:7781-7788 *)
Definition append_PortApiOption_supported_features (x : PortApiOption) (a : arg) : result PortApiOption :=
  let* e := strict CommunicationBufferLocking_object a in Ok (mkPortApiOption (PortApiOption_enable_take_address x) (PortApiOption_error_handling x) (PortApiOption_indirect_api x) (PortApiOption_port_arg_values x) (PortApiOption_port x) (PortApiOption_supported_features x ++ [e]) (PortApiOption_transformer_status_forwarding x)).
