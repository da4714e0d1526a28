(** C59: events and port API options hold what is given. *)
From Verif Require Import Base PBase MNum MXml MEnum MRefTab MRef MCodec MElem0 MElem1 MElemA MElemB MElemC MElem2 MElemD MElem3 MElem4 MElemE MElem5 MElemF MArxml MFind MValue MEvent MPort SPort PPort MAccess SAccess PAccess MRunnable SRunnable PRunnable MIface SIface PIface MData SFormat SData PData MConst SConst PConst MParts SParts PParts MPoint SPoint PPoint MOccur SOccur POccur.
Open Scope list_scope.

(** AsynchronousServerCallReturnsEvent succeeds exactly for arguments that describe an object, and makes that one. *)
Theorem C59_AsynchronousServerCallReturnsEvent name kw x : init_AsynchronousServerCallReturnsEvent name kw = Ok x <-> describes_AsynchronousServerCallReturnsEvent name kw x.
Proof. exact (init_AsynchronousServerCallReturnsEvent_iff name kw x). Qed.
Example C59_AsynchronousServerCallReturnsEvent_example : describes_AsynchronousServerCallReturnsEvent "N" [("disabled_modes", AList [AObj (ORModeInAtomicSwcInstanceRef (mkRModeInAtomicSwcInstanceRef None None None)); AObj (ORModeInAtomicSwcInstanceRef (mkRModeInAtomicSwcInstanceRef None None None))]); ("start_on_event", AObj (ORef rc_RunnableEntityRef (mkRef "/p/r" IdentifiableSubTypes_RUNNABLE_ENTITY))); ("event_source", AObj (ORef rc_AsynchronousServerCallResultPointRef (mkRef "/p/r" IdentifiableSubTypes_ASYNCHRONOUS_SERVER_CALL_RESULT_POINT)))]
  (mkAsynchronousServerCallReturnsEvent (mkIdent "N" None None None None None None None) ([(mkRModeInAtomicSwcInstanceRef None None None); (mkRModeInAtomicSwcInstanceRef None None None)]) (Some (mkRef "/p/r" IdentifiableSubTypes_RUNNABLE_ENTITY)) (Some (mkRef "/p/r" IdentifiableSubTypes_ASYNCHRONOUS_SERVER_CALL_RESULT_POINT))).
Proof. apply C59_AsynchronousServerCallReturnsEvent. reflexivity. Qed.
(** BackgroundEvent succeeds exactly for arguments that describe an object, and makes that one. *)
Theorem C59_BackgroundEvent name kw x : init_BackgroundEvent name kw = Ok x <-> describes_BackgroundEvent name kw x.
Proof. exact (init_BackgroundEvent_iff name kw x). Qed.
Example C59_BackgroundEvent_example : describes_BackgroundEvent "N" [("disabled_modes", AList [AObj (ORModeInAtomicSwcInstanceRef (mkRModeInAtomicSwcInstanceRef None None None)); AObj (ORModeInAtomicSwcInstanceRef (mkRModeInAtomicSwcInstanceRef None None None))]); ("start_on_event", AObj (ORef rc_RunnableEntityRef (mkRef "/p/r" IdentifiableSubTypes_RUNNABLE_ENTITY)))]
  (mkBackgroundEvent (mkIdent "N" None None None None None None None) ([(mkRModeInAtomicSwcInstanceRef None None None); (mkRModeInAtomicSwcInstanceRef None None None)]) (Some (mkRef "/p/r" IdentifiableSubTypes_RUNNABLE_ENTITY))).
Proof. apply C59_BackgroundEvent. reflexivity. Qed.
(** DataReceiveErrorEvent succeeds exactly for arguments that describe an object, and makes that one. *)
Theorem C59_DataReceiveErrorEvent name kw x : init_DataReceiveErrorEvent name kw = Ok x <-> describes_DataReceiveErrorEvent name kw x.
Proof. exact (init_DataReceiveErrorEvent_iff name kw x). Qed.
Example C59_DataReceiveErrorEvent_example : describes_DataReceiveErrorEvent "N" [("disabled_modes", AList [AObj (ORModeInAtomicSwcInstanceRef (mkRModeInAtomicSwcInstanceRef None None None)); AObj (ORModeInAtomicSwcInstanceRef (mkRModeInAtomicSwcInstanceRef None None None))]); ("start_on_event", AObj (ORef rc_RunnableEntityRef (mkRef "/p/r" IdentifiableSubTypes_RUNNABLE_ENTITY))); ("data", AObj (ORVariableInAtomicSwcInstanceRef (mkRVariableInAtomicSwcInstanceRef None None)))]
  (mkDataReceiveErrorEvent (mkIdent "N" None None None None None None None) ([(mkRModeInAtomicSwcInstanceRef None None None); (mkRModeInAtomicSwcInstanceRef None None None)]) (Some (mkRef "/p/r" IdentifiableSubTypes_RUNNABLE_ENTITY)) (Some (mkRVariableInAtomicSwcInstanceRef None None))).
Proof. apply C59_DataReceiveErrorEvent. reflexivity. Qed.
(** DataReceiveErrorEvent_make succeeds exactly for arguments that describe an object, and makes that one. *)
Theorem C59_DataReceiveErrorEvent_make name kw x : make_DataReceiveErrorEvent name kw = Ok x <-> describes_make_DataReceiveErrorEvent name kw x.
Proof. exact (make_DataReceiveErrorEvent_iff name kw x). Qed.
Example C59_DataReceiveErrorEvent_make_example : describes_make_DataReceiveErrorEvent "N" [("disabled_modes", AList [AObj (ORModeInAtomicSwcInstanceRef (mkRModeInAtomicSwcInstanceRef None None None)); AObj (ORModeInAtomicSwcInstanceRef (mkRModeInAtomicSwcInstanceRef None None None))]); ("start_on_event", AObj (ORef rc_RunnableEntityRef (mkRef "/p/r" IdentifiableSubTypes_RUNNABLE_ENTITY))); ("context_port", AObj (ORef rc_AbstractRequiredPortPrototypeRef (mkRef "/p/r" IdentifiableSubTypes_ABSTRACT_REQUIRED_PORT_PROTOTYPE))); ("target_data_element", AObj (ORef rc_VariableDataPrototypeRef (mkRef "/p/r" IdentifiableSubTypes_VARIABLE_DATA_PROTOTYPE)))]
  (mkDataReceiveErrorEvent (mkIdent "N" None None None None None None None) ([(mkRModeInAtomicSwcInstanceRef None None None); (mkRModeInAtomicSwcInstanceRef None None None)]) (Some (mkRef "/p/r" IdentifiableSubTypes_RUNNABLE_ENTITY)) (Some (mkRVariableInAtomicSwcInstanceRef (Some (mkRef "/p/r" IdentifiableSubTypes_ABSTRACT_REQUIRED_PORT_PROTOTYPE)) (Some (mkRef "/p/r" IdentifiableSubTypes_VARIABLE_DATA_PROTOTYPE))))).
Proof. apply C59_DataReceiveErrorEvent_make. reflexivity. Qed.
(** DataReceivedEvent succeeds exactly for arguments that describe an object, and makes that one. *)
Theorem C59_DataReceivedEvent name kw x : init_DataReceivedEvent name kw = Ok x <-> describes_DataReceivedEvent name kw x.
Proof. exact (init_DataReceivedEvent_iff name kw x). Qed.
Example C59_DataReceivedEvent_example : describes_DataReceivedEvent "N" [("disabled_modes", AList [AObj (ORModeInAtomicSwcInstanceRef (mkRModeInAtomicSwcInstanceRef None None None)); AObj (ORModeInAtomicSwcInstanceRef (mkRModeInAtomicSwcInstanceRef None None None))]); ("start_on_event", AObj (ORef rc_RunnableEntityRef (mkRef "/p/r" IdentifiableSubTypes_RUNNABLE_ENTITY))); ("data", AObj (ORVariableInAtomicSwcInstanceRef (mkRVariableInAtomicSwcInstanceRef None None)))]
  (mkDataReceivedEvent (mkIdent "N" None None None None None None None) ([(mkRModeInAtomicSwcInstanceRef None None None); (mkRModeInAtomicSwcInstanceRef None None None)]) (Some (mkRef "/p/r" IdentifiableSubTypes_RUNNABLE_ENTITY)) (Some (mkRVariableInAtomicSwcInstanceRef None None))).
Proof. apply C59_DataReceivedEvent. reflexivity. Qed.
(** DataReceivedEvent_make succeeds exactly for arguments that describe an object, and makes that one. *)
Theorem C59_DataReceivedEvent_make name kw x : make_DataReceivedEvent name kw = Ok x <-> describes_make_DataReceivedEvent name kw x.
Proof. exact (make_DataReceivedEvent_iff name kw x). Qed.
Example C59_DataReceivedEvent_make_example : describes_make_DataReceivedEvent "N" [("disabled_modes", AList [AObj (ORModeInAtomicSwcInstanceRef (mkRModeInAtomicSwcInstanceRef None None None)); AObj (ORModeInAtomicSwcInstanceRef (mkRModeInAtomicSwcInstanceRef None None None))]); ("start_on_event", AObj (ORef rc_RunnableEntityRef (mkRef "/p/r" IdentifiableSubTypes_RUNNABLE_ENTITY))); ("context_port", AObj (ORef rc_AbstractRequiredPortPrototypeRef (mkRef "/p/r" IdentifiableSubTypes_ABSTRACT_REQUIRED_PORT_PROTOTYPE))); ("target_data_element", AObj (ORef rc_VariableDataPrototypeRef (mkRef "/p/r" IdentifiableSubTypes_VARIABLE_DATA_PROTOTYPE)))]
  (mkDataReceivedEvent (mkIdent "N" None None None None None None None) ([(mkRModeInAtomicSwcInstanceRef None None None); (mkRModeInAtomicSwcInstanceRef None None None)]) (Some (mkRef "/p/r" IdentifiableSubTypes_RUNNABLE_ENTITY)) (Some (mkRVariableInAtomicSwcInstanceRef (Some (mkRef "/p/r" IdentifiableSubTypes_ABSTRACT_REQUIRED_PORT_PROTOTYPE)) (Some (mkRef "/p/r" IdentifiableSubTypes_VARIABLE_DATA_PROTOTYPE))))).
Proof. apply C59_DataReceivedEvent_make. reflexivity. Qed.
(** DataSendCompletedEvent succeeds exactly for arguments that describe an object, and makes that one. *)
Theorem C59_DataSendCompletedEvent name kw x : init_DataSendCompletedEvent name kw = Ok x <-> describes_DataSendCompletedEvent name kw x.
Proof. exact (init_DataSendCompletedEvent_iff name kw x). Qed.
Example C59_DataSendCompletedEvent_example : describes_DataSendCompletedEvent "N" [("disabled_modes", AList [AObj (ORModeInAtomicSwcInstanceRef (mkRModeInAtomicSwcInstanceRef None None None)); AObj (ORModeInAtomicSwcInstanceRef (mkRModeInAtomicSwcInstanceRef None None None))]); ("start_on_event", AObj (ORef rc_RunnableEntityRef (mkRef "/p/r" IdentifiableSubTypes_RUNNABLE_ENTITY))); ("event_source", AObj (ORef rc_VariableAccessRef (mkRef "/p/r" IdentifiableSubTypes_VARIABLE_ACCESS)))]
  (mkDataSendCompletedEvent (mkIdent "N" None None None None None None None) ([(mkRModeInAtomicSwcInstanceRef None None None); (mkRModeInAtomicSwcInstanceRef None None None)]) (Some (mkRef "/p/r" IdentifiableSubTypes_RUNNABLE_ENTITY)) (Some (mkRef "/p/r" IdentifiableSubTypes_VARIABLE_ACCESS))).
Proof. apply C59_DataSendCompletedEvent. reflexivity. Qed.
(** DataWriteCompletedEvent succeeds exactly for arguments that describe an object, and makes that one. *)
Theorem C59_DataWriteCompletedEvent name kw x : init_DataWriteCompletedEvent name kw = Ok x <-> describes_DataWriteCompletedEvent name kw x.
Proof. exact (init_DataWriteCompletedEvent_iff name kw x). Qed.
Example C59_DataWriteCompletedEvent_example : describes_DataWriteCompletedEvent "N" [("disabled_modes", AList [AObj (ORModeInAtomicSwcInstanceRef (mkRModeInAtomicSwcInstanceRef None None None)); AObj (ORModeInAtomicSwcInstanceRef (mkRModeInAtomicSwcInstanceRef None None None))]); ("start_on_event", AObj (ORef rc_RunnableEntityRef (mkRef "/p/r" IdentifiableSubTypes_RUNNABLE_ENTITY))); ("event_source", AObj (ORef rc_VariableAccessRef (mkRef "/p/r" IdentifiableSubTypes_VARIABLE_ACCESS)))]
  (mkDataWriteCompletedEvent (mkIdent "N" None None None None None None None) ([(mkRModeInAtomicSwcInstanceRef None None None); (mkRModeInAtomicSwcInstanceRef None None None)]) (Some (mkRef "/p/r" IdentifiableSubTypes_RUNNABLE_ENTITY)) (Some (mkRef "/p/r" IdentifiableSubTypes_VARIABLE_ACCESS))).
Proof. apply C59_DataWriteCompletedEvent. reflexivity. Qed.
(** ExternalTriggerOccurredEvent succeeds exactly for arguments that describe an object, and makes that one. *)
Theorem C59_ExternalTriggerOccurredEvent name kw x : init_ExternalTriggerOccurredEvent name kw = Ok x <-> describes_ExternalTriggerOccurredEvent name kw x.
Proof. exact (init_ExternalTriggerOccurredEvent_iff name kw x). Qed.
Example C59_ExternalTriggerOccurredEvent_example : describes_ExternalTriggerOccurredEvent "N" [("disabled_modes", AList [AObj (ORModeInAtomicSwcInstanceRef (mkRModeInAtomicSwcInstanceRef None None None)); AObj (ORModeInAtomicSwcInstanceRef (mkRModeInAtomicSwcInstanceRef None None None))]); ("start_on_event", AObj (ORef rc_RunnableEntityRef (mkRef "/p/r" IdentifiableSubTypes_RUNNABLE_ENTITY))); ("trigger", AObj (ORTriggerInAtomicSwcInstanceRef (mkRTriggerInAtomicSwcInstanceRef None None)))]
  (mkExternalTriggerOccurredEvent (mkIdent "N" None None None None None None None) ([(mkRModeInAtomicSwcInstanceRef None None None); (mkRModeInAtomicSwcInstanceRef None None None)]) (Some (mkRef "/p/r" IdentifiableSubTypes_RUNNABLE_ENTITY)) (Some (mkRTriggerInAtomicSwcInstanceRef None None))).
Proof. apply C59_ExternalTriggerOccurredEvent. reflexivity. Qed.
(** ExternalTriggerOccurredEvent_make succeeds exactly for arguments that describe an object, and makes that one. *)
Theorem C59_ExternalTriggerOccurredEvent_make name kw x : make_ExternalTriggerOccurredEvent name kw = Ok x <-> describes_make_ExternalTriggerOccurredEvent name kw x.
Proof. exact (make_ExternalTriggerOccurredEvent_iff name kw x). Qed.
Example C59_ExternalTriggerOccurredEvent_make_example : describes_make_ExternalTriggerOccurredEvent "N" [("disabled_modes", AList [AObj (ORModeInAtomicSwcInstanceRef (mkRModeInAtomicSwcInstanceRef None None None)); AObj (ORModeInAtomicSwcInstanceRef (mkRModeInAtomicSwcInstanceRef None None None))]); ("start_on_event", AObj (ORef rc_RunnableEntityRef (mkRef "/p/r" IdentifiableSubTypes_RUNNABLE_ENTITY))); ("context_port", AObj (ORef rc_AbstractRequiredPortPrototypeRef (mkRef "/p/r" IdentifiableSubTypes_ABSTRACT_REQUIRED_PORT_PROTOTYPE))); ("target_trigger", AObj (ORef rc_TriggerRef (mkRef "/p/r" IdentifiableSubTypes_TRIGGER)))]
  (mkExternalTriggerOccurredEvent (mkIdent "N" None None None None None None None) ([(mkRModeInAtomicSwcInstanceRef None None None); (mkRModeInAtomicSwcInstanceRef None None None)]) (Some (mkRef "/p/r" IdentifiableSubTypes_RUNNABLE_ENTITY)) (Some (mkRTriggerInAtomicSwcInstanceRef (Some (mkRef "/p/r" IdentifiableSubTypes_ABSTRACT_REQUIRED_PORT_PROTOTYPE)) (Some (mkRef "/p/r" IdentifiableSubTypes_TRIGGER))))).
Proof. apply C59_ExternalTriggerOccurredEvent_make. reflexivity. Qed.
(** InitEvent succeeds exactly for arguments that describe an object, and makes that one. *)
Theorem C59_InitEvent name kw x : init_InitEvent name kw = Ok x <-> describes_InitEvent name kw x.
Proof. exact (init_InitEvent_iff name kw x). Qed.
Example C59_InitEvent_example : describes_InitEvent "N" [("disabled_modes", AList [AObj (ORModeInAtomicSwcInstanceRef (mkRModeInAtomicSwcInstanceRef None None None)); AObj (ORModeInAtomicSwcInstanceRef (mkRModeInAtomicSwcInstanceRef None None None))]); ("start_on_event", AObj (ORef rc_RunnableEntityRef (mkRef "/p/r" IdentifiableSubTypes_RUNNABLE_ENTITY)))]
  (mkInitEvent (mkIdent "N" None None None None None None None) ([(mkRModeInAtomicSwcInstanceRef None None None); (mkRModeInAtomicSwcInstanceRef None None None)]) (Some (mkRef "/p/r" IdentifiableSubTypes_RUNNABLE_ENTITY))).
Proof. apply C59_InitEvent. reflexivity. Qed.
(** InternalTriggerOccurredEvent succeeds exactly for arguments that describe an object, and makes that one. *)
Theorem C59_InternalTriggerOccurredEvent name kw x : init_InternalTriggerOccurredEvent name kw = Ok x <-> describes_InternalTriggerOccurredEvent name kw x.
Proof. exact (init_InternalTriggerOccurredEvent_iff name kw x). Qed.
Example C59_InternalTriggerOccurredEvent_example : describes_InternalTriggerOccurredEvent "N" [("disabled_modes", AList [AObj (ORModeInAtomicSwcInstanceRef (mkRModeInAtomicSwcInstanceRef None None None)); AObj (ORModeInAtomicSwcInstanceRef (mkRModeInAtomicSwcInstanceRef None None None))]); ("start_on_event", AObj (ORef rc_RunnableEntityRef (mkRef "/p/r" IdentifiableSubTypes_RUNNABLE_ENTITY))); ("event_source", AObj (ORef rc_InternalTriggeringPointRef (mkRef "/p/r" IdentifiableSubTypes_INTERNAL_TRIGGERING_POINT)))]
  (mkInternalTriggerOccurredEvent (mkIdent "N" None None None None None None None) ([(mkRModeInAtomicSwcInstanceRef None None None); (mkRModeInAtomicSwcInstanceRef None None None)]) (Some (mkRef "/p/r" IdentifiableSubTypes_RUNNABLE_ENTITY)) (Some (mkRef "/p/r" IdentifiableSubTypes_INTERNAL_TRIGGERING_POINT))).
Proof. apply C59_InternalTriggerOccurredEvent. reflexivity. Qed.
(** ModeSwitchedAckEvent succeeds exactly for arguments that describe an object, and makes that one. *)
Theorem C59_ModeSwitchedAckEvent name kw x : init_ModeSwitchedAckEvent name kw = Ok x <-> describes_ModeSwitchedAckEvent name kw x.
Proof. exact (init_ModeSwitchedAckEvent_iff name kw x). Qed.
Example C59_ModeSwitchedAckEvent_example : describes_ModeSwitchedAckEvent "N" [("disabled_modes", AList [AObj (ORModeInAtomicSwcInstanceRef (mkRModeInAtomicSwcInstanceRef None None None)); AObj (ORModeInAtomicSwcInstanceRef (mkRModeInAtomicSwcInstanceRef None None None))]); ("start_on_event", AObj (ORef rc_RunnableEntityRef (mkRef "/p/r" IdentifiableSubTypes_RUNNABLE_ENTITY))); ("event_source", AObj (ORef rc_ModeSwitchPointRef (mkRef "/p/r" IdentifiableSubTypes_MODE_SWITCH_POINT)))]
  (mkModeSwitchedAckEvent (mkIdent "N" None None None None None None None) ([(mkRModeInAtomicSwcInstanceRef None None None); (mkRModeInAtomicSwcInstanceRef None None None)]) (Some (mkRef "/p/r" IdentifiableSubTypes_RUNNABLE_ENTITY)) (Some (mkRef "/p/r" IdentifiableSubTypes_MODE_SWITCH_POINT))).
Proof. apply C59_ModeSwitchedAckEvent. reflexivity. Qed.
(** OperationInvokedEvent succeeds exactly for arguments that describe an object, and makes that one. *)
Theorem C59_OperationInvokedEvent name kw x : init_OperationInvokedEvent name kw = Ok x <-> describes_OperationInvokedEvent name kw x.
Proof. exact (init_OperationInvokedEvent_iff name kw x). Qed.
Example C59_OperationInvokedEvent_example : describes_OperationInvokedEvent "N" [("disabled_modes", AList [AObj (ORModeInAtomicSwcInstanceRef (mkRModeInAtomicSwcInstanceRef None None None)); AObj (ORModeInAtomicSwcInstanceRef (mkRModeInAtomicSwcInstanceRef None None None))]); ("start_on_event", AObj (ORef rc_RunnableEntityRef (mkRef "/p/r" IdentifiableSubTypes_RUNNABLE_ENTITY))); ("operation", AObj (OPOperationInAtomicSwcInstanceRef (mkPOperationInAtomicSwcInstanceRef None None)))]
  (mkOperationInvokedEvent (mkIdent "N" None None None None None None None) ([(mkRModeInAtomicSwcInstanceRef None None None); (mkRModeInAtomicSwcInstanceRef None None None)]) (Some (mkRef "/p/r" IdentifiableSubTypes_RUNNABLE_ENTITY)) (Some (mkPOperationInAtomicSwcInstanceRef None None))).
Proof. apply C59_OperationInvokedEvent. reflexivity. Qed.
(** OperationInvokedEvent_make succeeds exactly for arguments that describe an object, and makes that one. *)
Theorem C59_OperationInvokedEvent_make name kw x : make_OperationInvokedEvent name kw = Ok x <-> describes_make_OperationInvokedEvent name kw x.
Proof. exact (make_OperationInvokedEvent_iff name kw x). Qed.
Example C59_OperationInvokedEvent_make_example : describes_make_OperationInvokedEvent "N" [("disabled_modes", AList [AObj (ORModeInAtomicSwcInstanceRef (mkRModeInAtomicSwcInstanceRef None None None)); AObj (ORModeInAtomicSwcInstanceRef (mkRModeInAtomicSwcInstanceRef None None None))]); ("start_on_event", AObj (ORef rc_RunnableEntityRef (mkRef "/p/r" IdentifiableSubTypes_RUNNABLE_ENTITY))); ("context_port", AObj (ORef rc_AbstractProvidedPortPrototypeRef (mkRef "/p/r" IdentifiableSubTypes_ABSTRACT_PROVIDED_PORT_PROTOTYPE))); ("target_provided_operation", AObj (ORef rc_ClientServerOperationRef (mkRef "/p/r" IdentifiableSubTypes_CLIENT_SERVER_OPERATION)))]
  (mkOperationInvokedEvent (mkIdent "N" None None None None None None None) ([(mkRModeInAtomicSwcInstanceRef None None None); (mkRModeInAtomicSwcInstanceRef None None None)]) (Some (mkRef "/p/r" IdentifiableSubTypes_RUNNABLE_ENTITY)) (Some (mkPOperationInAtomicSwcInstanceRef (Some (mkRef "/p/r" IdentifiableSubTypes_ABSTRACT_PROVIDED_PORT_PROTOTYPE)) (Some (mkRef "/p/r" IdentifiableSubTypes_CLIENT_SERVER_OPERATION))))).
Proof. apply C59_OperationInvokedEvent_make. reflexivity. Qed.
(** SwcModeManagerErrorEvent succeeds exactly for arguments that describe an object, and makes that one. *)
Theorem C59_SwcModeManagerErrorEvent name kw x : init_SwcModeManagerErrorEvent name kw = Ok x <-> describes_SwcModeManagerErrorEvent name kw x.
Proof. exact (init_SwcModeManagerErrorEvent_iff name kw x). Qed.
Example C59_SwcModeManagerErrorEvent_example : describes_SwcModeManagerErrorEvent "N" [("disabled_modes", AList [AObj (ORModeInAtomicSwcInstanceRef (mkRModeInAtomicSwcInstanceRef None None None)); AObj (ORModeInAtomicSwcInstanceRef (mkRModeInAtomicSwcInstanceRef None None None))]); ("start_on_event", AObj (ORef rc_RunnableEntityRef (mkRef "/p/r" IdentifiableSubTypes_RUNNABLE_ENTITY))); ("mode_group", AObj (OModeGroupInAtomicSwcInstanceRef (ModeGroup_P (mkPModeGroupInAtomicSwcInstanceRef None None))))]
  (mkSwcModeManagerErrorEvent (mkIdent "N" None None None None None None None) ([(mkRModeInAtomicSwcInstanceRef None None None); (mkRModeInAtomicSwcInstanceRef None None None)]) (Some (mkRef "/p/r" IdentifiableSubTypes_RUNNABLE_ENTITY)) (Some (mkPModeGroupInAtomicSwcInstanceRef None None))).
Proof. apply C59_SwcModeManagerErrorEvent. reflexivity. Qed.
(** SwcModeManagerErrorEvent_make succeeds exactly for arguments that describe an object, and makes that one. *)
Theorem C59_SwcModeManagerErrorEvent_make name kw x : make_SwcModeManagerErrorEvent name kw = Ok x <-> describes_make_SwcModeManagerErrorEvent name kw x.
Proof. exact (make_SwcModeManagerErrorEvent_iff name kw x). Qed.
Example C59_SwcModeManagerErrorEvent_make_example : describes_make_SwcModeManagerErrorEvent "N" [("disabled_modes", AList [AObj (ORModeInAtomicSwcInstanceRef (mkRModeInAtomicSwcInstanceRef None None None)); AObj (ORModeInAtomicSwcInstanceRef (mkRModeInAtomicSwcInstanceRef None None None))]); ("start_on_event", AObj (ORef rc_RunnableEntityRef (mkRef "/p/r" IdentifiableSubTypes_RUNNABLE_ENTITY))); ("context_port", AObj (ORef rc_AbstractProvidedPortPrototypeRef (mkRef "/p/r" IdentifiableSubTypes_ABSTRACT_PROVIDED_PORT_PROTOTYPE))); ("context_mode_declaration_group_prototype", AObj (ORef rc_ModeDeclarationGroupPrototypeRef (mkRef "/p/r" IdentifiableSubTypes_MODE_DECLARATION_GROUP_PROTOTYPE)))]
  (mkSwcModeManagerErrorEvent (mkIdent "N" None None None None None None None) ([(mkRModeInAtomicSwcInstanceRef None None None); (mkRModeInAtomicSwcInstanceRef None None None)]) (Some (mkRef "/p/r" IdentifiableSubTypes_RUNNABLE_ENTITY)) (Some (mkPModeGroupInAtomicSwcInstanceRef (Some (mkRef "/p/r" IdentifiableSubTypes_ABSTRACT_PROVIDED_PORT_PROTOTYPE)) (Some (mkRef "/p/r" IdentifiableSubTypes_MODE_DECLARATION_GROUP_PROTOTYPE))))).
Proof. apply C59_SwcModeManagerErrorEvent_make. reflexivity. Qed.
(** SwcModeSwitchEvent succeeds exactly for arguments that describe an object, and makes that one. *)
Theorem C59_SwcModeSwitchEvent name kw x : init_SwcModeSwitchEvent name kw = Ok x <-> describes_SwcModeSwitchEvent name kw x.
Proof. exact (init_SwcModeSwitchEvent_iff name kw x). Qed.
Example C59_SwcModeSwitchEvent_example : describes_SwcModeSwitchEvent "N" [("disabled_modes", AList [AObj (ORModeInAtomicSwcInstanceRef (mkRModeInAtomicSwcInstanceRef None None None)); AObj (ORModeInAtomicSwcInstanceRef (mkRModeInAtomicSwcInstanceRef None None None))]); ("start_on_event", AObj (ORef rc_RunnableEntityRef (mkRef "/p/r" IdentifiableSubTypes_RUNNABLE_ENTITY))); ("activation", AObj (OModeActivationKind ModeActivationKind_ON_ENTRY)); ("mode", ATuple [AObj (ORModeInAtomicSwcInstanceRef (mkRModeInAtomicSwcInstanceRef None None None)); AObj (ORModeInAtomicSwcInstanceRef (mkRModeInAtomicSwcInstanceRef None None None))])]
  (mkSwcModeSwitchEvent (mkIdent "N" None None None None None None None) ([(mkRModeInAtomicSwcInstanceRef None None None); (mkRModeInAtomicSwcInstanceRef None None None)]) (Some (mkRef "/p/r" IdentifiableSubTypes_RUNNABLE_ENTITY)) (Some ModeActivationKind_ON_ENTRY) (Some (TwoModes (mkRModeInAtomicSwcInstanceRef None None None) (mkRModeInAtomicSwcInstanceRef None None None)))).
Proof. apply C59_SwcModeSwitchEvent. reflexivity. Qed.
(** SwcModeSwitchEvent_make succeeds exactly for arguments that describe an object, and makes that one. *)
Theorem C59_SwcModeSwitchEvent_make name kw x : make_SwcModeSwitchEvent name kw = Ok x <-> describes_make_SwcModeSwitchEvent name kw x.
Proof. exact (make_SwcModeSwitchEvent_iff name kw x). Qed.
Example C59_SwcModeSwitchEvent_make_example : describes_make_SwcModeSwitchEvent "N" [("disabled_modes", AList [AObj (ORModeInAtomicSwcInstanceRef (mkRModeInAtomicSwcInstanceRef None None None)); AObj (ORModeInAtomicSwcInstanceRef (mkRModeInAtomicSwcInstanceRef None None None))]); ("start_on_event", AObj (ORef rc_RunnableEntityRef (mkRef "/p/r" IdentifiableSubTypes_RUNNABLE_ENTITY))); ("activation", AObj (OModeActivationKind ModeActivationKind_ON_ENTRY)); ("context_port", AObj (ORef rc_AbstractRequiredPortPrototypeRef (mkRef "/p/r" IdentifiableSubTypes_ABSTRACT_REQUIRED_PORT_PROTOTYPE))); ("context_mode_declaration_group_prototype", AObj (ORef rc_ModeDeclarationGroupPrototypeRef (mkRef "/p/r" IdentifiableSubTypes_MODE_DECLARATION_GROUP_PROTOTYPE))); ("target_mode_declaration", AObj (ORef rc_ModeDeclarationRef (mkRef "/p/r" IdentifiableSubTypes_MODE_DECLARATION)))]
  (mkSwcModeSwitchEvent (mkIdent "N" None None None None None None None) ([(mkRModeInAtomicSwcInstanceRef None None None); (mkRModeInAtomicSwcInstanceRef None None None)]) (Some (mkRef "/p/r" IdentifiableSubTypes_RUNNABLE_ENTITY)) (Some ModeActivationKind_ON_ENTRY) (Some (OneMode (mkRModeInAtomicSwcInstanceRef (Some (mkRef "/p/r" IdentifiableSubTypes_ABSTRACT_REQUIRED_PORT_PROTOTYPE)) (Some (mkRef "/p/r" IdentifiableSubTypes_MODE_DECLARATION_GROUP_PROTOTYPE)) (Some (mkRef "/p/r" IdentifiableSubTypes_MODE_DECLARATION)))))).
Proof. apply C59_SwcModeSwitchEvent_make. reflexivity. Qed.
(** TimingEvent succeeds exactly for arguments that describe an object, and makes that one. *)
Theorem C59_TimingEvent name kw x : init_TimingEvent name kw = Ok x <-> describes_TimingEvent name kw x.
Proof. exact (init_TimingEvent_iff name kw x). Qed.
Example C59_TimingEvent_example : describes_TimingEvent "N" [("disabled_modes", AList [AObj (ORModeInAtomicSwcInstanceRef (mkRModeInAtomicSwcInstanceRef None None None)); AObj (ORModeInAtomicSwcInstanceRef (mkRModeInAtomicSwcInstanceRef None None None))]); ("start_on_event", AObj (ORef rc_RunnableEntityRef (mkRef "/p/r" IdentifiableSubTypes_RUNNABLE_ENTITY))); ("offset", ANum (NInt 2)); ("period", ANum (NInt 2))]
  (mkTimingEvent (mkIdent "N" None None None None None None None) ([(mkRModeInAtomicSwcInstanceRef None None None); (mkRModeInAtomicSwcInstanceRef None None None)]) (Some (mkRef "/p/r" IdentifiableSubTypes_RUNNABLE_ENTITY)) (Some (NFloat (to_float (NInt 2)))) (Some (NFloat (to_float (NInt 2))))).
Proof. apply C59_TimingEvent. reflexivity. Qed.
(** TransformerHardErrorEvent succeeds exactly for arguments that describe an object, and makes that one. *)
Theorem C59_TransformerHardErrorEvent name kw x : init_TransformerHardErrorEvent name kw = Ok x <-> describes_TransformerHardErrorEvent name kw x.
Proof. exact (init_TransformerHardErrorEvent_iff name kw x). Qed.
Example C59_TransformerHardErrorEvent_example : describes_TransformerHardErrorEvent "N" [("disabled_modes", AList [AObj (ORModeInAtomicSwcInstanceRef (mkRModeInAtomicSwcInstanceRef None None None)); AObj (ORModeInAtomicSwcInstanceRef (mkRModeInAtomicSwcInstanceRef None None None))]); ("start_on_event", AObj (ORef rc_RunnableEntityRef (mkRef "/p/r" IdentifiableSubTypes_RUNNABLE_ENTITY))); ("operation", AObj (OPOperationInAtomicSwcInstanceRef (mkPOperationInAtomicSwcInstanceRef None None))); ("required_trigger", AObj (ORTriggerInAtomicSwcInstanceRef (mkRTriggerInAtomicSwcInstanceRef None None))); ("trigger", AObj (OPTriggerInAtomicSwcTypeInstanceRef (mkPTriggerInAtomicSwcTypeInstanceRef None None)))]
  (mkTransformerHardErrorEvent (mkIdent "N" None None None None None None None) ([(mkRModeInAtomicSwcInstanceRef None None None); (mkRModeInAtomicSwcInstanceRef None None None)]) (Some (mkRef "/p/r" IdentifiableSubTypes_RUNNABLE_ENTITY)) (Some (mkPOperationInAtomicSwcInstanceRef None None)) (Some (mkRTriggerInAtomicSwcInstanceRef None None)) (Some (mkPTriggerInAtomicSwcTypeInstanceRef None None))).
Proof. apply C59_TransformerHardErrorEvent. reflexivity. Qed.
(** PortDefinedArgumentValue succeeds exactly for arguments that describe an object, and makes that one. *)
Theorem C59_PortDefinedArgumentValue kw x : init_PortDefinedArgumentValue kw = Ok x <-> describes_PortDefinedArgumentValue kw x.
Proof. exact (init_PortDefinedArgumentValue_iff kw x). Qed.
Example C59_PortDefinedArgumentValue_example : describes_PortDefinedArgumentValue [("value", AObj (OValueSpecification (NotAvailableValueSpecification None None))); ("value_type", AObj (ORef rc_ImplementationDataTypeRef (mkRef "/p/r" IdentifiableSubTypes_IMPLEMENTATION_DATA_TYPE)))]
  (mkPortDefinedArgumentValue (Some (NotAvailableValueSpecification None None)) (Some (mkRef "/p/r" IdentifiableSubTypes_IMPLEMENTATION_DATA_TYPE))).
Proof. apply C59_PortDefinedArgumentValue. reflexivity. Qed.
(** CommunicationBufferLocking succeeds exactly for arguments that describe an object, and makes that one. *)
Theorem C59_CommunicationBufferLocking kw x : init_CommunicationBufferLocking kw = Ok x <-> describes_CommunicationBufferLocking kw x.
Proof. exact (init_CommunicationBufferLocking_iff kw x). Qed.
Example C59_CommunicationBufferLocking_example : describes_CommunicationBufferLocking [("support_buffer_locking", AObj (OSupportBufferLocking SupportBufferLocking_DOES_NOT_SUPPORT_BUFFER_LOCKING))]
  (mkCommunicationBufferLocking (Some SupportBufferLocking_DOES_NOT_SUPPORT_BUFFER_LOCKING)).
Proof. apply C59_CommunicationBufferLocking. reflexivity. Qed.
(** PortApiOption succeeds exactly for arguments that describe an object, and makes that one. *)
Theorem C59_PortApiOption kw x : init_PortApiOption kw = Ok x <-> describes_PortApiOption kw x.
Proof. exact (init_PortApiOption_iff kw x). Qed.
Example C59_PortApiOption_example : describes_PortApiOption [("enable_take_address", AStr ""); ("error_handling", AObj (ODataTransformationErrorHandling DataTransformationErrorHandling_NO_TRANSFORMER_ERROR_HANDLING)); ("indirect_api", AStr ""); ("port_arg_values", AList [AObj (OPortDefinedArgumentValue (mkPortDefinedArgumentValue None None)); AObj (OPortDefinedArgumentValue (mkPortDefinedArgumentValue None None))]); ("port", AObj (ORef rc_PortPrototypeRef (mkRef "/p/r" IdentifiableSubTypes_ABSTRACT_PROVIDED_PORT_PROTOTYPE))); ("supported_features", AList [AObj (OCommunicationBufferLocking (mkCommunicationBufferLocking None)); AObj (OCommunicationBufferLocking (mkCommunicationBufferLocking None))]); ("transformer_status_forwarding", AObj (ODataTransformationStatusForwarding DataTransformationStatusForwarding_NO_TRANSFORMER_STATUS_FORWARDING))]
  (mkPortApiOption (Some false) (Some DataTransformationErrorHandling_NO_TRANSFORMER_ERROR_HANDLING) (Some false) ([(mkPortDefinedArgumentValue None None); (mkPortDefinedArgumentValue None None)]) (Some (mkRef "/p/r" IdentifiableSubTypes_ABSTRACT_PROVIDED_PORT_PROTOTYPE)) ([(mkCommunicationBufferLocking None); (mkCommunicationBufferLocking None)]) (Some DataTransformationStatusForwarding_NO_TRANSFORMER_STATUS_FORWARDING)).
Proof. apply C59_PortApiOption. reflexivity. Qed.
Theorem C59_AsynchronousServerCallReturnsEvent_append_disabled_modes x a y : append_AsynchronousServerCallReturnsEvent_disabled_modes x a = Ok y <-> one_more_AsynchronousServerCallReturnsEvent_disabled_modes x a y.
Proof. exact (append_AsynchronousServerCallReturnsEvent_disabled_modes_iff x a y). Qed.
Example C59_AsynchronousServerCallReturnsEvent_append_disabled_modes_example : one_more_AsynchronousServerCallReturnsEvent_disabled_modes (mkAsynchronousServerCallReturnsEvent (mkIdent "N" None None None None None None None) [(mkRModeInAtomicSwcInstanceRef None None None)] None None) (AObj (ORModeInAtomicSwcInstanceRef (mkRModeInAtomicSwcInstanceRef None None None))) (mkAsynchronousServerCallReturnsEvent (mkIdent "N" None None None None None None None) [(mkRModeInAtomicSwcInstanceRef None None None); (mkRModeInAtomicSwcInstanceRef None None None)] None None).
Proof. apply C59_AsynchronousServerCallReturnsEvent_append_disabled_modes. reflexivity. Qed.
Theorem C59_BackgroundEvent_append_disabled_modes x a y : append_BackgroundEvent_disabled_modes x a = Ok y <-> one_more_BackgroundEvent_disabled_modes x a y.
Proof. exact (append_BackgroundEvent_disabled_modes_iff x a y). Qed.
Example C59_BackgroundEvent_append_disabled_modes_example : one_more_BackgroundEvent_disabled_modes (mkBackgroundEvent (mkIdent "N" None None None None None None None) [(mkRModeInAtomicSwcInstanceRef None None None)] None) (AObj (ORModeInAtomicSwcInstanceRef (mkRModeInAtomicSwcInstanceRef None None None))) (mkBackgroundEvent (mkIdent "N" None None None None None None None) [(mkRModeInAtomicSwcInstanceRef None None None); (mkRModeInAtomicSwcInstanceRef None None None)] None).
Proof. apply C59_BackgroundEvent_append_disabled_modes. reflexivity. Qed.
Theorem C59_DataReceiveErrorEvent_append_disabled_modes x a y : append_DataReceiveErrorEvent_disabled_modes x a = Ok y <-> one_more_DataReceiveErrorEvent_disabled_modes x a y.
Proof. exact (append_DataReceiveErrorEvent_disabled_modes_iff x a y). Qed.
Example C59_DataReceiveErrorEvent_append_disabled_modes_example : one_more_DataReceiveErrorEvent_disabled_modes (mkDataReceiveErrorEvent (mkIdent "N" None None None None None None None) [(mkRModeInAtomicSwcInstanceRef None None None)] None None) (AObj (ORModeInAtomicSwcInstanceRef (mkRModeInAtomicSwcInstanceRef None None None))) (mkDataReceiveErrorEvent (mkIdent "N" None None None None None None None) [(mkRModeInAtomicSwcInstanceRef None None None); (mkRModeInAtomicSwcInstanceRef None None None)] None None).
Proof. apply C59_DataReceiveErrorEvent_append_disabled_modes. reflexivity. Qed.
Theorem C59_DataReceivedEvent_append_disabled_modes x a y : append_DataReceivedEvent_disabled_modes x a = Ok y <-> one_more_DataReceivedEvent_disabled_modes x a y.
Proof. exact (append_DataReceivedEvent_disabled_modes_iff x a y). Qed.
Example C59_DataReceivedEvent_append_disabled_modes_example : one_more_DataReceivedEvent_disabled_modes (mkDataReceivedEvent (mkIdent "N" None None None None None None None) [(mkRModeInAtomicSwcInstanceRef None None None)] None None) (AObj (ORModeInAtomicSwcInstanceRef (mkRModeInAtomicSwcInstanceRef None None None))) (mkDataReceivedEvent (mkIdent "N" None None None None None None None) [(mkRModeInAtomicSwcInstanceRef None None None); (mkRModeInAtomicSwcInstanceRef None None None)] None None).
Proof. apply C59_DataReceivedEvent_append_disabled_modes. reflexivity. Qed.
Theorem C59_DataSendCompletedEvent_append_disabled_modes x a y : append_DataSendCompletedEvent_disabled_modes x a = Ok y <-> one_more_DataSendCompletedEvent_disabled_modes x a y.
Proof. exact (append_DataSendCompletedEvent_disabled_modes_iff x a y). Qed.
Example C59_DataSendCompletedEvent_append_disabled_modes_example : one_more_DataSendCompletedEvent_disabled_modes (mkDataSendCompletedEvent (mkIdent "N" None None None None None None None) [(mkRModeInAtomicSwcInstanceRef None None None)] None None) (AObj (ORModeInAtomicSwcInstanceRef (mkRModeInAtomicSwcInstanceRef None None None))) (mkDataSendCompletedEvent (mkIdent "N" None None None None None None None) [(mkRModeInAtomicSwcInstanceRef None None None); (mkRModeInAtomicSwcInstanceRef None None None)] None None).
Proof. apply C59_DataSendCompletedEvent_append_disabled_modes. reflexivity. Qed.
Theorem C59_DataWriteCompletedEvent_append_disabled_modes x a y : append_DataWriteCompletedEvent_disabled_modes x a = Ok y <-> one_more_DataWriteCompletedEvent_disabled_modes x a y.
Proof. exact (append_DataWriteCompletedEvent_disabled_modes_iff x a y). Qed.
Example C59_DataWriteCompletedEvent_append_disabled_modes_example : one_more_DataWriteCompletedEvent_disabled_modes (mkDataWriteCompletedEvent (mkIdent "N" None None None None None None None) [(mkRModeInAtomicSwcInstanceRef None None None)] None None) (AObj (ORModeInAtomicSwcInstanceRef (mkRModeInAtomicSwcInstanceRef None None None))) (mkDataWriteCompletedEvent (mkIdent "N" None None None None None None None) [(mkRModeInAtomicSwcInstanceRef None None None); (mkRModeInAtomicSwcInstanceRef None None None)] None None).
Proof. apply C59_DataWriteCompletedEvent_append_disabled_modes. reflexivity. Qed.
Theorem C59_ExternalTriggerOccurredEvent_append_disabled_modes x a y : append_ExternalTriggerOccurredEvent_disabled_modes x a = Ok y <-> one_more_ExternalTriggerOccurredEvent_disabled_modes x a y.
Proof. exact (append_ExternalTriggerOccurredEvent_disabled_modes_iff x a y). Qed.
Example C59_ExternalTriggerOccurredEvent_append_disabled_modes_example : one_more_ExternalTriggerOccurredEvent_disabled_modes (mkExternalTriggerOccurredEvent (mkIdent "N" None None None None None None None) [(mkRModeInAtomicSwcInstanceRef None None None)] None None) (AObj (ORModeInAtomicSwcInstanceRef (mkRModeInAtomicSwcInstanceRef None None None))) (mkExternalTriggerOccurredEvent (mkIdent "N" None None None None None None None) [(mkRModeInAtomicSwcInstanceRef None None None); (mkRModeInAtomicSwcInstanceRef None None None)] None None).
Proof. apply C59_ExternalTriggerOccurredEvent_append_disabled_modes. reflexivity. Qed.
Theorem C59_InitEvent_append_disabled_modes x a y : append_InitEvent_disabled_modes x a = Ok y <-> one_more_InitEvent_disabled_modes x a y.
Proof. exact (append_InitEvent_disabled_modes_iff x a y). Qed.
Example C59_InitEvent_append_disabled_modes_example : one_more_InitEvent_disabled_modes (mkInitEvent (mkIdent "N" None None None None None None None) [(mkRModeInAtomicSwcInstanceRef None None None)] None) (AObj (ORModeInAtomicSwcInstanceRef (mkRModeInAtomicSwcInstanceRef None None None))) (mkInitEvent (mkIdent "N" None None None None None None None) [(mkRModeInAtomicSwcInstanceRef None None None); (mkRModeInAtomicSwcInstanceRef None None None)] None).
Proof. apply C59_InitEvent_append_disabled_modes. reflexivity. Qed.
Theorem C59_InternalTriggerOccurredEvent_append_disabled_modes x a y : append_InternalTriggerOccurredEvent_disabled_modes x a = Ok y <-> one_more_InternalTriggerOccurredEvent_disabled_modes x a y.
Proof. exact (append_InternalTriggerOccurredEvent_disabled_modes_iff x a y). Qed.
Example C59_InternalTriggerOccurredEvent_append_disabled_modes_example : one_more_InternalTriggerOccurredEvent_disabled_modes (mkInternalTriggerOccurredEvent (mkIdent "N" None None None None None None None) [(mkRModeInAtomicSwcInstanceRef None None None)] None None) (AObj (ORModeInAtomicSwcInstanceRef (mkRModeInAtomicSwcInstanceRef None None None))) (mkInternalTriggerOccurredEvent (mkIdent "N" None None None None None None None) [(mkRModeInAtomicSwcInstanceRef None None None); (mkRModeInAtomicSwcInstanceRef None None None)] None None).
Proof. apply C59_InternalTriggerOccurredEvent_append_disabled_modes. reflexivity. Qed.
Theorem C59_ModeSwitchedAckEvent_append_disabled_modes x a y : append_ModeSwitchedAckEvent_disabled_modes x a = Ok y <-> one_more_ModeSwitchedAckEvent_disabled_modes x a y.
Proof. exact (append_ModeSwitchedAckEvent_disabled_modes_iff x a y). Qed.
Example C59_ModeSwitchedAckEvent_append_disabled_modes_example : one_more_ModeSwitchedAckEvent_disabled_modes (mkModeSwitchedAckEvent (mkIdent "N" None None None None None None None) [(mkRModeInAtomicSwcInstanceRef None None None)] None None) (AObj (ORModeInAtomicSwcInstanceRef (mkRModeInAtomicSwcInstanceRef None None None))) (mkModeSwitchedAckEvent (mkIdent "N" None None None None None None None) [(mkRModeInAtomicSwcInstanceRef None None None); (mkRModeInAtomicSwcInstanceRef None None None)] None None).
Proof. apply C59_ModeSwitchedAckEvent_append_disabled_modes. reflexivity. Qed.
Theorem C59_OperationInvokedEvent_append_disabled_modes x a y : append_OperationInvokedEvent_disabled_modes x a = Ok y <-> one_more_OperationInvokedEvent_disabled_modes x a y.
Proof. exact (append_OperationInvokedEvent_disabled_modes_iff x a y). Qed.
Example C59_OperationInvokedEvent_append_disabled_modes_example : one_more_OperationInvokedEvent_disabled_modes (mkOperationInvokedEvent (mkIdent "N" None None None None None None None) [(mkRModeInAtomicSwcInstanceRef None None None)] None None) (AObj (ORModeInAtomicSwcInstanceRef (mkRModeInAtomicSwcInstanceRef None None None))) (mkOperationInvokedEvent (mkIdent "N" None None None None None None None) [(mkRModeInAtomicSwcInstanceRef None None None); (mkRModeInAtomicSwcInstanceRef None None None)] None None).
Proof. apply C59_OperationInvokedEvent_append_disabled_modes. reflexivity. Qed.
Theorem C59_SwcModeManagerErrorEvent_append_disabled_modes x a y : append_SwcModeManagerErrorEvent_disabled_modes x a = Ok y <-> one_more_SwcModeManagerErrorEvent_disabled_modes x a y.
Proof. exact (append_SwcModeManagerErrorEvent_disabled_modes_iff x a y). Qed.
Example C59_SwcModeManagerErrorEvent_append_disabled_modes_example : one_more_SwcModeManagerErrorEvent_disabled_modes (mkSwcModeManagerErrorEvent (mkIdent "N" None None None None None None None) [(mkRModeInAtomicSwcInstanceRef None None None)] None None) (AObj (ORModeInAtomicSwcInstanceRef (mkRModeInAtomicSwcInstanceRef None None None))) (mkSwcModeManagerErrorEvent (mkIdent "N" None None None None None None None) [(mkRModeInAtomicSwcInstanceRef None None None); (mkRModeInAtomicSwcInstanceRef None None None)] None None).
Proof. apply C59_SwcModeManagerErrorEvent_append_disabled_modes. reflexivity. Qed.
Theorem C59_SwcModeSwitchEvent_append_disabled_modes x a y : append_SwcModeSwitchEvent_disabled_modes x a = Ok y <-> one_more_SwcModeSwitchEvent_disabled_modes x a y.
Proof. exact (append_SwcModeSwitchEvent_disabled_modes_iff x a y). Qed.
Example C59_SwcModeSwitchEvent_append_disabled_modes_example : one_more_SwcModeSwitchEvent_disabled_modes (mkSwcModeSwitchEvent (mkIdent "N" None None None None None None None) [(mkRModeInAtomicSwcInstanceRef None None None)] None None None) (AObj (ORModeInAtomicSwcInstanceRef (mkRModeInAtomicSwcInstanceRef None None None))) (mkSwcModeSwitchEvent (mkIdent "N" None None None None None None None) [(mkRModeInAtomicSwcInstanceRef None None None); (mkRModeInAtomicSwcInstanceRef None None None)] None None None).
Proof. apply C59_SwcModeSwitchEvent_append_disabled_modes. reflexivity. Qed.
Theorem C59_TimingEvent_append_disabled_modes x a y : append_TimingEvent_disabled_modes x a = Ok y <-> one_more_TimingEvent_disabled_modes x a y.
Proof. exact (append_TimingEvent_disabled_modes_iff x a y). Qed.
Example C59_TimingEvent_append_disabled_modes_example : one_more_TimingEvent_disabled_modes (mkTimingEvent (mkIdent "N" None None None None None None None) [(mkRModeInAtomicSwcInstanceRef None None None)] None None None) (AObj (ORModeInAtomicSwcInstanceRef (mkRModeInAtomicSwcInstanceRef None None None))) (mkTimingEvent (mkIdent "N" None None None None None None None) [(mkRModeInAtomicSwcInstanceRef None None None); (mkRModeInAtomicSwcInstanceRef None None None)] None None None).
Proof. apply C59_TimingEvent_append_disabled_modes. reflexivity. Qed.
Theorem C59_TransformerHardErrorEvent_append_disabled_modes x a y : append_TransformerHardErrorEvent_disabled_modes x a = Ok y <-> one_more_TransformerHardErrorEvent_disabled_modes x a y.
Proof. exact (append_TransformerHardErrorEvent_disabled_modes_iff x a y). Qed.
Example C59_TransformerHardErrorEvent_append_disabled_modes_example : one_more_TransformerHardErrorEvent_disabled_modes (mkTransformerHardErrorEvent (mkIdent "N" None None None None None None None) [(mkRModeInAtomicSwcInstanceRef None None None)] None None None None) (AObj (ORModeInAtomicSwcInstanceRef (mkRModeInAtomicSwcInstanceRef None None None))) (mkTransformerHardErrorEvent (mkIdent "N" None None None None None None None) [(mkRModeInAtomicSwcInstanceRef None None None); (mkRModeInAtomicSwcInstanceRef None None None)] None None None None).
Proof. apply C59_TransformerHardErrorEvent_append_disabled_modes. reflexivity. Qed.
Theorem C59_PortApiOption_append_port_arg_values x a y : append_PortApiOption_port_arg_values x a = Ok y <-> one_more_PortApiOption_port_arg_values x a y.
Proof. exact (append_PortApiOption_port_arg_values_iff x a y). Qed.
Example C59_PortApiOption_append_port_arg_values_example : one_more_PortApiOption_port_arg_values (mkPortApiOption None None None [(mkPortDefinedArgumentValue None None)] None [] None) (AObj (OPortDefinedArgumentValue (mkPortDefinedArgumentValue None None))) (mkPortApiOption None None None [(mkPortDefinedArgumentValue None None); (mkPortDefinedArgumentValue None None)] None [] None).
Proof. apply C59_PortApiOption_append_port_arg_values. reflexivity. Qed.
Theorem C59_PortApiOption_append_supported_features x a y : append_PortApiOption_supported_features x a = Ok y <-> one_more_PortApiOption_supported_features x a y.
Proof. exact (append_PortApiOption_supported_features_iff x a y). Qed.
Example C59_PortApiOption_append_supported_features_example : one_more_PortApiOption_supported_features (mkPortApiOption None None None [] None [(mkCommunicationBufferLocking None)] None) (AObj (OCommunicationBufferLocking (mkCommunicationBufferLocking None))) (mkPortApiOption None None None [] None [(mkCommunicationBufferLocking None); (mkCommunicationBufferLocking None)] None).
Proof. apply C59_PortApiOption_append_supported_features. reflexivity. Qed.

(** Disabled modes given in a tuple are ignored without an error. *)
Theorem C59_tuple_refuted name l : init_InitEvent name [("disabled_modes", ATuple l)] = init_InitEvent name [].
Proof. reflexivity. Qed.
(** A tuple of one mode is refused with the wrong exception, more than two modes are accepted. *)
Theorem C59_mode_count_refuted name m l : init_SwcModeSwitchEvent name [("mode", ATuple [AObj (ORModeInAtomicSwcInstanceRef m)])] = Err IndexError /\
  (let a := AObj (ORModeInAtomicSwcInstanceRef m) in init_SwcModeSwitchEvent name [("mode", ATuple (a :: a :: l))] = init_SwcModeSwitchEvent name [("mode", ATuple [a; a])]).
Proof. split; reflexivity. Qed.

Print Assumptions C59_AsynchronousServerCallReturnsEvent.
Print Assumptions C59_BackgroundEvent.
Print Assumptions C59_DataReceiveErrorEvent.
Print Assumptions C59_DataReceiveErrorEvent_make.
Print Assumptions C59_DataReceivedEvent.
Print Assumptions C59_DataReceivedEvent_make.
Print Assumptions C59_DataSendCompletedEvent.
Print Assumptions C59_DataWriteCompletedEvent.
Print Assumptions C59_ExternalTriggerOccurredEvent.
Print Assumptions C59_ExternalTriggerOccurredEvent_make.
Print Assumptions C59_InitEvent.
Print Assumptions C59_InternalTriggerOccurredEvent.
Print Assumptions C59_ModeSwitchedAckEvent.
Print Assumptions C59_OperationInvokedEvent.
Print Assumptions C59_OperationInvokedEvent_make.
Print Assumptions C59_SwcModeManagerErrorEvent.
Print Assumptions C59_SwcModeManagerErrorEvent_make.
Print Assumptions C59_SwcModeSwitchEvent.
Print Assumptions C59_SwcModeSwitchEvent_make.
Print Assumptions C59_TimingEvent.
Print Assumptions C59_TransformerHardErrorEvent.
Print Assumptions C59_PortDefinedArgumentValue.
Print Assumptions C59_CommunicationBufferLocking.
Print Assumptions C59_PortApiOption.
Print Assumptions C59_AsynchronousServerCallReturnsEvent_append_disabled_modes.
Print Assumptions C59_BackgroundEvent_append_disabled_modes.
Print Assumptions C59_DataReceiveErrorEvent_append_disabled_modes.
Print Assumptions C59_DataReceivedEvent_append_disabled_modes.
Print Assumptions C59_DataSendCompletedEvent_append_disabled_modes.
Print Assumptions C59_DataWriteCompletedEvent_append_disabled_modes.
Print Assumptions C59_ExternalTriggerOccurredEvent_append_disabled_modes.
Print Assumptions C59_InitEvent_append_disabled_modes.
Print Assumptions C59_InternalTriggerOccurredEvent_append_disabled_modes.
Print Assumptions C59_ModeSwitchedAckEvent_append_disabled_modes.
Print Assumptions C59_OperationInvokedEvent_append_disabled_modes.
Print Assumptions C59_SwcModeManagerErrorEvent_append_disabled_modes.
Print Assumptions C59_SwcModeSwitchEvent_append_disabled_modes.
Print Assumptions C59_TimingEvent_append_disabled_modes.
Print Assumptions C59_TransformerHardErrorEvent_append_disabled_modes.
Print Assumptions C59_PortApiOption_append_port_arg_values.
Print Assumptions C59_PortApiOption_append_supported_features.
Print Assumptions C59_tuple_refuted.
Print Assumptions C59_mode_count_refuted.
