(** Which events and port API options given arguments describe, independently of how they are made. *)
From Verif Require Import Base MNum MXml MEnum MRefTab MRef MCodec MElem0 MElem1 MElemA MElemB MElemC MElem2 MElemD MElem3 MElem4 MElemE MElem5 MElemF MArxml MFind MValue MEvent MPort SPort MAccess SAccess MRunnable SRunnable MIface SIface MData SFormat SData MConst SConst MParts SParts MPoint SPoint.
Open Scope list_scope.

(** One mode, or the first two of a tuple. *)
Inductive means_switch_mode : arg -> SwitchMode -> Prop :=
| mode_one a m : is_a ORModeInAtomicSwcInstanceRef a m -> means_switch_mode a (OneMode m)
| mode_two a b l m n : is_a ORModeInAtomicSwcInstanceRef a m -> is_a ORModeInAtomicSwcInstanceRef b n -> means_switch_mode (ATuple (a :: b :: l)) (TwoModes m n).

(** ** Events *)
Definition describes_AsynchronousServerCallReturnsEvent (name : string) (kw : keyword_args) (x : AsynchronousServerCallReturnsEvent) : Prop :=
  only (["start_on_event"; "event_source"; "disabled_modes"] ++ common_arguments) kw /\
  identity name kw (AsynchronousServerCallReturnsEvent_ident x) /\
  holds_list (means_if_any (is_a ORModeInAtomicSwcInstanceRef)) kw "disabled_modes" (AsynchronousServerCallReturnsEvent_disabled_modes x) /\
  holds (means_ref [IdentifiableSubTypes_RUNNABLE_ENTITY]) kw "start_on_event" (AsynchronousServerCallReturnsEvent_start_on_event x) /\
  holds (means_ref [IdentifiableSubTypes_ASYNCHRONOUS_SERVER_CALL_RESULT_POINT]) kw "event_source" (AsynchronousServerCallReturnsEvent_event_source x).
(** One more at the end of disabled_modes, nothing else changed. *)
Definition one_more_AsynchronousServerCallReturnsEvent_disabled_modes (x : AsynchronousServerCallReturnsEvent) (a : arg) (y : AsynchronousServerCallReturnsEvent) : Prop :=
  exists e, is_a ORModeInAtomicSwcInstanceRef a e /\
  AsynchronousServerCallReturnsEvent_ident y = AsynchronousServerCallReturnsEvent_ident x /\ AsynchronousServerCallReturnsEvent_disabled_modes y = AsynchronousServerCallReturnsEvent_disabled_modes x ++ [e] /\ AsynchronousServerCallReturnsEvent_start_on_event y = AsynchronousServerCallReturnsEvent_start_on_event x /\ AsynchronousServerCallReturnsEvent_event_source y = AsynchronousServerCallReturnsEvent_event_source x.
Definition describes_BackgroundEvent (name : string) (kw : keyword_args) (x : BackgroundEvent) : Prop :=
  only (["start_on_event"; "disabled_modes"] ++ common_arguments) kw /\
  identity name kw (BackgroundEvent_ident x) /\
  holds_list (means_if_any (is_a ORModeInAtomicSwcInstanceRef)) kw "disabled_modes" (BackgroundEvent_disabled_modes x) /\
  holds (means_ref [IdentifiableSubTypes_RUNNABLE_ENTITY]) kw "start_on_event" (BackgroundEvent_start_on_event x).
(** One more at the end of disabled_modes, nothing else changed. *)
Definition one_more_BackgroundEvent_disabled_modes (x : BackgroundEvent) (a : arg) (y : BackgroundEvent) : Prop :=
  exists e, is_a ORModeInAtomicSwcInstanceRef a e /\
  BackgroundEvent_ident y = BackgroundEvent_ident x /\ BackgroundEvent_disabled_modes y = BackgroundEvent_disabled_modes x ++ [e] /\ BackgroundEvent_start_on_event y = BackgroundEvent_start_on_event x.
Definition describes_DataReceiveErrorEvent (name : string) (kw : keyword_args) (x : DataReceiveErrorEvent) : Prop :=
  only (["start_on_event"; "data"; "disabled_modes"] ++ common_arguments) kw /\
  identity name kw (DataReceiveErrorEvent_ident x) /\
  holds_list (means_if_any (is_a ORModeInAtomicSwcInstanceRef)) kw "disabled_modes" (DataReceiveErrorEvent_disabled_modes x) /\
  holds (means_ref [IdentifiableSubTypes_RUNNABLE_ENTITY]) kw "start_on_event" (DataReceiveErrorEvent_start_on_event x) /\
  holds (is_a ORVariableInAtomicSwcInstanceRef) kw "data" (DataReceiveErrorEvent_data x).
Definition describes_make_DataReceiveErrorEvent (name : string) (kw : keyword_args) (x : DataReceiveErrorEvent) : Prop :=
  only (["start_on_event"; "context_port"; "target_data_element"; "disabled_modes"] ++ common_arguments) kw /\
  identity name kw (DataReceiveErrorEvent_ident x) /\
  holds_list (means_if_any (is_a ORModeInAtomicSwcInstanceRef)) kw "disabled_modes" (DataReceiveErrorEvent_disabled_modes x) /\
  holds (means_ref [IdentifiableSubTypes_RUNNABLE_ENTITY]) kw "start_on_event" (DataReceiveErrorEvent_start_on_event x) /\
  exists d, DataReceiveErrorEvent_data x = Some d /\
    holds (means_ref kinds_of_AbstractRequiredPortPrototypeRef) kw "context_port" (RVariableInAtomicSwcInstanceRef_context_port d) /\
    holds (means_ref [IdentifiableSubTypes_VARIABLE_DATA_PROTOTYPE]) kw "target_data_element" (RVariableInAtomicSwcInstanceRef_target_data_element d).
(** One more at the end of disabled_modes, nothing else changed. *)
Definition one_more_DataReceiveErrorEvent_disabled_modes (x : DataReceiveErrorEvent) (a : arg) (y : DataReceiveErrorEvent) : Prop :=
  exists e, is_a ORModeInAtomicSwcInstanceRef a e /\
  DataReceiveErrorEvent_ident y = DataReceiveErrorEvent_ident x /\ DataReceiveErrorEvent_disabled_modes y = DataReceiveErrorEvent_disabled_modes x ++ [e] /\ DataReceiveErrorEvent_start_on_event y = DataReceiveErrorEvent_start_on_event x /\ DataReceiveErrorEvent_data y = DataReceiveErrorEvent_data x.
Definition describes_DataReceivedEvent (name : string) (kw : keyword_args) (x : DataReceivedEvent) : Prop :=
  only (["start_on_event"; "data"; "disabled_modes"] ++ common_arguments) kw /\
  identity name kw (DataReceivedEvent_ident x) /\
  holds_list (means_if_any (is_a ORModeInAtomicSwcInstanceRef)) kw "disabled_modes" (DataReceivedEvent_disabled_modes x) /\
  holds (means_ref [IdentifiableSubTypes_RUNNABLE_ENTITY]) kw "start_on_event" (DataReceivedEvent_start_on_event x) /\
  holds (is_a ORVariableInAtomicSwcInstanceRef) kw "data" (DataReceivedEvent_data x).
Definition describes_make_DataReceivedEvent (name : string) (kw : keyword_args) (x : DataReceivedEvent) : Prop :=
  only (["start_on_event"; "context_port"; "target_data_element"; "disabled_modes"] ++ common_arguments) kw /\
  identity name kw (DataReceivedEvent_ident x) /\
  holds_list (means_if_any (is_a ORModeInAtomicSwcInstanceRef)) kw "disabled_modes" (DataReceivedEvent_disabled_modes x) /\
  holds (means_ref [IdentifiableSubTypes_RUNNABLE_ENTITY]) kw "start_on_event" (DataReceivedEvent_start_on_event x) /\
  exists d, DataReceivedEvent_data x = Some d /\
    holds (means_ref kinds_of_AbstractRequiredPortPrototypeRef) kw "context_port" (RVariableInAtomicSwcInstanceRef_context_port d) /\
    holds (means_ref [IdentifiableSubTypes_VARIABLE_DATA_PROTOTYPE]) kw "target_data_element" (RVariableInAtomicSwcInstanceRef_target_data_element d).
(** One more at the end of disabled_modes, nothing else changed. *)
Definition one_more_DataReceivedEvent_disabled_modes (x : DataReceivedEvent) (a : arg) (y : DataReceivedEvent) : Prop :=
  exists e, is_a ORModeInAtomicSwcInstanceRef a e /\
  DataReceivedEvent_ident y = DataReceivedEvent_ident x /\ DataReceivedEvent_disabled_modes y = DataReceivedEvent_disabled_modes x ++ [e] /\ DataReceivedEvent_start_on_event y = DataReceivedEvent_start_on_event x /\ DataReceivedEvent_data y = DataReceivedEvent_data x.
Definition describes_DataSendCompletedEvent (name : string) (kw : keyword_args) (x : DataSendCompletedEvent) : Prop :=
  only (["start_on_event"; "event_source"; "disabled_modes"] ++ common_arguments) kw /\
  identity name kw (DataSendCompletedEvent_ident x) /\
  holds_list (means_if_any (is_a ORModeInAtomicSwcInstanceRef)) kw "disabled_modes" (DataSendCompletedEvent_disabled_modes x) /\
  holds (means_ref [IdentifiableSubTypes_RUNNABLE_ENTITY]) kw "start_on_event" (DataSendCompletedEvent_start_on_event x) /\
  holds (means_ref [IdentifiableSubTypes_VARIABLE_ACCESS]) kw "event_source" (DataSendCompletedEvent_event_source x).
(** One more at the end of disabled_modes, nothing else changed. *)
Definition one_more_DataSendCompletedEvent_disabled_modes (x : DataSendCompletedEvent) (a : arg) (y : DataSendCompletedEvent) : Prop :=
  exists e, is_a ORModeInAtomicSwcInstanceRef a e /\
  DataSendCompletedEvent_ident y = DataSendCompletedEvent_ident x /\ DataSendCompletedEvent_disabled_modes y = DataSendCompletedEvent_disabled_modes x ++ [e] /\ DataSendCompletedEvent_start_on_event y = DataSendCompletedEvent_start_on_event x /\ DataSendCompletedEvent_event_source y = DataSendCompletedEvent_event_source x.
Definition describes_DataWriteCompletedEvent (name : string) (kw : keyword_args) (x : DataWriteCompletedEvent) : Prop :=
  only (["start_on_event"; "event_source"; "disabled_modes"] ++ common_arguments) kw /\
  identity name kw (DataWriteCompletedEvent_ident x) /\
  holds_list (means_if_any (is_a ORModeInAtomicSwcInstanceRef)) kw "disabled_modes" (DataWriteCompletedEvent_disabled_modes x) /\
  holds (means_ref [IdentifiableSubTypes_RUNNABLE_ENTITY]) kw "start_on_event" (DataWriteCompletedEvent_start_on_event x) /\
  holds (means_ref [IdentifiableSubTypes_VARIABLE_ACCESS]) kw "event_source" (DataWriteCompletedEvent_event_source x).
(** One more at the end of disabled_modes, nothing else changed. *)
Definition one_more_DataWriteCompletedEvent_disabled_modes (x : DataWriteCompletedEvent) (a : arg) (y : DataWriteCompletedEvent) : Prop :=
  exists e, is_a ORModeInAtomicSwcInstanceRef a e /\
  DataWriteCompletedEvent_ident y = DataWriteCompletedEvent_ident x /\ DataWriteCompletedEvent_disabled_modes y = DataWriteCompletedEvent_disabled_modes x ++ [e] /\ DataWriteCompletedEvent_start_on_event y = DataWriteCompletedEvent_start_on_event x /\ DataWriteCompletedEvent_event_source y = DataWriteCompletedEvent_event_source x.
Definition describes_ExternalTriggerOccurredEvent (name : string) (kw : keyword_args) (x : ExternalTriggerOccurredEvent) : Prop :=
  only (["start_on_event"; "trigger"; "disabled_modes"] ++ common_arguments) kw /\
  identity name kw (ExternalTriggerOccurredEvent_ident x) /\
  holds_list (means_if_any (is_a ORModeInAtomicSwcInstanceRef)) kw "disabled_modes" (ExternalTriggerOccurredEvent_disabled_modes x) /\
  holds (means_ref [IdentifiableSubTypes_RUNNABLE_ENTITY]) kw "start_on_event" (ExternalTriggerOccurredEvent_start_on_event x) /\
  holds (is_a ORTriggerInAtomicSwcInstanceRef) kw "trigger" (ExternalTriggerOccurredEvent_trigger x).
Definition describes_make_ExternalTriggerOccurredEvent (name : string) (kw : keyword_args) (x : ExternalTriggerOccurredEvent) : Prop :=
  only (["start_on_event"; "context_port"; "target_trigger"; "disabled_modes"] ++ common_arguments) kw /\
  identity name kw (ExternalTriggerOccurredEvent_ident x) /\
  holds_list (means_if_any (is_a ORModeInAtomicSwcInstanceRef)) kw "disabled_modes" (ExternalTriggerOccurredEvent_disabled_modes x) /\
  holds (means_ref [IdentifiableSubTypes_RUNNABLE_ENTITY]) kw "start_on_event" (ExternalTriggerOccurredEvent_start_on_event x) /\
  exists d, ExternalTriggerOccurredEvent_trigger x = Some d /\
    holds (means_ref kinds_of_AbstractRequiredPortPrototypeRef) kw "context_port" (RTriggerInAtomicSwcInstanceRef_context_port d) /\
    holds (means_ref [IdentifiableSubTypes_TRIGGER]) kw "target_trigger" (RTriggerInAtomicSwcInstanceRef_target_trigger d).
(** One more at the end of disabled_modes, nothing else changed. *)
Definition one_more_ExternalTriggerOccurredEvent_disabled_modes (x : ExternalTriggerOccurredEvent) (a : arg) (y : ExternalTriggerOccurredEvent) : Prop :=
  exists e, is_a ORModeInAtomicSwcInstanceRef a e /\
  ExternalTriggerOccurredEvent_ident y = ExternalTriggerOccurredEvent_ident x /\ ExternalTriggerOccurredEvent_disabled_modes y = ExternalTriggerOccurredEvent_disabled_modes x ++ [e] /\ ExternalTriggerOccurredEvent_start_on_event y = ExternalTriggerOccurredEvent_start_on_event x /\ ExternalTriggerOccurredEvent_trigger y = ExternalTriggerOccurredEvent_trigger x.
Definition describes_InitEvent (name : string) (kw : keyword_args) (x : InitEvent) : Prop :=
  only (["start_on_event"; "disabled_modes"] ++ common_arguments) kw /\
  identity name kw (InitEvent_ident x) /\
  holds_list (means_if_any (is_a ORModeInAtomicSwcInstanceRef)) kw "disabled_modes" (InitEvent_disabled_modes x) /\
  holds (means_ref [IdentifiableSubTypes_RUNNABLE_ENTITY]) kw "start_on_event" (InitEvent_start_on_event x).
(** One more at the end of disabled_modes, nothing else changed. *)
Definition one_more_InitEvent_disabled_modes (x : InitEvent) (a : arg) (y : InitEvent) : Prop :=
  exists e, is_a ORModeInAtomicSwcInstanceRef a e /\
  InitEvent_ident y = InitEvent_ident x /\ InitEvent_disabled_modes y = InitEvent_disabled_modes x ++ [e] /\ InitEvent_start_on_event y = InitEvent_start_on_event x.
Definition describes_InternalTriggerOccurredEvent (name : string) (kw : keyword_args) (x : InternalTriggerOccurredEvent) : Prop :=
  only (["start_on_event"; "event_source"; "disabled_modes"] ++ common_arguments) kw /\
  identity name kw (InternalTriggerOccurredEvent_ident x) /\
  holds_list (means_if_any (is_a ORModeInAtomicSwcInstanceRef)) kw "disabled_modes" (InternalTriggerOccurredEvent_disabled_modes x) /\
  holds (means_ref [IdentifiableSubTypes_RUNNABLE_ENTITY]) kw "start_on_event" (InternalTriggerOccurredEvent_start_on_event x) /\
  holds (means_ref [IdentifiableSubTypes_INTERNAL_TRIGGERING_POINT]) kw "event_source" (InternalTriggerOccurredEvent_event_source x).
(** One more at the end of disabled_modes, nothing else changed. *)
Definition one_more_InternalTriggerOccurredEvent_disabled_modes (x : InternalTriggerOccurredEvent) (a : arg) (y : InternalTriggerOccurredEvent) : Prop :=
  exists e, is_a ORModeInAtomicSwcInstanceRef a e /\
  InternalTriggerOccurredEvent_ident y = InternalTriggerOccurredEvent_ident x /\ InternalTriggerOccurredEvent_disabled_modes y = InternalTriggerOccurredEvent_disabled_modes x ++ [e] /\ InternalTriggerOccurredEvent_start_on_event y = InternalTriggerOccurredEvent_start_on_event x /\ InternalTriggerOccurredEvent_event_source y = InternalTriggerOccurredEvent_event_source x.
Definition describes_ModeSwitchedAckEvent (name : string) (kw : keyword_args) (x : ModeSwitchedAckEvent) : Prop :=
  only (["start_on_event"; "event_source"; "disabled_modes"] ++ common_arguments) kw /\
  identity name kw (ModeSwitchedAckEvent_ident x) /\
  holds_list (means_if_any (is_a ORModeInAtomicSwcInstanceRef)) kw "disabled_modes" (ModeSwitchedAckEvent_disabled_modes x) /\
  holds (means_ref [IdentifiableSubTypes_RUNNABLE_ENTITY]) kw "start_on_event" (ModeSwitchedAckEvent_start_on_event x) /\
  holds (means_ref [IdentifiableSubTypes_MODE_SWITCH_POINT]) kw "event_source" (ModeSwitchedAckEvent_event_source x).
(** One more at the end of disabled_modes, nothing else changed. *)
Definition one_more_ModeSwitchedAckEvent_disabled_modes (x : ModeSwitchedAckEvent) (a : arg) (y : ModeSwitchedAckEvent) : Prop :=
  exists e, is_a ORModeInAtomicSwcInstanceRef a e /\
  ModeSwitchedAckEvent_ident y = ModeSwitchedAckEvent_ident x /\ ModeSwitchedAckEvent_disabled_modes y = ModeSwitchedAckEvent_disabled_modes x ++ [e] /\ ModeSwitchedAckEvent_start_on_event y = ModeSwitchedAckEvent_start_on_event x /\ ModeSwitchedAckEvent_event_source y = ModeSwitchedAckEvent_event_source x.
Definition describes_OperationInvokedEvent (name : string) (kw : keyword_args) (x : OperationInvokedEvent) : Prop :=
  only (["start_on_event"; "operation"; "disabled_modes"] ++ common_arguments) kw /\
  identity name kw (OperationInvokedEvent_ident x) /\
  holds_list (means_if_any (is_a ORModeInAtomicSwcInstanceRef)) kw "disabled_modes" (OperationInvokedEvent_disabled_modes x) /\
  holds (means_ref [IdentifiableSubTypes_RUNNABLE_ENTITY]) kw "start_on_event" (OperationInvokedEvent_start_on_event x) /\
  holds (is_a OPOperationInAtomicSwcInstanceRef) kw "operation" (OperationInvokedEvent_operation x).
Definition describes_make_OperationInvokedEvent (name : string) (kw : keyword_args) (x : OperationInvokedEvent) : Prop :=
  only (["start_on_event"; "context_port"; "target_provided_operation"; "disabled_modes"] ++ common_arguments) kw /\
  identity name kw (OperationInvokedEvent_ident x) /\
  holds_list (means_if_any (is_a ORModeInAtomicSwcInstanceRef)) kw "disabled_modes" (OperationInvokedEvent_disabled_modes x) /\
  holds (means_ref [IdentifiableSubTypes_RUNNABLE_ENTITY]) kw "start_on_event" (OperationInvokedEvent_start_on_event x) /\
  exists d, OperationInvokedEvent_operation x = Some d /\
    holds (means_ref kinds_of_AbstractProvidedPortPrototypeRef) kw "context_port" (POperationInAtomicSwcInstanceRef_context_port d) /\
    holds (means_ref [IdentifiableSubTypes_CLIENT_SERVER_OPERATION]) kw "target_provided_operation" (POperationInAtomicSwcInstanceRef_target_provided_operation d).
(** One more at the end of disabled_modes, nothing else changed. *)
Definition one_more_OperationInvokedEvent_disabled_modes (x : OperationInvokedEvent) (a : arg) (y : OperationInvokedEvent) : Prop :=
  exists e, is_a ORModeInAtomicSwcInstanceRef a e /\
  OperationInvokedEvent_ident y = OperationInvokedEvent_ident x /\ OperationInvokedEvent_disabled_modes y = OperationInvokedEvent_disabled_modes x ++ [e] /\ OperationInvokedEvent_start_on_event y = OperationInvokedEvent_start_on_event x /\ OperationInvokedEvent_operation y = OperationInvokedEvent_operation x.
Definition describes_SwcModeManagerErrorEvent (name : string) (kw : keyword_args) (x : SwcModeManagerErrorEvent) : Prop :=
  only (["start_on_event"; "mode_group"; "disabled_modes"] ++ common_arguments) kw /\
  identity name kw (SwcModeManagerErrorEvent_ident x) /\
  holds_list (means_if_any (is_a ORModeInAtomicSwcInstanceRef)) kw "disabled_modes" (SwcModeManagerErrorEvent_disabled_modes x) /\
  holds (means_ref [IdentifiableSubTypes_RUNNABLE_ENTITY]) kw "start_on_event" (SwcModeManagerErrorEvent_start_on_event x) /\
  holds (is_a (fun e => OModeGroupInAtomicSwcInstanceRef (ModeGroup_P e))) kw "mode_group" (SwcModeManagerErrorEvent_mode_group x).
Definition describes_make_SwcModeManagerErrorEvent (name : string) (kw : keyword_args) (x : SwcModeManagerErrorEvent) : Prop :=
  only (["start_on_event"; "context_port"; "context_mode_declaration_group_prototype"; "disabled_modes"] ++ common_arguments) kw /\
  identity name kw (SwcModeManagerErrorEvent_ident x) /\
  holds_list (means_if_any (is_a ORModeInAtomicSwcInstanceRef)) kw "disabled_modes" (SwcModeManagerErrorEvent_disabled_modes x) /\
  holds (means_ref [IdentifiableSubTypes_RUNNABLE_ENTITY]) kw "start_on_event" (SwcModeManagerErrorEvent_start_on_event x) /\
  exists d, SwcModeManagerErrorEvent_mode_group x = Some d /\
    holds (means_ref kinds_of_AbstractProvidedPortPrototypeRef) kw "context_port" (PModeGroupInAtomicSwcInstanceRef_context_port d) /\
    holds (means_ref [IdentifiableSubTypes_MODE_DECLARATION_GROUP_PROTOTYPE]) kw "context_mode_declaration_group_prototype" (PModeGroupInAtomicSwcInstanceRef_target_mode_group d).
(** One more at the end of disabled_modes, nothing else changed. *)
Definition one_more_SwcModeManagerErrorEvent_disabled_modes (x : SwcModeManagerErrorEvent) (a : arg) (y : SwcModeManagerErrorEvent) : Prop :=
  exists e, is_a ORModeInAtomicSwcInstanceRef a e /\
  SwcModeManagerErrorEvent_ident y = SwcModeManagerErrorEvent_ident x /\ SwcModeManagerErrorEvent_disabled_modes y = SwcModeManagerErrorEvent_disabled_modes x ++ [e] /\ SwcModeManagerErrorEvent_start_on_event y = SwcModeManagerErrorEvent_start_on_event x /\ SwcModeManagerErrorEvent_mode_group y = SwcModeManagerErrorEvent_mode_group x.
Definition describes_SwcModeSwitchEvent (name : string) (kw : keyword_args) (x : SwcModeSwitchEvent) : Prop :=
  only (["start_on_event"; "activation"; "mode"; "disabled_modes"] ++ common_arguments) kw /\
  identity name kw (SwcModeSwitchEvent_ident x) /\
  holds_list (means_if_any (is_a ORModeInAtomicSwcInstanceRef)) kw "disabled_modes" (SwcModeSwitchEvent_disabled_modes x) /\
  holds (means_ref [IdentifiableSubTypes_RUNNABLE_ENTITY]) kw "start_on_event" (SwcModeSwitchEvent_start_on_event x) /\
  holds (is_a OModeActivationKind) kw "activation" (SwcModeSwitchEvent_activation x) /\
  holds means_switch_mode kw "mode" (SwcModeSwitchEvent_mode x).
Definition describes_make_SwcModeSwitchEvent (name : string) (kw : keyword_args) (x : SwcModeSwitchEvent) : Prop :=
  only (["start_on_event"; "activation"; "context_port"; "context_mode_declaration_group_prototype"; "target_mode_declaration"; "disabled_modes"] ++ common_arguments) kw /\
  identity name kw (SwcModeSwitchEvent_ident x) /\
  holds_list (means_if_any (is_a ORModeInAtomicSwcInstanceRef)) kw "disabled_modes" (SwcModeSwitchEvent_disabled_modes x) /\
  holds (means_ref [IdentifiableSubTypes_RUNNABLE_ENTITY]) kw "start_on_event" (SwcModeSwitchEvent_start_on_event x) /\
  holds (is_a OModeActivationKind) kw "activation" (SwcModeSwitchEvent_activation x) /\
  exists d, SwcModeSwitchEvent_mode x = Some (OneMode d) /\
    holds (means_ref kinds_of_AbstractRequiredPortPrototypeRef) kw "context_port" (RModeInAtomicSwcInstanceRef_context_port d) /\
    holds (means_ref [IdentifiableSubTypes_MODE_DECLARATION_GROUP_PROTOTYPE]) kw "context_mode_declaration_group_prototype" (RModeInAtomicSwcInstanceRef_context_mode_declaration_group_prototype d) /\
    holds (means_ref [IdentifiableSubTypes_MODE_DECLARATION]) kw "target_mode_declaration" (RModeInAtomicSwcInstanceRef_target_mode_declaration d).
(** One more at the end of disabled_modes, nothing else changed. *)
Definition one_more_SwcModeSwitchEvent_disabled_modes (x : SwcModeSwitchEvent) (a : arg) (y : SwcModeSwitchEvent) : Prop :=
  exists e, is_a ORModeInAtomicSwcInstanceRef a e /\
  SwcModeSwitchEvent_ident y = SwcModeSwitchEvent_ident x /\ SwcModeSwitchEvent_disabled_modes y = SwcModeSwitchEvent_disabled_modes x ++ [e] /\ SwcModeSwitchEvent_start_on_event y = SwcModeSwitchEvent_start_on_event x /\ SwcModeSwitchEvent_activation y = SwcModeSwitchEvent_activation x /\ SwcModeSwitchEvent_mode y = SwcModeSwitchEvent_mode x.
Definition describes_TimingEvent (name : string) (kw : keyword_args) (x : TimingEvent) : Prop :=
  only (["start_on_event"; "period"; "offset"; "disabled_modes"] ++ common_arguments) kw /\
  identity name kw (TimingEvent_ident x) /\
  holds_list (means_if_any (is_a ORModeInAtomicSwcInstanceRef)) kw "disabled_modes" (TimingEvent_disabled_modes x) /\
  holds (means_ref [IdentifiableSubTypes_RUNNABLE_ENTITY]) kw "start_on_event" (TimingEvent_start_on_event x) /\
  holds means_float kw "offset" (TimingEvent_offset x) /\
  holds means_float kw "period" (TimingEvent_period x).
(** One more at the end of disabled_modes, nothing else changed. *)
Definition one_more_TimingEvent_disabled_modes (x : TimingEvent) (a : arg) (y : TimingEvent) : Prop :=
  exists e, is_a ORModeInAtomicSwcInstanceRef a e /\
  TimingEvent_ident y = TimingEvent_ident x /\ TimingEvent_disabled_modes y = TimingEvent_disabled_modes x ++ [e] /\ TimingEvent_start_on_event y = TimingEvent_start_on_event x /\ TimingEvent_offset y = TimingEvent_offset x /\ TimingEvent_period y = TimingEvent_period x.
Definition describes_TransformerHardErrorEvent (name : string) (kw : keyword_args) (x : TransformerHardErrorEvent) : Prop :=
  only (["start_on_event"; "operation"; "required_trigger"; "trigger"; "disabled_modes"] ++ common_arguments) kw /\
  identity name kw (TransformerHardErrorEvent_ident x) /\
  holds_list (means_if_any (is_a ORModeInAtomicSwcInstanceRef)) kw "disabled_modes" (TransformerHardErrorEvent_disabled_modes x) /\
  holds (means_ref [IdentifiableSubTypes_RUNNABLE_ENTITY]) kw "start_on_event" (TransformerHardErrorEvent_start_on_event x) /\
  holds (is_a OPOperationInAtomicSwcInstanceRef) kw "operation" (TransformerHardErrorEvent_operation x) /\
  holds (is_a ORTriggerInAtomicSwcInstanceRef) kw "required_trigger" (TransformerHardErrorEvent_required_trigger x) /\
  holds (is_a OPTriggerInAtomicSwcTypeInstanceRef) kw "trigger" (TransformerHardErrorEvent_trigger x).
(** One more at the end of disabled_modes, nothing else changed. *)
Definition one_more_TransformerHardErrorEvent_disabled_modes (x : TransformerHardErrorEvent) (a : arg) (y : TransformerHardErrorEvent) : Prop :=
  exists e, is_a ORModeInAtomicSwcInstanceRef a e /\
  TransformerHardErrorEvent_ident y = TransformerHardErrorEvent_ident x /\ TransformerHardErrorEvent_disabled_modes y = TransformerHardErrorEvent_disabled_modes x ++ [e] /\ TransformerHardErrorEvent_start_on_event y = TransformerHardErrorEvent_start_on_event x /\ TransformerHardErrorEvent_operation y = TransformerHardErrorEvent_operation x /\ TransformerHardErrorEvent_required_trigger y = TransformerHardErrorEvent_required_trigger x /\ TransformerHardErrorEvent_trigger y = TransformerHardErrorEvent_trigger x.

(** ** Port API options *)
Definition describes_PortDefinedArgumentValue (kw : keyword_args) (x : PortDefinedArgumentValue) : Prop :=
  only ["value"; "value_type"] kw /\
  holds means_value_specification kw "value" (PortDefinedArgumentValue_value x) /\
  holds (means_ref [IdentifiableSubTypes_IMPLEMENTATION_DATA_TYPE]) kw "value_type" (PortDefinedArgumentValue_value_type x).
Definition describes_CommunicationBufferLocking (kw : keyword_args) (x : CommunicationBufferLocking) : Prop :=
  only ["support_buffer_locking"] kw /\
  holds (is_a OSupportBufferLocking) kw "support_buffer_locking" (CommunicationBufferLocking_support_buffer_locking x).
Definition describes_PortApiOption (kw : keyword_args) (x : PortApiOption) : Prop :=
  only ["port"; "enable_take_address"; "indirect_api"; "error_handling"; "port_arg_values"; "supported_features"; "transformer_status_forwarding"] kw /\
  holds means_flag kw "enable_take_address" (PortApiOption_enable_take_address x) /\
  holds (is_a ODataTransformationErrorHandling) kw "error_handling" (PortApiOption_error_handling x) /\
  holds means_flag kw "indirect_api" (PortApiOption_indirect_api x) /\
  holds_list (means_list (is_a OPortDefinedArgumentValue)) kw "port_arg_values" (PortApiOption_port_arg_values x) /\
  holds (means_ref kinds_of_PortPrototypeRef) kw "port" (PortApiOption_port x) /\
  holds_list (means_list (is_a OCommunicationBufferLocking)) kw "supported_features" (PortApiOption_supported_features x) /\
  holds (is_a ODataTransformationStatusForwarding) kw "transformer_status_forwarding" (PortApiOption_transformer_status_forwarding x).
(** One more at the end of port_arg_values, nothing else changed. *)
Definition one_more_PortApiOption_port_arg_values (x : PortApiOption) (a : arg) (y : PortApiOption) : Prop :=
  exists e, is_a OPortDefinedArgumentValue a e /\
  PortApiOption_enable_take_address y = PortApiOption_enable_take_address x /\ PortApiOption_error_handling y = PortApiOption_error_handling x /\ PortApiOption_indirect_api y = PortApiOption_indirect_api x /\ PortApiOption_port_arg_values y = PortApiOption_port_arg_values x ++ [e] /\ PortApiOption_port y = PortApiOption_port x /\ PortApiOption_supported_features y = PortApiOption_supported_features x /\ PortApiOption_transformer_status_forwarding y = PortApiOption_transformer_status_forwarding x.
(** One more at the end of supported_features, nothing else changed. *)
Definition one_more_PortApiOption_supported_features (x : PortApiOption) (a : arg) (y : PortApiOption) : Prop :=
  exists e, is_a OCommunicationBufferLocking a e /\
  PortApiOption_enable_take_address y = PortApiOption_enable_take_address x /\ PortApiOption_error_handling y = PortApiOption_error_handling x /\ PortApiOption_indirect_api y = PortApiOption_indirect_api x /\ PortApiOption_port_arg_values y = PortApiOption_port_arg_values x /\ PortApiOption_port y = PortApiOption_port x /\ PortApiOption_supported_features y = PortApiOption_supported_features x ++ [e] /\ PortApiOption_transformer_status_forwarding y = PortApiOption_transformer_status_forwarding x.
