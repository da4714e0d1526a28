(** Events: attributes, writer methods, reader methods.
    Generated by tools/gen_codec.py from /repo/src/autosar/xml/{element,writer,reader}.py; the
    line numbers in the comments refer to these files. *)
From Verif Require Import Base MNames MNum MXml MEnum MRefTab MRef MCodec MElem0 MElem1 MElemA MElemB MElemC MElem2 MElemD MElem3 MElem4 MElemE.

(** ** RteEvent *)

(** The classes which self.switcher_rte_event of the writer knows *)
Inductive RteEvent :=
| RteEvent_AsynchronousServerCallReturnsEvent (e : AsynchronousServerCallReturnsEvent)
| RteEvent_BackgroundEvent (e : BackgroundEvent)
| RteEvent_DataReceiveErrorEvent (e : DataReceiveErrorEvent)
| RteEvent_DataReceivedEvent (e : DataReceivedEvent)
| RteEvent_DataSendCompletedEvent (e : DataSendCompletedEvent)
| RteEvent_DataWriteCompletedEvent (e : DataWriteCompletedEvent)
| RteEvent_ExternalTriggerOccurredEvent (e : ExternalTriggerOccurredEvent)
| RteEvent_InitEvent (e : InitEvent)
| RteEvent_InternalTriggerOccurredEvent (e : InternalTriggerOccurredEvent)
| RteEvent_ModeSwitchedAckEvent (e : ModeSwitchedAckEvent)
| RteEvent_OperationInvokedEvent (e : OperationInvokedEvent)
| RteEvent_SwcModeManagerErrorEvent (e : SwcModeManagerErrorEvent)
| RteEvent_SwcModeSwitchEvent (e : SwcModeSwitchEvent)
| RteEvent_TimingEvent (e : TimingEvent)
| RteEvent_TransformerHardErrorEvent (e : TransformerHardErrorEvent).
(** _write_rte_event_element, writer.py:4969-4978; other classes raise NotImplementedError and are outside the type *)
Definition write_rte_event_element (v : N) (s : RteEvent) : out :=
  match s with
  | RteEvent_AsynchronousServerCallReturnsEvent e => write_async_server_call_returns_event v e
  | RteEvent_BackgroundEvent e => write_background_event v e
  | RteEvent_DataReceiveErrorEvent e => write_data_receive_error_event v e
  | RteEvent_DataReceivedEvent e => write_data_received_event v e
  | RteEvent_DataSendCompletedEvent e => write_data_send_completed_event v e
  | RteEvent_DataWriteCompletedEvent e => write_data_write_completed_event v e
  | RteEvent_ExternalTriggerOccurredEvent e => write_external_trigger_occured_event v e
  | RteEvent_InitEvent e => write_init_event v e
  | RteEvent_InternalTriggerOccurredEvent e => write_internal_trigger_occured_event v e
  | RteEvent_ModeSwitchedAckEvent e => write_mode_switched_ack_event v e
  | RteEvent_OperationInvokedEvent e => write_operation_invoked_event v e
  | RteEvent_SwcModeManagerErrorEvent e => write_swc_mode_manager_error_event v e
  | RteEvent_SwcModeSwitchEvent e => write_swc_mode_switch_event v e
  | RteEvent_TimingEvent e => write_timing_event v e
  | RteEvent_TransformerHardErrorEvent e => write_transformer_hard_error_event v e
  end.
(** _read_rte_event_element, reader.py:5758-5766, with self.switcher_rte_event of the reader *)
Definition read_rte_event_element (v : N) (x : xml) : result RteEvent :=
  let tag := x_tag x in
  if String.eqb tag "ASYNCHRONOUS-SERVER-CALL-RETURNS-EVENT" then let* e := read_async_server_call_returns_event v x in Ok (RteEvent_AsynchronousServerCallReturnsEvent e) else
  if String.eqb tag "BACKGROUND-EVENT" then let* e := read_background_event v x in Ok (RteEvent_BackgroundEvent e) else
  if String.eqb tag "DATA-RECEIVE-ERROR-EVENT" then let* e := read_data_receive_error_event v x in Ok (RteEvent_DataReceiveErrorEvent e) else
  if String.eqb tag "DATA-RECEIVED-EVENT" then let* e := read_data_received_event v x in Ok (RteEvent_DataReceivedEvent e) else
  if String.eqb tag "DATA-SEND-COMPLETED-EVENT" then let* e := read_data_send_completed_event v x in Ok (RteEvent_DataSendCompletedEvent e) else
  if String.eqb tag "DATA-WRITE-COMPLETED-EVENT" then let* e := read_data_write_completed_event v x in Ok (RteEvent_DataWriteCompletedEvent e) else
  if String.eqb tag "EXTERNAL-TRIGGER-OCCURRED-EVENT" then let* e := read_external_trigger_occured_event v x in Ok (RteEvent_ExternalTriggerOccurredEvent e) else
  if String.eqb tag "INIT-EVENT" then let* e := read_init_event v x in Ok (RteEvent_InitEvent e) else
  if String.eqb tag "INTERNAL-TRIGGER-OCCURRED-EVENT" then let* e := read_internal_trigger_occured_event v x in Ok (RteEvent_InternalTriggerOccurredEvent e) else
  if String.eqb tag "MODE-SWITCHED-ACK-EVENT" then let* e := read_mode_switched_ack_event v x in Ok (RteEvent_ModeSwitchedAckEvent e) else
  if String.eqb tag "OPERATION-INVOKED-EVENT" then let* e := read_operation_invoked_event v x in Ok (RteEvent_OperationInvokedEvent e) else
  if String.eqb tag "SWC-MODE-MANAGER-ERROR-EVENT" then let* e := read_swc_mode_manager_error_event v x in Ok (RteEvent_SwcModeManagerErrorEvent e) else
  if String.eqb tag "SWC-MODE-SWITCH-EVENT" then let* e := read_swc_mode_switch_event v x in Ok (RteEvent_SwcModeSwitchEvent e) else
  if String.eqb tag "TIMING-EVENT" then let* e := read_timing_event v x in Ok (RteEvent_TimingEvent e) else
  if String.eqb tag "TRANSFORMER-HARD-ERROR-EVENT" then let* e := read_transformer_hard_error_event v x in Ok (RteEvent_TransformerHardErrorEvent e) else
  Err KeyError.

