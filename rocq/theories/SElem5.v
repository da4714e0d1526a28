(** Events: which objects survive a round trip (good_), and as what (norm_).
    Generated by tools/gen_codec.py from /repo/src/autosar/xml/{element,writer,reader}.py; the
    line numbers in the comments refer to these files. *)
From Verif Require Import Base MNum SNum MXml SXml MEnum MRefTab MRef SEnum MCodec SCodec MElem0 MElem1 MElemA MElemB MElemC MElem2 MElemD MElem3 MElem4 MElemE MElem5 SElem1 SElemA SElemB SElemC SElem2 SElemD SElem3 SElem4 SElemE.

Definition good_RteEvent (s : RteEvent) : Prop :=
  match s with
  | RteEvent_AsynchronousServerCallReturnsEvent e => good_AsynchronousServerCallReturnsEvent e
  | RteEvent_BackgroundEvent e => good_BackgroundEvent e
  | RteEvent_DataReceiveErrorEvent e => good_DataReceiveErrorEvent e
  | RteEvent_DataReceivedEvent e => good_DataReceivedEvent e
  | RteEvent_DataSendCompletedEvent e => good_DataSendCompletedEvent e
  | RteEvent_DataWriteCompletedEvent e => good_DataWriteCompletedEvent e
  | RteEvent_ExternalTriggerOccurredEvent e => good_ExternalTriggerOccurredEvent e
  | RteEvent_InitEvent e => good_InitEvent e
  | RteEvent_InternalTriggerOccurredEvent e => good_InternalTriggerOccurredEvent e
  | RteEvent_ModeSwitchedAckEvent e => good_ModeSwitchedAckEvent e
  | RteEvent_OperationInvokedEvent e => good_OperationInvokedEvent e
  | RteEvent_SwcModeManagerErrorEvent e => good_SwcModeManagerErrorEvent e
  | RteEvent_SwcModeSwitchEvent e => good_SwcModeSwitchEvent e
  | RteEvent_TimingEvent e => good_TimingEvent e
  | RteEvent_TransformerHardErrorEvent e => good_TransformerHardErrorEvent e
  end.
