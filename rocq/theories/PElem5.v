(** Events: round trips.
    Generated by tools/gen_codec.py from /repo/src/autosar/xml/{element,writer,reader}.py; the
    line numbers in the comments refer to these files. *)
From Verif Require Import Base PBase MNames MNum SNum PNum PNum3 MXml SXml PXml PXml2 MEnum PEnum MRefTab MRef SEnum PRef MCodec SCodec PCodec PPiece PIdent MElem0 PElem0 PElemRef MElem1 MElemA MElemB MElemC MElem2 MElemD MElem3 MElem4 MElemE MElem5 SElem1 SElemA SElemB SElemC SElem2 SElemD SElem3 SElem4 SElemE SElem5 PElem1 PElemA PElemB PElemC PElem2 PElemD PElem3 PElem4 PElemE.
Open Scope list_scope.

Lemma rt_RteEvent v s : good_RteEvent s -> exists tag, carries tag (write_rte_event_element v s) (read_rte_event_element v) s.
Proof.
  destruct s as [e|e|e|e|e|e|e|e|e|e|e|e|e|e|e]; cbn [good_RteEvent write_rte_event_element]; intros G.
  - exists "ASYNCHRONOUS-SERVER-CALL-RETURNS-EVENT". eapply carries_as; [exact (rt_AsynchronousServerCallReturnsEvent v e G)|]. intros x T R. unfold read_rte_event_element. rewrite T. cbn [String.eqb Ascii.eqb Bool.eqb]. rewrite R. reflexivity.
  - exists "BACKGROUND-EVENT". eapply carries_as; [exact (rt_BackgroundEvent v e G)|]. intros x T R. unfold read_rte_event_element. rewrite T. cbn [String.eqb Ascii.eqb Bool.eqb]. rewrite R. reflexivity.
  - exists "DATA-RECEIVE-ERROR-EVENT". eapply carries_as; [exact (rt_DataReceiveErrorEvent v e G)|]. intros x T R. unfold read_rte_event_element. rewrite T. cbn [String.eqb Ascii.eqb Bool.eqb]. rewrite R. reflexivity.
  - exists "DATA-RECEIVED-EVENT". eapply carries_as; [exact (rt_DataReceivedEvent v e G)|]. intros x T R. unfold read_rte_event_element. rewrite T. cbn [String.eqb Ascii.eqb Bool.eqb]. rewrite R. reflexivity.
  - exists "DATA-SEND-COMPLETED-EVENT". eapply carries_as; [exact (rt_DataSendCompletedEvent v e G)|]. intros x T R. unfold read_rte_event_element. rewrite T. cbn [String.eqb Ascii.eqb Bool.eqb]. rewrite R. reflexivity.
  - exists "DATA-WRITE-COMPLETED-EVENT". eapply carries_as; [exact (rt_DataWriteCompletedEvent v e G)|]. intros x T R. unfold read_rte_event_element. rewrite T. cbn [String.eqb Ascii.eqb Bool.eqb]. rewrite R. reflexivity.
  - exists "EXTERNAL-TRIGGER-OCCURRED-EVENT". eapply carries_as; [exact (rt_ExternalTriggerOccurredEvent v e G)|]. intros x T R. unfold read_rte_event_element. rewrite T. cbn [String.eqb Ascii.eqb Bool.eqb]. rewrite R. reflexivity.
  - exists "INIT-EVENT". eapply carries_as; [exact (rt_InitEvent v e G)|]. intros x T R. unfold read_rte_event_element. rewrite T. cbn [String.eqb Ascii.eqb Bool.eqb]. rewrite R. reflexivity.
  - exists "INTERNAL-TRIGGER-OCCURRED-EVENT". eapply carries_as; [exact (rt_InternalTriggerOccurredEvent v e G)|]. intros x T R. unfold read_rte_event_element. rewrite T. cbn [String.eqb Ascii.eqb Bool.eqb]. rewrite R. reflexivity.
  - exists "MODE-SWITCHED-ACK-EVENT". eapply carries_as; [exact (rt_ModeSwitchedAckEvent v e G)|]. intros x T R. unfold read_rte_event_element. rewrite T. cbn [String.eqb Ascii.eqb Bool.eqb]. rewrite R. reflexivity.
  - exists "OPERATION-INVOKED-EVENT". eapply carries_as; [exact (rt_OperationInvokedEvent v e G)|]. intros x T R. unfold read_rte_event_element. rewrite T. cbn [String.eqb Ascii.eqb Bool.eqb]. rewrite R. reflexivity.
  - exists "SWC-MODE-MANAGER-ERROR-EVENT". eapply carries_as; [exact (rt_SwcModeManagerErrorEvent v e G)|]. intros x T R. unfold read_rte_event_element. rewrite T. cbn [String.eqb Ascii.eqb Bool.eqb]. rewrite R. reflexivity.
  - exists "SWC-MODE-SWITCH-EVENT". eapply carries_as; [exact (rt_SwcModeSwitchEvent v e G)|]. intros x T R. unfold read_rte_event_element. rewrite T. cbn [String.eqb Ascii.eqb Bool.eqb]. rewrite R. reflexivity.
  - exists "TIMING-EVENT". eapply carries_as; [exact (rt_TimingEvent v e G)|]. intros x T R. unfold read_rte_event_element. rewrite T. cbn [String.eqb Ascii.eqb Bool.eqb]. rewrite R. reflexivity.
  - exists "TRANSFORMER-HARD-ERROR-EVENT". eapply carries_as; [exact (rt_TransformerHardErrorEvent v e G)|]. intros x T R. unfold read_rte_event_element. rewrite T. cbn [String.eqb Ascii.eqb Bool.eqb]. rewrite R. reflexivity.
Qed.
