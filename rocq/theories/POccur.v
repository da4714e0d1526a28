(** Proofs about creating events and port API options. *)
From Verif Require Import Base PBase MNum MXml MEnum MRefTab MRef PRef MCodec MElem0 MElem1 MElemA MElemB MElemC MElem2 MElemD MElem3 MElem4 MElemE MElem5 MElemF MArxml MFind MValue MEvent MPort SPort PPort MAccess SAccess PAccess MRunnable SRunnable PRunnable MIface SIface PIface MData SFormat SData PData MConst SConst PConst MParts SParts PParts MPoint SPoint PPoint MOccur SOccur.
Open Scope list_scope.
Ltac splits := repeat match goal with |- _ /\ _ => split end.

(** ** Arguments *)
Lemma no_class_given kw : (forall k, In k (map fst kw) -> k <> "cls") -> no_clash ["cls"] kw = Ok tt.
Proof.
  intros H. unfold no_clash. destruct (existsb _ _) eqn:E; [|reflexivity]. exfalso. apply existsb_exists in E as (k & I & E). cbn in E. rewrite orb_false_r in E. apply String.eqb_eq in E. now apply (H k).
Qed.
Lemma one_mode_iff a m : strict RModeInAtomicSwcInstanceRef_object a = Ok m <-> is_a ORModeInAtomicSwcInstanceRef a m.
Proof. apply strict_iff; is_pick. Qed.
Lemma switch_mode_iff kw k v : optional switch_mode_of (kwarg k kw) = Ok v <-> holds means_switch_mode kw k v.
Proof.
  apply opt_iff. intros a x _. split.
  - destruct a as [| | | | |l| |o|]; try discriminate; cbn.
    + destruct l as [|a [|b l]]; [discriminate|intros H; apply bind_iff in H as (? & _ & H); discriminate H|].
      intros H. apply bind_iff in H as (m & E & H). apply bind_iff in H as (n & F & H). injection H as <-.
      apply mode_two; now apply one_mode_iff.
    + destruct (RModeInAtomicSwcInstanceRef_object o) as [m|] eqn:E; [|discriminate]. intros H. injection H as <-. apply mode_one.
      apply one_mode_iff. cbn. now rewrite E.
  - intros [b m H|b c l m n H K].
    + unfold is_a in H. subst. reflexivity.
    + unfold is_a in H, K. subst. reflexivity.
Qed.
Lemma if_any_RModeInAtomicSwcInstanceRef_object_iff kw k l : lenient (strict RModeInAtomicSwcInstanceRef_object) (kwarg k kw) = Ok l <-> holds_list (means_if_any (is_a ORModeInAtomicSwcInstanceRef)) kw k l.
Proof. apply lenient_iff; [intros; intros E; discriminate E|intros; intros E; discriminate E|]. intros a x. apply strict_iff; is_pick. Qed.
Lemma ref_RunnableEntityRef_iff kw k v : opt_ref rc_RunnableEntityRef (kwarg k kw) = Ok v <-> holds (means_ref [IdentifiableSubTypes_RUNNABLE_ENTITY]) kw k v.
Proof. now apply opt_ref_iff. Qed.
Lemma ref_AsynchronousServerCallResultPointRef_iff kw k v : opt_ref rc_AsynchronousServerCallResultPointRef (kwarg k kw) = Ok v <-> holds (means_ref [IdentifiableSubTypes_ASYNCHRONOUS_SERVER_CALL_RESULT_POINT]) kw k v.
Proof. now apply opt_ref_iff. Qed.
Lemma RVariableInAtomicSwcInstanceRef_object_iff kw k v : optional (strict RVariableInAtomicSwcInstanceRef_object) (kwarg k kw) = Ok v <-> holds (is_a ORVariableInAtomicSwcInstanceRef) kw k v.
Proof. apply a_iff; is_pick. Qed.
Lemma ref_VariableAccessRef_iff kw k v : opt_ref rc_VariableAccessRef (kwarg k kw) = Ok v <-> holds (means_ref [IdentifiableSubTypes_VARIABLE_ACCESS]) kw k v.
Proof. now apply opt_ref_iff. Qed.
Lemma RTriggerInAtomicSwcInstanceRef_object_iff kw k v : optional (strict RTriggerInAtomicSwcInstanceRef_object) (kwarg k kw) = Ok v <-> holds (is_a ORTriggerInAtomicSwcInstanceRef) kw k v.
Proof. apply a_iff; is_pick. Qed.
Lemma ref_InternalTriggeringPointRef_iff kw k v : opt_ref rc_InternalTriggeringPointRef (kwarg k kw) = Ok v <-> holds (means_ref [IdentifiableSubTypes_INTERNAL_TRIGGERING_POINT]) kw k v.
Proof. now apply opt_ref_iff. Qed.
Lemma ref_ModeSwitchPointRef_iff kw k v : opt_ref rc_ModeSwitchPointRef (kwarg k kw) = Ok v <-> holds (means_ref [IdentifiableSubTypes_MODE_SWITCH_POINT]) kw k v.
Proof. now apply opt_ref_iff. Qed.
Lemma POperationInAtomicSwcInstanceRef_object_iff kw k v : optional (strict POperationInAtomicSwcInstanceRef_object) (kwarg k kw) = Ok v <-> holds (is_a OPOperationInAtomicSwcInstanceRef) kw k v.
Proof. apply a_iff; is_pick. Qed.
Lemma ModeActivationKind_object_iff kw k v : optional (strict ModeActivationKind_object) (kwarg k kw) = Ok v <-> holds (is_a OModeActivationKind) kw k v.
Proof. apply a_iff; is_pick. Qed.
Lemma SupportBufferLocking_object_iff kw k v : optional (strict SupportBufferLocking_object) (kwarg k kw) = Ok v <-> holds (is_a OSupportBufferLocking) kw k v.
Proof. apply a_iff; is_pick. Qed.
Lemma DataTransformationErrorHandling_object_iff kw k v : optional (strict DataTransformationErrorHandling_object) (kwarg k kw) = Ok v <-> holds (is_a ODataTransformationErrorHandling) kw k v.
Proof. apply a_iff; is_pick. Qed.
Lemma DataTransformationStatusForwarding_object_iff kw k v : optional (strict DataTransformationStatusForwarding_object) (kwarg k kw) = Ok v <-> holds (is_a ODataTransformationStatusForwarding) kw k v.
Proof. apply a_iff; is_pick. Qed.
Lemma one_or_list_PortDefinedArgumentValue_object_iff kw k l : one_or_list (strict PortDefinedArgumentValue_object) (kwarg k kw) = Ok l <-> holds_list (means_list (is_a OPortDefinedArgumentValue)) kw k l.
Proof. apply some_iff; is_pick. Qed.
Lemma one_or_list_CommunicationBufferLocking_object_iff kw k l : one_or_list (strict CommunicationBufferLocking_object) (kwarg k kw) = Ok l <-> holds_list (means_list (is_a OCommunicationBufferLocking)) kw k l.
Proof. apply some_iff; is_pick. Qed.
Ltac conv_to H := first [apply keywords_iff in H|apply identifiable_iff in H|apply if_any_RModeInAtomicSwcInstanceRef_object_iff in H|apply ref_RunnableEntityRef_iff in H|apply ref_AsynchronousServerCallResultPointRef_iff in H|apply RVariableInAtomicSwcInstanceRef_object_iff in H|apply ref_AbstractRequiredPortPrototypeRef_iff in H|apply ref_VariableDataPrototypeRef_iff in H|apply ref_VariableAccessRef_iff in H|apply RTriggerInAtomicSwcInstanceRef_object_iff in H|apply ref_TriggerRef_iff in H|apply ref_InternalTriggeringPointRef_iff in H|apply ref_ModeSwitchPointRef_iff in H|apply POperationInAtomicSwcInstanceRef_object_iff in H|apply ref_AbstractProvidedPortPrototypeRef_iff in H|apply ref_ClientServerOperationRef_iff in H|apply PModeGroupInAtomicSwcInstanceRef_object_iff in H|apply ref_ModeDeclarationGroupPrototypeRef_iff in H|apply ModeActivationKind_object_iff in H|apply switch_mode_iff in H|apply ref_ModeDeclarationRef_iff in H|apply opt_float_iff in H|apply PTriggerInAtomicSwcTypeInstanceRef_object_iff in H|apply opt_value_specification_iff in H|apply ref_ImplementationDataTypeRef_iff in H|apply SupportBufferLocking_object_iff in H|apply opt_bool_iff in H|apply DataTransformationErrorHandling_object_iff in H|apply ref_PortPrototypeRef_iff in H|apply DataTransformationStatusForwarding_object_iff in H|apply one_or_list_PortDefinedArgumentValue_object_iff in H|apply one_or_list_CommunicationBufferLocking_object_iff in H].
Ltac conv_of := first [apply identifiable_iff|apply if_any_RModeInAtomicSwcInstanceRef_object_iff|apply ref_RunnableEntityRef_iff|apply ref_AsynchronousServerCallResultPointRef_iff|apply RVariableInAtomicSwcInstanceRef_object_iff|apply ref_AbstractRequiredPortPrototypeRef_iff|apply ref_VariableDataPrototypeRef_iff|apply ref_VariableAccessRef_iff|apply RTriggerInAtomicSwcInstanceRef_object_iff|apply ref_TriggerRef_iff|apply ref_InternalTriggeringPointRef_iff|apply ref_ModeSwitchPointRef_iff|apply POperationInAtomicSwcInstanceRef_object_iff|apply ref_AbstractProvidedPortPrototypeRef_iff|apply ref_ClientServerOperationRef_iff|apply PModeGroupInAtomicSwcInstanceRef_object_iff|apply ref_ModeDeclarationGroupPrototypeRef_iff|apply ModeActivationKind_object_iff|apply switch_mode_iff|apply ref_ModeDeclarationRef_iff|apply opt_float_iff|apply PTriggerInAtomicSwcTypeInstanceRef_object_iff|apply opt_value_specification_iff|apply ref_ImplementationDataTypeRef_iff|apply SupportBufferLocking_object_iff|apply opt_bool_iff|apply DataTransformationErrorHandling_object_iff|apply ref_PortPrototypeRef_iff|apply DataTransformationStatusForwarding_object_iff|apply one_or_list_PortDefinedArgumentValue_object_iff|apply one_or_list_CommunicationBufferLocking_object_iff]; eassumption.
Ltac undo_all := repeat match goal with
  | H : bind _ _ = Ok _ |- _ => let x := fresh "x" in let E := fresh "E" in apply bind_iff in H as (x & E & H); try conv_to E
  | H : Ok _ = Ok _ |- _ => injection H as <-
  end.
Ltac redo_all := repeat (apply bind_iff; first [exists tt; split; [apply keywords_iff; eassumption|]|eexists; split; [conv_of|]]; cbv beta iota).

(** ** Events *)
Lemma init_AsynchronousServerCallReturnsEvent_iff name kw x : init_AsynchronousServerCallReturnsEvent name kw = Ok x <-> describes_AsynchronousServerCallReturnsEvent name kw x.
Proof.
  unfold init_AsynchronousServerCallReturnsEvent, describes_AsynchronousServerCallReturnsEvent. split; [intros H; undo_all; splits; solve [assumption|reflexivity]|].
  intros (H0 & H1 & H2 & H3 & H4). destruct x. cbn in H1, H2, H3, H4. redo_all. reflexivity.
Qed.
Lemma append_AsynchronousServerCallReturnsEvent_disabled_modes_iff x a y : append_AsynchronousServerCallReturnsEvent_disabled_modes x a = Ok y <-> one_more_AsynchronousServerCallReturnsEvent_disabled_modes x a y.
Proof.
  unfold append_AsynchronousServerCallReturnsEvent_disabled_modes, one_more_AsynchronousServerCallReturnsEvent_disabled_modes. assert (F : forall e, strict RModeInAtomicSwcInstanceRef_object a = Ok e <-> is_a ORModeInAtomicSwcInstanceRef a e) by (intros e; apply strict_iff; is_pick). rewrite bind_iff. split.
  - intros (e & E & H). injection H as <-. exists e. split; [now apply F|]. cbn. splits; reflexivity.
  - intros (e & E & H0 & H1 & H2 & H3). exists e. split; [now apply F|]. destruct x, y. cbn in *. now subst.
Qed.
Lemma init_BackgroundEvent_iff name kw x : init_BackgroundEvent name kw = Ok x <-> describes_BackgroundEvent name kw x.
Proof.
  unfold init_BackgroundEvent, describes_BackgroundEvent. split; [intros H; undo_all; splits; solve [assumption|reflexivity]|].
  intros (H0 & H1 & H2 & H3). destruct x. cbn in H1, H2, H3. redo_all. reflexivity.
Qed.
Lemma append_BackgroundEvent_disabled_modes_iff x a y : append_BackgroundEvent_disabled_modes x a = Ok y <-> one_more_BackgroundEvent_disabled_modes x a y.
Proof.
  unfold append_BackgroundEvent_disabled_modes, one_more_BackgroundEvent_disabled_modes. assert (F : forall e, strict RModeInAtomicSwcInstanceRef_object a = Ok e <-> is_a ORModeInAtomicSwcInstanceRef a e) by (intros e; apply strict_iff; is_pick). rewrite bind_iff. split.
  - intros (e & E & H). injection H as <-. exists e. split; [now apply F|]. cbn. splits; reflexivity.
  - intros (e & E & H0 & H1 & H2). exists e. split; [now apply F|]. destruct x, y. cbn in *. now subst.
Qed.
Lemma init_DataReceiveErrorEvent_iff name kw x : init_DataReceiveErrorEvent name kw = Ok x <-> describes_DataReceiveErrorEvent name kw x.
Proof.
  unfold init_DataReceiveErrorEvent, describes_DataReceiveErrorEvent. split; [intros H; undo_all; splits; solve [assumption|reflexivity]|].
  intros (H0 & H1 & H2 & H3 & H4). destruct x. cbn in H1, H2, H3, H4. redo_all. reflexivity.
Qed.
Lemma make_DataReceiveErrorEvent_iff name kw x : make_DataReceiveErrorEvent name kw = Ok x <-> describes_make_DataReceiveErrorEvent name kw x.
Proof.
  unfold make_DataReceiveErrorEvent, describes_make_DataReceiveErrorEvent. split.
  - intros H. undo_all. splits; try solve [assumption|reflexivity]. eexists. splits; [reflexivity|..]; assumption.
  - intros (H0 & H1 & H2 & H3 & d & K & K0 & K1). destruct x, d. cbn in K, H1, H2, H3, K0, K1. subst. rewrite no_class_given by (revert H0; unfold only; clear; intros H k I E; apply H in I; subst k; cbn in I; intuition discriminate). cbn [bind]. redo_all. reflexivity.
Qed.
Lemma append_DataReceiveErrorEvent_disabled_modes_iff x a y : append_DataReceiveErrorEvent_disabled_modes x a = Ok y <-> one_more_DataReceiveErrorEvent_disabled_modes x a y.
Proof.
  unfold append_DataReceiveErrorEvent_disabled_modes, one_more_DataReceiveErrorEvent_disabled_modes. assert (F : forall e, strict RModeInAtomicSwcInstanceRef_object a = Ok e <-> is_a ORModeInAtomicSwcInstanceRef a e) by (intros e; apply strict_iff; is_pick). rewrite bind_iff. split.
  - intros (e & E & H). injection H as <-. exists e. split; [now apply F|]. cbn. splits; reflexivity.
  - intros (e & E & H0 & H1 & H2 & H3). exists e. split; [now apply F|]. destruct x, y. cbn in *. now subst.
Qed.
Lemma init_DataReceivedEvent_iff name kw x : init_DataReceivedEvent name kw = Ok x <-> describes_DataReceivedEvent name kw x.
Proof.
  unfold init_DataReceivedEvent, describes_DataReceivedEvent. split; [intros H; undo_all; splits; solve [assumption|reflexivity]|].
  intros (H0 & H1 & H2 & H3 & H4). destruct x. cbn in H1, H2, H3, H4. redo_all. reflexivity.
Qed.
Lemma make_DataReceivedEvent_iff name kw x : make_DataReceivedEvent name kw = Ok x <-> describes_make_DataReceivedEvent name kw x.
Proof.
  unfold make_DataReceivedEvent, describes_make_DataReceivedEvent. split.
  - intros H. undo_all. splits; try solve [assumption|reflexivity]. eexists. splits; [reflexivity|..]; assumption.
  - intros (H0 & H1 & H2 & H3 & d & K & K0 & K1). destruct x, d. cbn in K, H1, H2, H3, K0, K1. subst. rewrite no_class_given by (revert H0; unfold only; clear; intros H k I E; apply H in I; subst k; cbn in I; intuition discriminate). cbn [bind]. redo_all. reflexivity.
Qed.
Lemma append_DataReceivedEvent_disabled_modes_iff x a y : append_DataReceivedEvent_disabled_modes x a = Ok y <-> one_more_DataReceivedEvent_disabled_modes x a y.
Proof.
  unfold append_DataReceivedEvent_disabled_modes, one_more_DataReceivedEvent_disabled_modes. assert (F : forall e, strict RModeInAtomicSwcInstanceRef_object a = Ok e <-> is_a ORModeInAtomicSwcInstanceRef a e) by (intros e; apply strict_iff; is_pick). rewrite bind_iff. split.
  - intros (e & E & H). injection H as <-. exists e. split; [now apply F|]. cbn. splits; reflexivity.
  - intros (e & E & H0 & H1 & H2 & H3). exists e. split; [now apply F|]. destruct x, y. cbn in *. now subst.
Qed.
Lemma init_DataSendCompletedEvent_iff name kw x : init_DataSendCompletedEvent name kw = Ok x <-> describes_DataSendCompletedEvent name kw x.
Proof.
  unfold init_DataSendCompletedEvent, describes_DataSendCompletedEvent. split; [intros H; undo_all; splits; solve [assumption|reflexivity]|].
  intros (H0 & H1 & H2 & H3 & H4). destruct x. cbn in H1, H2, H3, H4. redo_all. reflexivity.
Qed.
Lemma append_DataSendCompletedEvent_disabled_modes_iff x a y : append_DataSendCompletedEvent_disabled_modes x a = Ok y <-> one_more_DataSendCompletedEvent_disabled_modes x a y.
Proof.
  unfold append_DataSendCompletedEvent_disabled_modes, one_more_DataSendCompletedEvent_disabled_modes. assert (F : forall e, strict RModeInAtomicSwcInstanceRef_object a = Ok e <-> is_a ORModeInAtomicSwcInstanceRef a e) by (intros e; apply strict_iff; is_pick). rewrite bind_iff. split.
  - intros (e & E & H). injection H as <-. exists e. split; [now apply F|]. cbn. splits; reflexivity.
  - intros (e & E & H0 & H1 & H2 & H3). exists e. split; [now apply F|]. destruct x, y. cbn in *. now subst.
Qed.
Lemma init_DataWriteCompletedEvent_iff name kw x : init_DataWriteCompletedEvent name kw = Ok x <-> describes_DataWriteCompletedEvent name kw x.
Proof.
  unfold init_DataWriteCompletedEvent, describes_DataWriteCompletedEvent. split; [intros H; undo_all; splits; solve [assumption|reflexivity]|].
  intros (H0 & H1 & H2 & H3 & H4). destruct x. cbn in H1, H2, H3, H4. redo_all. reflexivity.
Qed.
Lemma append_DataWriteCompletedEvent_disabled_modes_iff x a y : append_DataWriteCompletedEvent_disabled_modes x a = Ok y <-> one_more_DataWriteCompletedEvent_disabled_modes x a y.
Proof.
  unfold append_DataWriteCompletedEvent_disabled_modes, one_more_DataWriteCompletedEvent_disabled_modes. assert (F : forall e, strict RModeInAtomicSwcInstanceRef_object a = Ok e <-> is_a ORModeInAtomicSwcInstanceRef a e) by (intros e; apply strict_iff; is_pick). rewrite bind_iff. split.
  - intros (e & E & H). injection H as <-. exists e. split; [now apply F|]. cbn. splits; reflexivity.
  - intros (e & E & H0 & H1 & H2 & H3). exists e. split; [now apply F|]. destruct x, y. cbn in *. now subst.
Qed.
Lemma init_ExternalTriggerOccurredEvent_iff name kw x : init_ExternalTriggerOccurredEvent name kw = Ok x <-> describes_ExternalTriggerOccurredEvent name kw x.
Proof.
  unfold init_ExternalTriggerOccurredEvent, describes_ExternalTriggerOccurredEvent. split; [intros H; undo_all; splits; solve [assumption|reflexivity]|].
  intros (H0 & H1 & H2 & H3 & H4). destruct x. cbn in H1, H2, H3, H4. redo_all. reflexivity.
Qed.
Lemma make_ExternalTriggerOccurredEvent_iff name kw x : make_ExternalTriggerOccurredEvent name kw = Ok x <-> describes_make_ExternalTriggerOccurredEvent name kw x.
Proof.
  unfold make_ExternalTriggerOccurredEvent, describes_make_ExternalTriggerOccurredEvent. split.
  - intros H. undo_all. splits; try solve [assumption|reflexivity]. eexists. splits; [reflexivity|..]; assumption.
  - intros (H0 & H1 & H2 & H3 & d & K & K0 & K1). destruct x, d. cbn in K, H1, H2, H3, K0, K1. subst. rewrite no_class_given by (revert H0; unfold only; clear; intros H k I E; apply H in I; subst k; cbn in I; intuition discriminate). cbn [bind]. redo_all. reflexivity.
Qed.
Lemma append_ExternalTriggerOccurredEvent_disabled_modes_iff x a y : append_ExternalTriggerOccurredEvent_disabled_modes x a = Ok y <-> one_more_ExternalTriggerOccurredEvent_disabled_modes x a y.
Proof.
  unfold append_ExternalTriggerOccurredEvent_disabled_modes, one_more_ExternalTriggerOccurredEvent_disabled_modes. assert (F : forall e, strict RModeInAtomicSwcInstanceRef_object a = Ok e <-> is_a ORModeInAtomicSwcInstanceRef a e) by (intros e; apply strict_iff; is_pick). rewrite bind_iff. split.
  - intros (e & E & H). injection H as <-. exists e. split; [now apply F|]. cbn. splits; reflexivity.
  - intros (e & E & H0 & H1 & H2 & H3). exists e. split; [now apply F|]. destruct x, y. cbn in *. now subst.
Qed.
Lemma init_InitEvent_iff name kw x : init_InitEvent name kw = Ok x <-> describes_InitEvent name kw x.
Proof.
  unfold init_InitEvent, describes_InitEvent. split; [intros H; undo_all; splits; solve [assumption|reflexivity]|].
  intros (H0 & H1 & H2 & H3). destruct x. cbn in H1, H2, H3. redo_all. reflexivity.
Qed.
Lemma append_InitEvent_disabled_modes_iff x a y : append_InitEvent_disabled_modes x a = Ok y <-> one_more_InitEvent_disabled_modes x a y.
Proof.
  unfold append_InitEvent_disabled_modes, one_more_InitEvent_disabled_modes. assert (F : forall e, strict RModeInAtomicSwcInstanceRef_object a = Ok e <-> is_a ORModeInAtomicSwcInstanceRef a e) by (intros e; apply strict_iff; is_pick). rewrite bind_iff. split.
  - intros (e & E & H). injection H as <-. exists e. split; [now apply F|]. cbn. splits; reflexivity.
  - intros (e & E & H0 & H1 & H2). exists e. split; [now apply F|]. destruct x, y. cbn in *. now subst.
Qed.
Lemma init_InternalTriggerOccurredEvent_iff name kw x : init_InternalTriggerOccurredEvent name kw = Ok x <-> describes_InternalTriggerOccurredEvent name kw x.
Proof.
  unfold init_InternalTriggerOccurredEvent, describes_InternalTriggerOccurredEvent. split; [intros H; undo_all; splits; solve [assumption|reflexivity]|].
  intros (H0 & H1 & H2 & H3 & H4). destruct x. cbn in H1, H2, H3, H4. redo_all. reflexivity.
Qed.
Lemma append_InternalTriggerOccurredEvent_disabled_modes_iff x a y : append_InternalTriggerOccurredEvent_disabled_modes x a = Ok y <-> one_more_InternalTriggerOccurredEvent_disabled_modes x a y.
Proof.
  unfold append_InternalTriggerOccurredEvent_disabled_modes, one_more_InternalTriggerOccurredEvent_disabled_modes. assert (F : forall e, strict RModeInAtomicSwcInstanceRef_object a = Ok e <-> is_a ORModeInAtomicSwcInstanceRef a e) by (intros e; apply strict_iff; is_pick). rewrite bind_iff. split.
  - intros (e & E & H). injection H as <-. exists e. split; [now apply F|]. cbn. splits; reflexivity.
  - intros (e & E & H0 & H1 & H2 & H3). exists e. split; [now apply F|]. destruct x, y. cbn in *. now subst.
Qed.
Lemma init_ModeSwitchedAckEvent_iff name kw x : init_ModeSwitchedAckEvent name kw = Ok x <-> describes_ModeSwitchedAckEvent name kw x.
Proof.
  unfold init_ModeSwitchedAckEvent, describes_ModeSwitchedAckEvent. split; [intros H; undo_all; splits; solve [assumption|reflexivity]|].
  intros (H0 & H1 & H2 & H3 & H4). destruct x. cbn in H1, H2, H3, H4. redo_all. reflexivity.
Qed.
Lemma append_ModeSwitchedAckEvent_disabled_modes_iff x a y : append_ModeSwitchedAckEvent_disabled_modes x a = Ok y <-> one_more_ModeSwitchedAckEvent_disabled_modes x a y.
Proof.
  unfold append_ModeSwitchedAckEvent_disabled_modes, one_more_ModeSwitchedAckEvent_disabled_modes. assert (F : forall e, strict RModeInAtomicSwcInstanceRef_object a = Ok e <-> is_a ORModeInAtomicSwcInstanceRef a e) by (intros e; apply strict_iff; is_pick). rewrite bind_iff. split.
  - intros (e & E & H). injection H as <-. exists e. split; [now apply F|]. cbn. splits; reflexivity.
  - intros (e & E & H0 & H1 & H2 & H3). exists e. split; [now apply F|]. destruct x, y. cbn in *. now subst.
Qed.
Lemma init_OperationInvokedEvent_iff name kw x : init_OperationInvokedEvent name kw = Ok x <-> describes_OperationInvokedEvent name kw x.
Proof.
  unfold init_OperationInvokedEvent, describes_OperationInvokedEvent. split; [intros H; undo_all; splits; solve [assumption|reflexivity]|].
  intros (H0 & H1 & H2 & H3 & H4). destruct x. cbn in H1, H2, H3, H4. redo_all. reflexivity.
Qed.
Lemma make_OperationInvokedEvent_iff name kw x : make_OperationInvokedEvent name kw = Ok x <-> describes_make_OperationInvokedEvent name kw x.
Proof.
  unfold make_OperationInvokedEvent, describes_make_OperationInvokedEvent. split.
  - intros H. undo_all. splits; try solve [assumption|reflexivity]. eexists. splits; [reflexivity|..]; assumption.
  - intros (H0 & H1 & H2 & H3 & d & K & K0 & K1). destruct x, d. cbn in K, H1, H2, H3, K0, K1. subst. rewrite no_class_given by (revert H0; unfold only; clear; intros H k I E; apply H in I; subst k; cbn in I; intuition discriminate). cbn [bind]. redo_all. reflexivity.
Qed.
Lemma append_OperationInvokedEvent_disabled_modes_iff x a y : append_OperationInvokedEvent_disabled_modes x a = Ok y <-> one_more_OperationInvokedEvent_disabled_modes x a y.
Proof.
  unfold append_OperationInvokedEvent_disabled_modes, one_more_OperationInvokedEvent_disabled_modes. assert (F : forall e, strict RModeInAtomicSwcInstanceRef_object a = Ok e <-> is_a ORModeInAtomicSwcInstanceRef a e) by (intros e; apply strict_iff; is_pick). rewrite bind_iff. split.
  - intros (e & E & H). injection H as <-. exists e. split; [now apply F|]. cbn. splits; reflexivity.
  - intros (e & E & H0 & H1 & H2 & H3). exists e. split; [now apply F|]. destruct x, y. cbn in *. now subst.
Qed.
Lemma init_SwcModeManagerErrorEvent_iff name kw x : init_SwcModeManagerErrorEvent name kw = Ok x <-> describes_SwcModeManagerErrorEvent name kw x.
Proof.
  unfold init_SwcModeManagerErrorEvent, describes_SwcModeManagerErrorEvent. split; [intros H; undo_all; splits; solve [assumption|reflexivity]|].
  intros (H0 & H1 & H2 & H3 & H4). destruct x. cbn in H1, H2, H3, H4. redo_all. reflexivity.
Qed.
Lemma make_SwcModeManagerErrorEvent_iff name kw x : make_SwcModeManagerErrorEvent name kw = Ok x <-> describes_make_SwcModeManagerErrorEvent name kw x.
Proof.
  unfold make_SwcModeManagerErrorEvent, describes_make_SwcModeManagerErrorEvent. split.
  - intros H. undo_all. splits; try solve [assumption|reflexivity]. eexists. splits; [reflexivity|..]; assumption.
  - intros (H0 & H1 & H2 & H3 & d & K & K0 & K1). destruct x, d. cbn in K, H1, H2, H3, K0, K1. subst. rewrite no_class_given by (revert H0; unfold only; clear; intros H k I E; apply H in I; subst k; cbn in I; intuition discriminate). cbn [bind]. redo_all. reflexivity.
Qed.
Lemma append_SwcModeManagerErrorEvent_disabled_modes_iff x a y : append_SwcModeManagerErrorEvent_disabled_modes x a = Ok y <-> one_more_SwcModeManagerErrorEvent_disabled_modes x a y.
Proof.
  unfold append_SwcModeManagerErrorEvent_disabled_modes, one_more_SwcModeManagerErrorEvent_disabled_modes. assert (F : forall e, strict RModeInAtomicSwcInstanceRef_object a = Ok e <-> is_a ORModeInAtomicSwcInstanceRef a e) by (intros e; apply strict_iff; is_pick). rewrite bind_iff. split.
  - intros (e & E & H). injection H as <-. exists e. split; [now apply F|]. cbn. splits; reflexivity.
  - intros (e & E & H0 & H1 & H2 & H3). exists e. split; [now apply F|]. destruct x, y. cbn in *. now subst.
Qed.
Lemma init_SwcModeSwitchEvent_iff name kw x : init_SwcModeSwitchEvent name kw = Ok x <-> describes_SwcModeSwitchEvent name kw x.
Proof.
  unfold init_SwcModeSwitchEvent, describes_SwcModeSwitchEvent. split; [intros H; undo_all; splits; solve [assumption|reflexivity]|].
  intros (H0 & H1 & H2 & H3 & H4 & H5). destruct x. cbn in H1, H2, H3, H4, H5. redo_all. reflexivity.
Qed.
Lemma make_SwcModeSwitchEvent_iff name kw x : make_SwcModeSwitchEvent name kw = Ok x <-> describes_make_SwcModeSwitchEvent name kw x.
Proof.
  unfold make_SwcModeSwitchEvent, describes_make_SwcModeSwitchEvent. split.
  - intros H. undo_all. splits; try solve [assumption|reflexivity]. eexists. splits; [reflexivity|..]; assumption.
  - intros (H0 & H1 & H2 & H3 & H4 & d & K & K0 & K1 & K2). destruct x, d. cbn in K, H1, H2, H3, H4, K0, K1, K2. subst. rewrite no_class_given by (revert H0; unfold only; clear; intros H k I E; apply H in I; subst k; cbn in I; intuition discriminate). cbn [bind]. redo_all. reflexivity.
Qed.
Lemma append_SwcModeSwitchEvent_disabled_modes_iff x a y : append_SwcModeSwitchEvent_disabled_modes x a = Ok y <-> one_more_SwcModeSwitchEvent_disabled_modes x a y.
Proof.
  unfold append_SwcModeSwitchEvent_disabled_modes, one_more_SwcModeSwitchEvent_disabled_modes. assert (F : forall e, strict RModeInAtomicSwcInstanceRef_object a = Ok e <-> is_a ORModeInAtomicSwcInstanceRef a e) by (intros e; apply strict_iff; is_pick). rewrite bind_iff. split.
  - intros (e & E & H). injection H as <-. exists e. split; [now apply F|]. cbn. splits; reflexivity.
  - intros (e & E & H0 & H1 & H2 & H3 & H4). exists e. split; [now apply F|]. destruct x, y. cbn in *. now subst.
Qed.
Lemma init_TimingEvent_iff name kw x : init_TimingEvent name kw = Ok x <-> describes_TimingEvent name kw x.
Proof.
  unfold init_TimingEvent, describes_TimingEvent. split; [intros H; undo_all; splits; solve [assumption|reflexivity]|].
  intros (H0 & H1 & H2 & H3 & H4 & H5). destruct x. cbn in H1, H2, H3, H4, H5. redo_all. reflexivity.
Qed.
Lemma append_TimingEvent_disabled_modes_iff x a y : append_TimingEvent_disabled_modes x a = Ok y <-> one_more_TimingEvent_disabled_modes x a y.
Proof.
  unfold append_TimingEvent_disabled_modes, one_more_TimingEvent_disabled_modes. assert (F : forall e, strict RModeInAtomicSwcInstanceRef_object a = Ok e <-> is_a ORModeInAtomicSwcInstanceRef a e) by (intros e; apply strict_iff; is_pick). rewrite bind_iff. split.
  - intros (e & E & H). injection H as <-. exists e. split; [now apply F|]. cbn. splits; reflexivity.
  - intros (e & E & H0 & H1 & H2 & H3 & H4). exists e. split; [now apply F|]. destruct x, y. cbn in *. now subst.
Qed.
Lemma init_TransformerHardErrorEvent_iff name kw x : init_TransformerHardErrorEvent name kw = Ok x <-> describes_TransformerHardErrorEvent name kw x.
Proof.
  unfold init_TransformerHardErrorEvent, describes_TransformerHardErrorEvent. split; [intros H; undo_all; splits; solve [assumption|reflexivity]|].
  intros (H0 & H1 & H2 & H3 & H4 & H5 & H6). destruct x. cbn in H1, H2, H3, H4, H5, H6. redo_all. reflexivity.
Qed.
Lemma append_TransformerHardErrorEvent_disabled_modes_iff x a y : append_TransformerHardErrorEvent_disabled_modes x a = Ok y <-> one_more_TransformerHardErrorEvent_disabled_modes x a y.
Proof.
  unfold append_TransformerHardErrorEvent_disabled_modes, one_more_TransformerHardErrorEvent_disabled_modes. assert (F : forall e, strict RModeInAtomicSwcInstanceRef_object a = Ok e <-> is_a ORModeInAtomicSwcInstanceRef a e) by (intros e; apply strict_iff; is_pick). rewrite bind_iff. split.
  - intros (e & E & H). injection H as <-. exists e. split; [now apply F|]. cbn. splits; reflexivity.
  - intros (e & E & H0 & H1 & H2 & H3 & H4 & H5). exists e. split; [now apply F|]. destruct x, y. cbn in *. now subst.
Qed.

(** ** Port API options *)
Lemma init_PortDefinedArgumentValue_iff kw x : init_PortDefinedArgumentValue kw = Ok x <-> describes_PortDefinedArgumentValue kw x.
Proof.
  unfold init_PortDefinedArgumentValue, describes_PortDefinedArgumentValue. split; [intros H; undo_all; splits; solve [assumption|reflexivity]|].
  intros (H0 & H1 & H2). destruct x. cbn in H1, H2. redo_all. reflexivity.
Qed.
Lemma init_CommunicationBufferLocking_iff kw x : init_CommunicationBufferLocking kw = Ok x <-> describes_CommunicationBufferLocking kw x.
Proof.
  unfold init_CommunicationBufferLocking, describes_CommunicationBufferLocking. split; [intros H; undo_all; splits; solve [assumption|reflexivity]|].
  intros (H0 & H1). destruct x. cbn in H1. redo_all. reflexivity.
Qed.
Lemma init_PortApiOption_iff kw x : init_PortApiOption kw = Ok x <-> describes_PortApiOption kw x.
Proof.
  unfold init_PortApiOption, describes_PortApiOption. split; [intros H; undo_all; splits; solve [assumption|reflexivity]|].
  intros (H0 & H1 & H2 & H3 & H4 & H5 & H6 & H7). destruct x. cbn in H1, H2, H3, H4, H5, H6, H7. redo_all. reflexivity.
Qed.
Lemma append_PortApiOption_port_arg_values_iff x a y : append_PortApiOption_port_arg_values x a = Ok y <-> one_more_PortApiOption_port_arg_values x a y.
Proof.
  unfold append_PortApiOption_port_arg_values, one_more_PortApiOption_port_arg_values. assert (F : forall e, strict PortDefinedArgumentValue_object a = Ok e <-> is_a OPortDefinedArgumentValue a e) by (intros e; apply strict_iff; is_pick). rewrite bind_iff. split.
  - intros (e & E & H). injection H as <-. exists e. split; [now apply F|]. cbn. splits; reflexivity.
  - intros (e & E & H0 & H1 & H2 & H3 & H4 & H5 & H6). exists e. split; [now apply F|]. destruct x, y. cbn in *. now subst.
Qed.
Lemma append_PortApiOption_supported_features_iff x a y : append_PortApiOption_supported_features x a = Ok y <-> one_more_PortApiOption_supported_features x a y.
Proof.
  unfold append_PortApiOption_supported_features, one_more_PortApiOption_supported_features. assert (F : forall e, strict CommunicationBufferLocking_object a = Ok e <-> is_a OCommunicationBufferLocking a e) by (intros e; apply strict_iff; is_pick). rewrite bind_iff. split.
  - intros (e & E & H). injection H as <-. exists e. split; [now apply F|]. cbn. splits; reflexivity.
  - intros (e & E & H0 & H1 & H2 & H3 & H4 & H5 & H6). exists e. split; [now apply F|]. destruct x, y. cbn in *. now subst.
Qed.
