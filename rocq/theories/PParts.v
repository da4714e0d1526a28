(** Proofs about creating code, filters and communication specifications. *)
From Verif Require Import Base PBase MNum MXml MEnum MRefTab MRef PRef MCodec MElem0 MElem1 MElemA MElemB MElemC MElem2 MElemD MElem3 MElem4 MElemE MElem5 MElemF MArxml MFind MValue MEvent MPort SPort PPort MAccess SAccess PAccess MRunnable SRunnable PRunnable MIface SIface PIface MData SFormat SData PData MConst SConst PConst  MParts SParts.
Open Scope list_scope.
Ltac splits := repeat match goal with |- _ /\ _ => split end.

(** ** Arguments *)
Lemma own_ref_iff c a r : own_ref c a = Ok r <-> of_class (rc_name c) a r.
Proof.
  unfold own_ref. destruct (as_ref c a) as [x|] eqn:A; (split; [|intros H; apply as_ref_iff in H; congruence]).
  - intros E. injection E as <-. now apply as_ref_iff.
  - discriminate.
Qed.
Lemma data_element_iff kw k v : optional data_element_of (kwarg k kw) = Ok v <-> holds means_data_element kw k v.
Proof.
  apply opt_iff. intros a x _. unfold data_element_of. split.
  - destruct (as_ref rc_AutosarDataPrototypeRef a) as [r|] eqn:A.
    + intros E. injection E as <-. apply element_general. now apply (as_ref_iff rc_AutosarDataPrototypeRef).
    + destruct (as_ref rc_VariableDataPrototypeRef a) as [r|] eqn:B; [|discriminate]. intros E. injection E as <-. apply element_variable. now apply (as_ref_iff rc_VariableDataPrototypeRef).
  - intros [b r H|b r H].
    + apply (as_ref_iff rc_AutosarDataPrototypeRef) in H. now rewrite H.
    + destruct H as [c r E]. cbn [as_ref]. rewrite E. reflexivity.
Qed.
Lemma DataFilterType_object_iff kw k v : optional (strict DataFilterType_object) (kwarg k kw) = Ok v <-> holds (is_a ODataFilterType) kw k v.
Proof. apply a_iff; is_pick. Qed.
Lemma some_AutosarEngineeringObject_object_iff kw k l : objects AutosarEngineeringObject_object (kwarg k kw) = Ok l <-> holds_list (means_objects OAutosarEngineeringObject) kw k l.
Proof. apply objects_iff; is_pick. Qed.
Lemma some_Code_object_iff kw k l : objects Code_object (kwarg k kw) = Ok l <-> holds_list (means_objects OCode) kw k l.
Proof. apply objects_iff; is_pick. Qed.
Lemma ref_SwcInternalBehaviorRef_iff kw k v : opt_ref rc_SwcInternalBehaviorRef (kwarg k kw) = Ok v <-> holds (means_ref [IdentifiableSubTypes_SWC_INTERNAL_BEHAVIOR]) kw k v.
Proof. now apply opt_ref_iff. Qed.
Lemma ref_ImplementationDataTypeRef_iff kw k v : opt_ref rc_ImplementationDataTypeRef (kwarg k kw) = Ok v <-> holds (means_ref [IdentifiableSubTypes_IMPLEMENTATION_DATA_TYPE]) kw k v.
Proof. now apply opt_ref_iff. Qed.
Lemma ref_ModeDeclarationGroupRef_iff kw k v : opt_ref rc_ModeDeclarationGroupRef (kwarg k kw) = Ok v <-> holds (means_ref [IdentifiableSubTypes_MODE_DECLARATION_GROUP]) kw k v.
Proof. now apply opt_ref_iff. Qed.
Lemma DocumentationBlock_object_iff kw k v : optional (strict DocumentationBlock_object) (kwarg k kw) = Ok v <-> holds (is_a ODocumentationBlock) kw k v.
Proof. apply a_iff; is_pick. Qed.
Lemma AdminData_object_iff kw k v : optional (strict AdminData_object) (kwarg k kw) = Ok v <-> holds (is_a OAdminData) kw k v.
Proof. apply a_iff; is_pick. Qed.
Lemma ref_E2EProfileCompatibilityPropsRef_iff kw k v : opt_ref rc_E2EProfileCompatibilityPropsRef (kwarg k kw) = Ok v <-> holds (means_ref [IdentifiableSubTypes_E2E_PROFILE_COMPATIBILITY_PROPS]) kw k v.
Proof. now apply opt_ref_iff. Qed.
Lemma TransmissionMode_object_iff kw k v : optional (strict TransmissionMode_object) (kwarg k kw) = Ok v <-> holds (is_a OTransmissionMode) kw k v.
Proof. apply a_iff; is_pick. Qed.
Lemma HandleOutOfRange_object_iff kw k v : optional (strict HandleOutOfRange_object) (kwarg k kw) = Ok v <-> holds (is_a OHandleOutOfRange) kw k v.
Proof. apply a_iff; is_pick. Qed.
Lemma SwDataDefProps_object_iff kw k v : optional (strict SwDataDefProps_object) (kwarg k kw) = Ok v <-> holds (is_a OSwDataDefProps) kw k v.
Proof. apply a_iff; is_pick. Qed.
Lemma TransmissionComSpecProps_object_iff kw k v : optional (strict TransmissionComSpecProps_object) (kwarg k kw) = Ok v <-> holds (is_a OTransmissionComSpecProps) kw k v.
Proof. apply a_iff; is_pick. Qed.
Lemma DataFilter_object_iff kw k v : optional (strict DataFilter_object) (kwarg k kw) = Ok v <-> holds (is_a ODataFilter) kw k v.
Proof. apply a_iff; is_pick. Qed.
Lemma ref_ModeDeclarationGroupPrototypeRef_iff kw k v : opt_ref rc_ModeDeclarationGroupPrototypeRef (kwarg k kw) = Ok v <-> holds (means_ref [IdentifiableSubTypes_MODE_DECLARATION_GROUP_PROTOTYPE]) kw k v.
Proof. now apply opt_ref_iff. Qed.
Lemma ref_VariableDataPrototypeRef_iff kw k v : opt_ref rc_VariableDataPrototypeRef (kwarg k kw) = Ok v <-> holds (means_ref [IdentifiableSubTypes_VARIABLE_DATA_PROTOTYPE]) kw k v.
Proof. now apply opt_ref_iff. Qed.
Lemma ref_ParameterDataPrototypeRef_iff kw k v : opt_ref rc_ParameterDataPrototypeRef (kwarg k kw) = Ok v <-> holds (means_ref [IdentifiableSubTypes_PARAMETER_DATA_PROTOTYPE]) kw k v.
Proof. now apply opt_ref_iff. Qed.
Lemma ref_ClientServerOperationRef_iff kw k v : opt_ref rc_ClientServerOperationRef (kwarg k kw) = Ok v <-> holds (means_ref [IdentifiableSubTypes_CLIENT_SERVER_OPERATION]) kw k v.
Proof. now apply opt_ref_iff. Qed.
Lemma HandleOutOfRangeStatus_object_iff kw k v : optional (strict HandleOutOfRangeStatus_object) (kwarg k kw) = Ok v <-> holds (is_a OHandleOutOfRangeStatus) kw k v.
Proof. apply a_iff; is_pick. Qed.
Lemma ReceptionComSpecProps_object_iff kw k v : optional (strict ReceptionComSpecProps_object) (kwarg k kw) = Ok v <-> holds (is_a OReceptionComSpecProps) kw k v.
Proof. apply a_iff; is_pick. Qed.
Lemma VariableAccess_object_iff kw k v : optional (strict VariableAccess_object) (kwarg k kw) = Ok v <-> holds (is_a OVariableAccess) kw k v.
Proof. apply a_iff; is_pick. Qed.
Lemma HandleTimeout_object_iff kw k v : optional (strict HandleTimeout_object) (kwarg k kw) = Ok v <-> holds (is_a OHandleTimeout) kw k v.
Proof. apply a_iff; is_pick. Qed.
Ltac conv_to H := first [apply keywords_iff in H|apply identifiable_iff in H|apply DataFilterType_object_iff in H|apply whole_iff in H|apply own_text_iff in H|apply some_AutosarEngineeringObject_object_iff in H|apply some_Code_object_iff in H|apply ref_SwcInternalBehaviorRef_iff in H|apply ref_ImplementationDataTypeRef_iff in H|apply ref_ModeDeclarationGroupRef_iff in H|apply bool_strict_iff in H|apply opt_description_iff in H|apply opt_text_cast_iff in H|apply DocumentationBlock_object_iff in H|apply AdminData_object_iff in H|apply ref_E2EProfileCompatibilityPropsRef_iff in H|apply opt_count_iff in H|apply opt_float_iff in H|apply TransmissionMode_object_iff in H|apply data_element_iff in H|apply HandleOutOfRange_object_iff in H|apply SwDataDefProps_object_iff in H|apply TransmissionComSpecProps_object_iff in H|apply opt_bool_iff in H|apply opt_transmission_ack_iff in H|apply DataFilter_object_iff in H|apply opt_value_specification_iff in H|apply ref_ModeDeclarationGroupPrototypeRef_iff in H|apply opt_mode_ack_iff in H|apply ref_VariableDataPrototypeRef_iff in H|apply ref_ParameterDataPrototypeRef_iff in H|apply ref_ClientServerOperationRef_iff in H|apply transformations_iff in H|apply HandleOutOfRangeStatus_object_iff in H|apply ReceptionComSpecProps_object_iff in H|apply VariableAccess_object_iff in H|apply HandleTimeout_object_iff in H].
Ltac conv_of := first [apply identifiable_iff|apply DataFilterType_object_iff|apply whole_iff|apply own_text_iff|apply some_AutosarEngineeringObject_object_iff|apply some_Code_object_iff|apply ref_SwcInternalBehaviorRef_iff|apply ref_ImplementationDataTypeRef_iff|apply ref_ModeDeclarationGroupRef_iff|apply bool_strict_iff|apply opt_description_iff|apply opt_text_cast_iff|apply DocumentationBlock_object_iff|apply AdminData_object_iff|apply ref_E2EProfileCompatibilityPropsRef_iff|apply opt_count_iff|apply opt_float_iff|apply TransmissionMode_object_iff|apply data_element_iff|apply HandleOutOfRange_object_iff|apply SwDataDefProps_object_iff|apply TransmissionComSpecProps_object_iff|apply opt_bool_iff|apply opt_transmission_ack_iff|apply DataFilter_object_iff|apply opt_value_specification_iff|apply ref_ModeDeclarationGroupPrototypeRef_iff|apply opt_mode_ack_iff|apply ref_VariableDataPrototypeRef_iff|apply ref_ParameterDataPrototypeRef_iff|apply ref_ClientServerOperationRef_iff|apply transformations_iff|apply HandleOutOfRangeStatus_object_iff|apply ReceptionComSpecProps_object_iff|apply VariableAccess_object_iff|apply HandleTimeout_object_iff]; eassumption.
Ltac undo_all := repeat match goal with
  | H : bind _ _ = Ok _ |- _ => let x := fresh "x" in let E := fresh "E" in apply bind_iff in H as (x & E & H); try conv_to E
  | H : Ok _ = Ok _ |- _ => injection H as <-
  end.
Ltac redo_all := repeat (apply bind_iff; first [exists tt; split; [apply keywords_iff; eassumption|]|eexists; split; [conv_of|]]; cbv beta iota).

(** ** Filters and code *)
Lemma init_DataFilter_iff kw x : init_DataFilter kw = Ok x <-> describes_DataFilter kw x.
Proof.
  unfold init_DataFilter, describes_DataFilter. split; [intros H; undo_all; splits; solve [assumption|reflexivity]|].
  intros (H0 & H1 & H2 & H3 & H4 & H5 & H6 & H7). destruct x. cbn in H1, H2, H3, H4, H5, H6, H7. redo_all. reflexivity.
Qed.
Lemma init_AutosarEngineeringObject_iff kw x : init_AutosarEngineeringObject kw = Ok x <-> describes_AutosarEngineeringObject kw x.
Proof.
  unfold init_AutosarEngineeringObject, describes_AutosarEngineeringObject. split; [intros H; undo_all; splits; solve [assumption|reflexivity]|].
  intros (H0 & H1 & H2). destruct x. cbn in H1, H2. redo_all. reflexivity.
Qed.
Lemma init_Code_iff name kw x : init_Code name kw = Ok x <-> describes_Code name kw x.
Proof.
  unfold init_Code, describes_Code. split; [intros H; undo_all; splits; solve [assumption|reflexivity]|].
  intros (H0 & H1 & H2). destruct x. cbn in H1, H2. redo_all. reflexivity.
Qed.
Lemma append_Code_artifact_descriptors_iff x a y : append_Code_artifact_descriptors x a = Ok y <-> one_more_Code_artifact_descriptors x a y.
Proof.
  unfold append_Code_artifact_descriptors, one_more_Code_artifact_descriptors. assert (F : forall e, strict AutosarEngineeringObject_object a = Ok e <-> is_a OAutosarEngineeringObject a e) by (intros e; apply strict_iff; is_pick). rewrite bind_iff. split.
  - intros (e & E & H). injection H as <-. exists e. split; [now apply F|]. cbn. splits; reflexivity.
  - intros (e & E & H0 & H1). exists e. split; [now apply F|]. destruct x, y. cbn in *. now subst.
Qed.
Lemma init_SwcImplementation_iff name kw x : init_SwcImplementation name kw = Ok x <-> describes_SwcImplementation name kw x.
Proof.
  unfold init_SwcImplementation, describes_SwcImplementation. split; [intros H; undo_all; splits; solve [assumption|reflexivity]|].
  intros (H0 & H1 & H2 & H3 & H4). destruct x. cbn in H1, H2, H3, H4. redo_all. reflexivity.
Qed.
Lemma append_SwcImplementation_code_descriptors_iff x a y : append_SwcImplementation_code_descriptors x a = Ok y <-> one_more_SwcImplementation_code_descriptors x a y.
Proof.
  unfold append_SwcImplementation_code_descriptors, one_more_SwcImplementation_code_descriptors. assert (F : forall e, strict Code_object a = Ok e <-> is_a OCode a e) by (intros e; apply strict_iff; is_pick). rewrite bind_iff. split.
  - intros (e & E & H). injection H as <-. exists e. split; [now apply F|]. cbn. splits; reflexivity.
  - intros (e & E & H0 & H1 & H2 & H3). exists e. split; [now apply F|]. destruct x, y. cbn in *. now subst.
Qed.
Lemma init_ModeRequestTypeMap_iff kw x : init_ModeRequestTypeMap kw = Ok x <-> describes_ModeRequestTypeMap kw x.
Proof.
  unfold init_ModeRequestTypeMap, describes_ModeRequestTypeMap. split; [intros H; undo_all; splits; solve [assumption|reflexivity]|].
  intros (H0 & H1 & H2). destruct x. cbn in H1, H2. redo_all. reflexivity.
Qed.

(** ** Parts of communication specifications *)
Lemma init_E2EProfileCompatibilityProps_iff name kw x : init_E2EProfileCompatibilityProps name kw = Ok x <-> describes_E2EProfileCompatibilityProps name kw x.
Proof.
  unfold init_E2EProfileCompatibilityProps, describes_E2EProfileCompatibilityProps. split; [intros H; undo_all; splits; solve [assumption|reflexivity]|].
  intros (H0 & H1 & H2). destruct x. cbn in H1, H2. redo_all. reflexivity.
Qed.
Lemma init_EndToEndTransformationComSpecProps_iff kw x : init_EndToEndTransformationComSpecProps kw = Ok x <-> describes_EndToEndTransformationComSpecProps kw x.
Proof.
  unfold init_EndToEndTransformationComSpecProps, describes_EndToEndTransformationComSpecProps. split; [intros H; undo_all; splits; solve [assumption|reflexivity]|].
  intros (H0 & H1 & H2 & H3 & H4 & H5 & H6 & H7 & H8 & H9 & H10 & H11 & H12 & H13 & H14 & H15 & H16 & H17 & H18 & H19 & H20 & H21). destruct x. cbn in H1, H2, H3, H4, H5, H6, H7, H8, H9, H10, H11, H12, H13, H14, H15, H16, H17, H18, H19, H20, H21. redo_all. reflexivity.
Qed.
Lemma init_ModeSwitchedAckRequest_iff kw x : init_ModeSwitchedAckRequest kw = Ok x <-> describes_ModeSwitchedAckRequest kw x.
Proof.
  unfold init_ModeSwitchedAckRequest, describes_ModeSwitchedAckRequest. split; [intros H; undo_all; splits; solve [assumption|reflexivity]|].
  intros (H0 & H1). destruct x. cbn in H1. redo_all. reflexivity.
Qed.
Lemma init_TransmissionAcknowledgementRequest_iff kw x : init_TransmissionAcknowledgementRequest kw = Ok x <-> describes_TransmissionAcknowledgementRequest kw x.
Proof.
  unfold init_TransmissionAcknowledgementRequest, describes_TransmissionAcknowledgementRequest. split; [intros H; undo_all; splits; solve [assumption|reflexivity]|].
  intros (H0 & H1). destruct x. cbn in H1. redo_all. reflexivity.
Qed.
Lemma init_TransmissionComSpecProps_iff kw x : init_TransmissionComSpecProps kw = Ok x <-> describes_TransmissionComSpecProps kw x.
Proof.
  unfold init_TransmissionComSpecProps, describes_TransmissionComSpecProps. split; [intros H; undo_all; splits; solve [assumption|reflexivity]|].
  intros (H0 & H1 & H2 & H3). destruct x. cbn in H1, H2, H3. redo_all. reflexivity.
Qed.
Lemma init_ReceptionComSpecProps_iff kw x : init_ReceptionComSpecProps kw = Ok x <-> describes_ReceptionComSpecProps kw x.
Proof.
  unfold init_ReceptionComSpecProps, describes_ReceptionComSpecProps. split; [intros H; undo_all; splits; solve [assumption|reflexivity]|].
  intros (H0 & H1 & H2). destruct x. cbn in H1, H2. redo_all. reflexivity.
Qed.

(** ** Communication specifications *)
Lemma init_QueuedSenderComSpec_iff kw x : init_QueuedSenderComSpec kw = Ok x <-> describes_QueuedSenderComSpec kw x.
Proof.
  unfold init_QueuedSenderComSpec, describes_QueuedSenderComSpec. split; [intros H; undo_all; splits; solve [assumption|reflexivity]|].
  intros (H0 & H1 & H2 & H3 & H4 & H5 & H6). destruct x. cbn in H1, H2, H3, H4, H5, H6. redo_all. reflexivity.
Qed.
Lemma init_NonqueuedSenderComSpec_iff kw x : init_NonqueuedSenderComSpec kw = Ok x <-> describes_NonqueuedSenderComSpec kw x.
Proof.
  unfold init_NonqueuedSenderComSpec, describes_NonqueuedSenderComSpec. split; [intros H; undo_all; splits; solve [assumption|reflexivity]|].
  intros (H0 & H1 & H2 & H3 & H4 & H5 & H6 & H7 & H8). destruct x. cbn in H1, H2, H3, H4, H5, H6, H7, H8. redo_all. reflexivity.
Qed.
Lemma init_ModeSwitchSenderComSpec_iff kw x : init_ModeSwitchSenderComSpec kw = Ok x <-> describes_ModeSwitchSenderComSpec kw x.
Proof.
  unfold init_ModeSwitchSenderComSpec, describes_ModeSwitchSenderComSpec. split; [intros H; undo_all; splits; solve [assumption|reflexivity]|].
  intros (H0 & H1 & H2 & H3 & H4). destruct x. cbn in H1, H2, H3, H4. redo_all. reflexivity.
Qed.
Lemma init_NvProvideComSpec_iff kw x : init_NvProvideComSpec kw = Ok x <-> describes_NvProvideComSpec kw x.
Proof.
  unfold init_NvProvideComSpec, describes_NvProvideComSpec. split; [intros H; undo_all; splits; solve [assumption|reflexivity]|].
  intros (H0 & H1 & H2 & H3). destruct x. cbn in H1, H2, H3. redo_all. reflexivity.
Qed.
Lemma init_ParameterProvideComSpec_iff kw x : init_ParameterProvideComSpec kw = Ok x <-> describes_ParameterProvideComSpec kw x.
Proof.
  unfold init_ParameterProvideComSpec, describes_ParameterProvideComSpec. split; [intros H; undo_all; splits; solve [assumption|reflexivity]|].
  intros (H0 & H1 & H2). destruct x. cbn in H1, H2. redo_all. reflexivity.
Qed.
Lemma init_ServerComSpec_iff kw x : init_ServerComSpec kw = Ok x <-> describes_ServerComSpec kw x.
Proof.
  unfold init_ServerComSpec, describes_ServerComSpec. split; [intros H; undo_all; splits; solve [assumption|reflexivity]|].
  intros (H0 & H1 & H2 & H3). destruct x. cbn in H1, H2, H3. redo_all. reflexivity.
Qed.
Lemma init_QueuedReceiverComSpec_iff kw x : init_QueuedReceiverComSpec kw = Ok x <-> describes_QueuedReceiverComSpec kw x.
Proof.
  unfold init_QueuedReceiverComSpec, describes_QueuedReceiverComSpec. split; [intros H; undo_all; splits; solve [assumption|reflexivity]|].
  intros (H0 & H1 & H2 & H3 & H4 & H5 & H6 & H7 & H8 & H9 & H10 & H11 & H12). destruct x. cbn in H1, H2, H3, H4, H5, H6, H7, H8, H9, H10, H11, H12. redo_all. reflexivity.
Qed.
Lemma init_NonqueuedReceiverComSpec_iff kw x : init_NonqueuedReceiverComSpec kw = Ok x <-> describes_NonqueuedReceiverComSpec kw x.
Proof.
  unfold init_NonqueuedReceiverComSpec, describes_NonqueuedReceiverComSpec. split; [intros H; undo_all; splits; solve [assumption|reflexivity]|].
  intros (H0 & H1 & H2 & H3 & H4 & H5 & H6 & H7 & H8 & H9 & H10 & H11 & H12 & H13 & H14 & H15 & H16 & H17 & H18 & H19). destruct x. cbn in H1, H2, H3, H4, H5, H6, H7, H8, H9, H10, H11, H12, H13, H14, H15, H16, H17, H18, H19. redo_all. reflexivity.
Qed.
Lemma init_NvRequireComSpec_iff kw x : init_NvRequireComSpec kw = Ok x <-> describes_NvRequireComSpec kw x.
Proof.
  unfold init_NvRequireComSpec, describes_NvRequireComSpec. split; [intros H; undo_all; splits; solve [assumption|reflexivity]|].
  intros (H0 & H1 & H2). destruct x. cbn in H1, H2. redo_all. reflexivity.
Qed.
Lemma init_ParameterRequireComSpec_iff kw x : init_ParameterRequireComSpec kw = Ok x <-> describes_ParameterRequireComSpec kw x.
Proof.
  unfold init_ParameterRequireComSpec, describes_ParameterRequireComSpec. split; [intros H; undo_all; splits; solve [assumption|reflexivity]|].
  intros (H0 & H1 & H2). destruct x. cbn in H1, H2. redo_all. reflexivity.
Qed.
Lemma init_ModeSwitchReceiverComSpec_iff kw x : init_ModeSwitchReceiverComSpec kw = Ok x <-> describes_ModeSwitchReceiverComSpec kw x.
Proof.
  unfold init_ModeSwitchReceiverComSpec, describes_ModeSwitchReceiverComSpec. split; [intros H; undo_all; splits; solve [assumption|reflexivity]|].
  intros (H0 & H1 & H2 & H3). destruct x. cbn in H1, H2, H3. redo_all. reflexivity.
Qed.
Lemma init_ClientComSpec_iff kw x : init_ClientComSpec kw = Ok x <-> describes_ClientComSpec kw x.
Proof.
  unfold init_ClientComSpec, describes_ClientComSpec. split; [intros H; undo_all; splits; solve [assumption|reflexivity]|].
  intros (H0 & H1 & H2 & H3). destruct x. cbn in H1, H2, H3. redo_all. reflexivity.
Qed.
Lemma append_ServerComSpec_transformation_com_spec_props_iff x a y : append_ServerComSpec_transformation_com_spec_props x a = Ok y <-> one_more_ServerComSpec_transformation_com_spec_props x a y.
Proof.
  unfold append_ServerComSpec_transformation_com_spec_props, one_more_ServerComSpec_transformation_com_spec_props. assert (F : forall e, strict EndToEndTransformationComSpecProps_object a = Ok e <-> is_a OEndToEndTransformationComSpecProps a e) by (intros e; apply strict_iff; is_pick). rewrite bind_iff. split.
  - intros (e & E & H). injection H as <-. exists e. split; [now apply F|]. cbn. splits; reflexivity.
  - intros (e & E & H0 & H1 & H2). exists e. split; [now apply F|]. destruct x, y. cbn in *. now subst.
Qed.
Lemma append_QueuedReceiverComSpec_transformation_com_spec_props_iff x a y : append_QueuedReceiverComSpec_transformation_com_spec_props x a = Ok y <-> one_more_QueuedReceiverComSpec_transformation_com_spec_props x a y.
Proof.
  unfold append_QueuedReceiverComSpec_transformation_com_spec_props, one_more_QueuedReceiverComSpec_transformation_com_spec_props. assert (F : forall e, strict EndToEndTransformationComSpecProps_object a = Ok e <-> is_a OEndToEndTransformationComSpecProps a e) by (intros e; apply strict_iff; is_pick). rewrite bind_iff. split.
  - intros (e & E & H). injection H as <-. exists e. split; [now apply F|]. cbn. splits; reflexivity.
  - intros (e & E & H0 & H1 & H2 & H3 & H4 & H5 & H6 & H7 & H8 & H9 & H10 & H11). exists e. split; [now apply F|]. destruct x, y. cbn in *. now subst.
Qed.
Lemma append_NonqueuedReceiverComSpec_transformation_com_spec_props_iff x a y : append_NonqueuedReceiverComSpec_transformation_com_spec_props x a = Ok y <-> one_more_NonqueuedReceiverComSpec_transformation_com_spec_props x a y.
Proof.
  unfold append_NonqueuedReceiverComSpec_transformation_com_spec_props, one_more_NonqueuedReceiverComSpec_transformation_com_spec_props. assert (F : forall e, strict EndToEndTransformationComSpecProps_object a = Ok e <-> is_a OEndToEndTransformationComSpecProps a e) by (intros e; apply strict_iff; is_pick). rewrite bind_iff. split.
  - intros (e & E & H). injection H as <-. exists e. split; [now apply F|]. cbn. splits; reflexivity.
  - intros (e & E & H0 & H1 & H2 & H3 & H4 & H5 & H6 & H7 & H8 & H9 & H10 & H11 & H12 & H13 & H14 & H15 & H16 & H17 & H18). exists e. split; [now apply F|]. destruct x, y. cbn in *. now subst.
Qed.
Lemma append_ClientComSpec_transformation_com_spec_props_iff x a y : append_ClientComSpec_transformation_com_spec_props x a = Ok y <-> one_more_ClientComSpec_transformation_com_spec_props x a y.
Proof.
  unfold append_ClientComSpec_transformation_com_spec_props, one_more_ClientComSpec_transformation_com_spec_props. assert (F : forall e, strict EndToEndTransformationComSpecProps_object a = Ok e <-> is_a OEndToEndTransformationComSpecProps a e) by (intros e; apply strict_iff; is_pick). rewrite bind_iff. split.
  - intros (e & E & H). injection H as <-. exists e. split; [now apply F|]. cbn. splits; reflexivity.
  - intros (e & E & H0 & H1 & H2). exists e. split; [now apply F|]. destruct x, y. cbn in *. now subst.
Qed.
