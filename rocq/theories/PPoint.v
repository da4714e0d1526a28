(** Proofs about creating references into components and parts of runnables. *)
From Verif Require Import Base PBase MNum MXml MEnum MRefTab MRef PRef MCodec MElem0 MElem1 MElemA MElemB MElemC MElem2 MElemD MElem3 MElem4 MElemE MElem5 MElemF MArxml MFind MValue MEvent MPort SPort PPort MAccess SAccess PAccess MRunnable SRunnable PRunnable MIface SIface PIface MData SFormat SData PData MConst SConst PConst MParts SParts PParts MPoint SPoint.
Open Scope list_scope.
Ltac splits := repeat match goal with |- _ /\ _ => split end.

(** ** Arguments *)
Lemma ref_AbstractProvidedPortPrototypeRef_iff kw k v : opt_ref rc_AbstractProvidedPortPrototypeRef (kwarg k kw) = Ok v <-> holds (means_ref kinds_of_AbstractProvidedPortPrototypeRef) kw k v.
Proof. now apply opt_ref_iff. Qed.
Lemma ref_TriggerRef_iff kw k v : opt_ref rc_TriggerRef (kwarg k kw) = Ok v <-> holds (means_ref [IdentifiableSubTypes_TRIGGER]) kw k v.
Proof. now apply opt_ref_iff. Qed.
Lemma ref_AbstractRequiredPortPrototypeRef_iff kw k v : opt_ref rc_AbstractRequiredPortPrototypeRef (kwarg k kw) = Ok v <-> holds (means_ref kinds_of_AbstractRequiredPortPrototypeRef) kw k v.
Proof. now apply opt_ref_iff. Qed.
Lemma ref_ModeDeclarationRef_iff kw k v : opt_ref rc_ModeDeclarationRef (kwarg k kw) = Ok v <-> holds (means_ref [IdentifiableSubTypes_MODE_DECLARATION]) kw k v.
Proof. now apply opt_ref_iff. Qed.
Lemma own_PortPrototypeRef_iff kw k v : opt_ref_strict rc_PortPrototypeRef (kwarg k kw) = Ok v <-> holds (of_class "PortPrototypeRef") kw k v.
Proof. apply (ref_strict_iff rc_PortPrototypeRef). Qed.
Lemma own_VariableDataPrototypeRef_iff kw k v : opt_ref_strict rc_VariableDataPrototypeRef (kwarg k kw) = Ok v <-> holds (of_class "VariableDataPrototypeRef") kw k v.
Proof. apply (ref_strict_iff rc_VariableDataPrototypeRef). Qed.
Lemma own_AbstractImplementationDataTypeElementRef_iff kw k v : opt_ref_strict rc_AbstractImplementationDataTypeElementRef (kwarg k kw) = Ok v <-> holds (of_class "AbstractImplementationDataTypeElementRef") kw k v.
Proof. apply (ref_strict_iff rc_AbstractImplementationDataTypeElementRef). Qed.
Lemma if_any_AbstractImplementationDataTypeElementRef_iff kw k l : lenient (own_ref rc_AbstractImplementationDataTypeElementRef) (kwarg k kw) = Ok l <-> holds_list (means_if_any (of_class "AbstractImplementationDataTypeElementRef")) kw k l.
Proof. apply lenient_iff; [intros ? ? E; inversion E|intros ? E; inversion E|]. intros a x. apply (own_ref_iff rc_AbstractImplementationDataTypeElementRef). Qed.
Lemma ref_PortPrototypeRef_iff kw k v : opt_ref rc_PortPrototypeRef (kwarg k kw) = Ok v <-> holds (means_ref kinds_of_PortPrototypeRef) kw k v.
Proof. now apply opt_ref_iff. Qed.
Lemma ref_DataPrototypeRef_iff kw k v : opt_ref rc_DataPrototypeRef (kwarg k kw) = Ok v <-> holds (means_ref kinds_of_DataPrototypeRef) kw k v.
Proof. now apply opt_ref_iff. Qed.
Lemma if_any_ApplicationCompositeElementDataPrototypeRef_iff kw k l : lenient (own_ref rc_ApplicationCompositeElementDataPrototypeRef) (kwarg k kw) = Ok l <-> holds_list (means_if_any (of_class "ApplicationCompositeElementDataPrototypeRef")) kw k l.
Proof. apply lenient_iff; [intros ? ? E; inversion E|intros ? E; inversion E|]. intros a x. apply (own_ref_iff rc_ApplicationCompositeElementDataPrototypeRef). Qed.
Lemma ArVariableInImplementationDataInstanceRef_object_iff kw k v : optional (strict ArVariableInImplementationDataInstanceRef_object) (kwarg k kw) = Ok v <-> holds (is_a OArVariableInImplementationDataInstanceRef) kw k v.
Proof. apply a_iff; is_pick. Qed.
Lemma VariableInAtomicSWCTypeInstanceRef_object_iff kw k v : optional (strict VariableInAtomicSWCTypeInstanceRef_object) (kwarg k kw) = Ok v <-> holds (is_a OVariableInAtomicSWCTypeInstanceRef) kw k v.
Proof. apply a_iff; is_pick. Qed.
Lemma ref_ApplicationCompositeElementDataPrototypeRef_iff kw k v : opt_ref rc_ApplicationCompositeElementDataPrototypeRef (kwarg k kw) = Ok v <-> holds (means_ref kinds_of_ApplicationCompositeElementDataPrototypeRef) kw k v.
Proof. now apply opt_ref_iff. Qed.
Lemma ParameterInAtomicSwcTypeInstanceRef_object_iff kw k v : optional (strict ParameterInAtomicSwcTypeInstanceRef_object) (kwarg k kw) = Ok v <-> holds (is_a OParameterInAtomicSwcTypeInstanceRef) kw k v.
Proof. apply a_iff; is_pick. Qed.
Lemma AutosarVariableRef_object_iff kw k v : optional (strict AutosarVariableRef_object) (kwarg k kw) = Ok v <-> holds (is_a OAutosarVariableRef) kw k v.
Proof. apply a_iff; is_pick. Qed.
Lemma VariableAccessScope_object_iff kw k v : optional (strict VariableAccessScope_object) (kwarg k kw) = Ok v <-> holds (is_a OVariableAccessScope) kw k v.
Proof. apply a_iff; is_pick. Qed.
Lemma ref_ExclusiveAreaRef_iff kw k v : opt_ref rc_ExclusiveAreaRef (kwarg k kw) = Ok v <-> holds (means_ref [IdentifiableSubTypes_EXCLUSIVE_AREA]) kw k v.
Proof. now apply opt_ref_iff. Qed.
Lemma RteApiReturnValueProvision_object_iff kw k v : optional (strict RteApiReturnValueProvision_object) (kwarg k kw) = Ok v <-> holds (is_a ORteApiReturnValueProvision) kw k v.
Proof. apply a_iff; is_pick. Qed.
Lemma ROperationInAtomicSwcInstanceRef_object_iff kw k v : optional (strict ROperationInAtomicSwcInstanceRef_object) (kwarg k kw) = Ok v <-> holds (is_a OROperationInAtomicSwcInstanceRef) kw k v.
Proof. apply a_iff; is_pick. Qed.
Lemma ref_AsynchronousServerCallPointRef_iff kw k v : opt_ref rc_AsynchronousServerCallPointRef (kwarg k kw) = Ok v <-> holds (means_ref [IdentifiableSubTypes_ASYNCHRONOUS_SERVER_CALL_POINT]) kw k v.
Proof. now apply opt_ref_iff. Qed.
Lemma ref_ExclusiveAreaNestingOrderRef_iff kw k v : opt_ref rc_ExclusiveAreaNestingOrderRef (kwarg k kw) = Ok v <-> holds (means_ref [IdentifiableSubTypes_EXCLUSIVE_AREA_NESTING_ORDER]) kw k v.
Proof. now apply opt_ref_iff. Qed.
Lemma ExternalTriggeringPointIdent_object_iff kw k v : optional (strict ExternalTriggeringPointIdent_object) (kwarg k kw) = Ok v <-> holds (is_a OExternalTriggeringPointIdent) kw k v.
Proof. apply a_iff; is_pick. Qed.
Lemma PTriggerInAtomicSwcTypeInstanceRef_object_iff kw k v : optional (strict PTriggerInAtomicSwcTypeInstanceRef_object) (kwarg k kw) = Ok v <-> holds (is_a OPTriggerInAtomicSwcTypeInstanceRef) kw k v.
Proof. apply a_iff; is_pick. Qed.
Lemma SwImplPolicy_object_iff kw k v : optional (strict SwImplPolicy_object) (kwarg k kw) = Ok v <-> holds (is_a OSwImplPolicy) kw k v.
Proof. apply a_iff; is_pick. Qed.
Lemma ModeAccessPointIdent_object_iff kw k v : optional (strict ModeAccessPointIdent_object) (kwarg k kw) = Ok v <-> holds (is_a OModeAccessPointIdent) kw k v.
Proof. apply a_iff; is_pick. Qed.
Lemma ModeGroupInAtomicSwcInstanceRef_object_iff kw k v : optional (strict ModeGroupInAtomicSwcInstanceRef_object) (kwarg k kw) = Ok v <-> holds (is_a OModeGroupInAtomicSwcInstanceRef) kw k v.
Proof. apply a_iff; is_pick. Qed.
Lemma PModeGroupInAtomicSwcInstanceRef_object_iff kw k v : optional (strict PModeGroupInAtomicSwcInstanceRef_object) (kwarg k kw) = Ok v <-> holds (is_a (fun e => OModeGroupInAtomicSwcInstanceRef (ModeGroup_P e))) kw k v.
Proof. apply (a_iff PModeGroupInAtomicSwcInstanceRef_object (fun e => OModeGroupInAtomicSwcInstanceRef (ModeGroup_P e))); [reflexivity|]. intros o x H. destruct o; try discriminate H. match goal with e : ModeGroupInAtomicSwcInstanceRef |- _ => destruct e; [now injection H as <-|discriminate H] end. Qed.
Lemma AutosarParameterRef_object_iff kw k v : optional (strict AutosarParameterRef_object) (kwarg k kw) = Ok v <-> holds (is_a OAutosarParameterRef) kw k v.
Proof. apply a_iff; is_pick. Qed.
Lemma ref_RteEventRef_iff kw k v : opt_ref rc_RteEventRef (kwarg k kw) = Ok v <-> holds (means_ref kinds_of_RteEventRef) kw k v.
Proof. now apply opt_ref_iff. Qed.
Ltac conv_to H := first [apply keywords_iff in H|apply identifiable_iff in H|apply ref_AbstractProvidedPortPrototypeRef_iff in H|apply ref_ClientServerOperationRef_iff in H|apply ref_ModeDeclarationGroupPrototypeRef_iff in H|apply ref_TriggerRef_iff in H|apply ref_AbstractRequiredPortPrototypeRef_iff in H|apply ref_ModeDeclarationRef_iff in H|apply ref_VariableDataPrototypeRef_iff in H|apply own_PortPrototypeRef_iff in H|apply own_VariableDataPrototypeRef_iff in H|apply own_AbstractImplementationDataTypeElementRef_iff in H|apply if_any_AbstractImplementationDataTypeElementRef_iff in H|apply ref_PortPrototypeRef_iff in H|apply ref_DataPrototypeRef_iff in H|apply if_any_ApplicationCompositeElementDataPrototypeRef_iff in H|apply ArVariableInImplementationDataInstanceRef_object_iff in H|apply VariableInAtomicSWCTypeInstanceRef_object_iff in H|apply ref_ApplicationCompositeElementDataPrototypeRef_iff in H|apply ParameterInAtomicSwcTypeInstanceRef_object_iff in H|apply AutosarVariableRef_object_iff in H|apply VariableAccessScope_object_iff in H|apply opt_text_cast_iff in H|apply opt_count_iff in H|apply ref_ExclusiveAreaRef_iff in H|apply own_text_iff in H|apply RteApiReturnValueProvision_object_iff in H|apply ROperationInAtomicSwcInstanceRef_object_iff in H|apply opt_float_iff in H|apply ref_AsynchronousServerCallPointRef_iff in H|apply ref_ExclusiveAreaNestingOrderRef_iff in H|apply ExternalTriggeringPointIdent_object_iff in H|apply PTriggerInAtomicSwcTypeInstanceRef_object_iff in H|apply SwImplPolicy_object_iff in H|apply ModeAccessPointIdent_object_iff in H|apply ModeGroupInAtomicSwcInstanceRef_object_iff in H|apply PModeGroupInAtomicSwcInstanceRef_object_iff in H|apply AutosarParameterRef_object_iff in H|apply props_iff in H|apply ref_RteEventRef_iff in H].
Ltac conv_of := first [apply identifiable_iff|apply ref_AbstractProvidedPortPrototypeRef_iff|apply ref_ClientServerOperationRef_iff|apply ref_ModeDeclarationGroupPrototypeRef_iff|apply ref_TriggerRef_iff|apply ref_AbstractRequiredPortPrototypeRef_iff|apply ref_ModeDeclarationRef_iff|apply ref_VariableDataPrototypeRef_iff|apply own_PortPrototypeRef_iff|apply own_VariableDataPrototypeRef_iff|apply own_AbstractImplementationDataTypeElementRef_iff|apply if_any_AbstractImplementationDataTypeElementRef_iff|apply ref_PortPrototypeRef_iff|apply ref_DataPrototypeRef_iff|apply if_any_ApplicationCompositeElementDataPrototypeRef_iff|apply ArVariableInImplementationDataInstanceRef_object_iff|apply VariableInAtomicSWCTypeInstanceRef_object_iff|apply ref_ApplicationCompositeElementDataPrototypeRef_iff|apply ParameterInAtomicSwcTypeInstanceRef_object_iff|apply AutosarVariableRef_object_iff|apply VariableAccessScope_object_iff|apply opt_text_cast_iff|apply opt_count_iff|apply ref_ExclusiveAreaRef_iff|apply own_text_iff|apply RteApiReturnValueProvision_object_iff|apply ROperationInAtomicSwcInstanceRef_object_iff|apply opt_float_iff|apply ref_AsynchronousServerCallPointRef_iff|apply ref_ExclusiveAreaNestingOrderRef_iff|apply ExternalTriggeringPointIdent_object_iff|apply PTriggerInAtomicSwcTypeInstanceRef_object_iff|apply SwImplPolicy_object_iff|apply ModeAccessPointIdent_object_iff|apply ModeGroupInAtomicSwcInstanceRef_object_iff|apply PModeGroupInAtomicSwcInstanceRef_object_iff|apply AutosarParameterRef_object_iff|apply props_iff|apply ref_RteEventRef_iff]; eassumption.
Ltac undo_all := repeat match goal with
  | H : bind _ _ = Ok _ |- _ => let x := fresh "x" in let E := fresh "E" in apply bind_iff in H as (x & E & H); try conv_to E
  | H : Ok _ = Ok _ |- _ => injection H as <-
  end.
Ltac redo_all := repeat (apply bind_iff; first [exists tt; split; [apply keywords_iff; eassumption|]|eexists; split; [conv_of|]]; cbv beta iota).

(** ** References to something in a component *)
Lemma init_POperationInAtomicSwcInstanceRef_iff kw x : init_POperationInAtomicSwcInstanceRef kw = Ok x <-> describes_POperationInAtomicSwcInstanceRef kw x.
Proof.
  unfold init_POperationInAtomicSwcInstanceRef, describes_POperationInAtomicSwcInstanceRef. split; [intros H; undo_all; splits; solve [assumption|reflexivity]|].
  intros (H0 & H1 & H2). destruct x. cbn in H1, H2. redo_all. reflexivity.
Qed.
Lemma init_PModeGroupInAtomicSwcInstanceRef_iff kw x : init_PModeGroupInAtomicSwcInstanceRef kw = Ok x <-> describes_PModeGroupInAtomicSwcInstanceRef kw x.
Proof.
  unfold init_PModeGroupInAtomicSwcInstanceRef, describes_PModeGroupInAtomicSwcInstanceRef. split; [intros H; undo_all; splits; solve [assumption|reflexivity]|].
  intros (H0 & H1 & H2). destruct x. cbn in H1, H2. redo_all. reflexivity.
Qed.
Lemma init_PTriggerInAtomicSwcTypeInstanceRef_iff kw x : init_PTriggerInAtomicSwcTypeInstanceRef kw = Ok x <-> describes_PTriggerInAtomicSwcTypeInstanceRef kw x.
Proof.
  unfold init_PTriggerInAtomicSwcTypeInstanceRef, describes_PTriggerInAtomicSwcTypeInstanceRef. split; [intros H; undo_all; splits; solve [assumption|reflexivity]|].
  intros (H0 & H1 & H2). destruct x. cbn in H1, H2. redo_all. reflexivity.
Qed.
Lemma init_ROperationInAtomicSwcInstanceRef_iff kw x : init_ROperationInAtomicSwcInstanceRef kw = Ok x <-> describes_ROperationInAtomicSwcInstanceRef kw x.
Proof.
  unfold init_ROperationInAtomicSwcInstanceRef, describes_ROperationInAtomicSwcInstanceRef. split; [intros H; undo_all; splits; solve [assumption|reflexivity]|].
  intros (H0 & H1 & H2). destruct x. cbn in H1, H2. redo_all. reflexivity.
Qed.
Lemma init_RModeInAtomicSwcInstanceRef_iff kw x : init_RModeInAtomicSwcInstanceRef kw = Ok x <-> describes_RModeInAtomicSwcInstanceRef kw x.
Proof.
  unfold init_RModeInAtomicSwcInstanceRef, describes_RModeInAtomicSwcInstanceRef. split; [intros H; undo_all; splits; solve [assumption|reflexivity]|].
  intros (H0 & H1 & H2 & H3). destruct x. cbn in H1, H2, H3. redo_all. reflexivity.
Qed.
Lemma init_RModeGroupInAtomicSwcInstanceRef_iff kw x : init_RModeGroupInAtomicSwcInstanceRef kw = Ok x <-> describes_RModeGroupInAtomicSwcInstanceRef kw x.
Proof.
  unfold init_RModeGroupInAtomicSwcInstanceRef, describes_RModeGroupInAtomicSwcInstanceRef. split; [intros H; undo_all; splits; solve [assumption|reflexivity]|].
  intros (H0 & H1 & H2). destruct x. cbn in H1, H2. redo_all. reflexivity.
Qed.
Lemma init_RVariableInAtomicSwcInstanceRef_iff kw x : init_RVariableInAtomicSwcInstanceRef kw = Ok x <-> describes_RVariableInAtomicSwcInstanceRef kw x.
Proof.
  unfold init_RVariableInAtomicSwcInstanceRef, describes_RVariableInAtomicSwcInstanceRef. split; [intros H; undo_all; splits; solve [assumption|reflexivity]|].
  intros (H0 & H1 & H2). destruct x. cbn in H1, H2. redo_all. reflexivity.
Qed.
Lemma init_RTriggerInAtomicSwcInstanceRef_iff kw x : init_RTriggerInAtomicSwcInstanceRef kw = Ok x <-> describes_RTriggerInAtomicSwcInstanceRef kw x.
Proof.
  unfold init_RTriggerInAtomicSwcInstanceRef, describes_RTriggerInAtomicSwcInstanceRef. split; [intros H; undo_all; splits; solve [assumption|reflexivity]|].
  intros (H0 & H1 & H2). destruct x. cbn in H1, H2. redo_all. reflexivity.
Qed.
Lemma init_ArVariableInImplementationDataInstanceRef_iff kw x : init_ArVariableInImplementationDataInstanceRef kw = Ok x <-> describes_ArVariableInImplementationDataInstanceRef kw x.
Proof.
  unfold init_ArVariableInImplementationDataInstanceRef, describes_ArVariableInImplementationDataInstanceRef. split; [intros H; undo_all; splits; solve [assumption|reflexivity]|].
  intros (H0 & H1 & H2 & H3 & H4). destruct x. cbn in H1, H2, H3, H4. redo_all. reflexivity.
Qed.
Lemma init_VariableInAtomicSWCTypeInstanceRef_iff kw x : init_VariableInAtomicSWCTypeInstanceRef kw = Ok x <-> describes_VariableInAtomicSWCTypeInstanceRef kw x.
Proof.
  unfold init_VariableInAtomicSWCTypeInstanceRef, describes_VariableInAtomicSWCTypeInstanceRef. split; [intros H; undo_all; splits; solve [assumption|reflexivity]|].
  intros (H0 & H1 & H2 & H3 & H4). destruct x. cbn in H1, H2, H3, H4. redo_all. reflexivity.
Qed.
Lemma init_AutosarVariableRef_iff kw x : init_AutosarVariableRef kw = Ok x <-> describes_AutosarVariableRef kw x.
Proof.
  unfold init_AutosarVariableRef, describes_AutosarVariableRef. split; [intros H; undo_all; splits; solve [assumption|reflexivity]|].
  intros (H0 & H1 & H2 & H3). destruct x. cbn in H1, H2, H3. redo_all. reflexivity.
Qed.
Lemma init_ParameterInAtomicSwcTypeInstanceRef_iff kw x : init_ParameterInAtomicSwcTypeInstanceRef kw = Ok x <-> describes_ParameterInAtomicSwcTypeInstanceRef kw x.
Proof.
  unfold init_ParameterInAtomicSwcTypeInstanceRef, describes_ParameterInAtomicSwcTypeInstanceRef. split; [intros H; undo_all; splits; solve [assumption|reflexivity]|].
  intros (H0 & H1 & H2 & H3 & H4). destruct x. cbn in H1, H2, H3, H4. redo_all. reflexivity.
Qed.
Lemma init_AutosarParameterRef_iff kw x : init_AutosarParameterRef kw = Ok x <-> describes_AutosarParameterRef kw x.
Proof.
  unfold init_AutosarParameterRef, describes_AutosarParameterRef. split; [intros H; undo_all; splits; solve [assumption|reflexivity]|].
  intros (H0 & H1 & H2). destruct x. cbn in H1, H2. redo_all. reflexivity.
Qed.
Lemma append_ArVariableInImplementationDataInstanceRef_context_data_prototype_refs_iff x a y : append_ArVariableInImplementationDataInstanceRef_context_data_prototype_refs x a = Ok y <-> one_more_ArVariableInImplementationDataInstanceRef_context_data_prototype_refs x a y.
Proof.
  unfold append_ArVariableInImplementationDataInstanceRef_context_data_prototype_refs, one_more_ArVariableInImplementationDataInstanceRef_context_data_prototype_refs. assert (F : forall e, own_ref rc_AbstractImplementationDataTypeElementRef a = Ok e <-> of_class "AbstractImplementationDataTypeElementRef" a e) by (intros e; apply (own_ref_iff rc_AbstractImplementationDataTypeElementRef)). rewrite bind_iff. split.
  - intros (e & E & H). injection H as <-. exists e. split; [now apply F|]. cbn. splits; reflexivity.
  - intros (e & E & H0 & H1 & H2 & H3). exists e. split; [now apply F|]. destruct x, y. cbn in *. now subst.
Qed.
Lemma append_VariableInAtomicSWCTypeInstanceRef_context_data_prototype_refs_iff x a y : append_VariableInAtomicSWCTypeInstanceRef_context_data_prototype_refs x a = Ok y <-> one_more_VariableInAtomicSWCTypeInstanceRef_context_data_prototype_refs x a y.
Proof.
  unfold append_VariableInAtomicSWCTypeInstanceRef_context_data_prototype_refs, one_more_VariableInAtomicSWCTypeInstanceRef_context_data_prototype_refs. assert (F : forall e, own_ref rc_ApplicationCompositeElementDataPrototypeRef a = Ok e <-> of_class "ApplicationCompositeElementDataPrototypeRef" a e) by (intros e; apply (own_ref_iff rc_ApplicationCompositeElementDataPrototypeRef)). rewrite bind_iff. split.
  - intros (e & E & H). injection H as <-. exists e. split; [now apply F|]. cbn. splits; reflexivity.
  - intros (e & E & H0 & H1 & H2 & H3). exists e. split; [now apply F|]. destruct x, y. cbn in *. now subst.
Qed.

(** ** Parts of runnables *)
Lemma init_VariableAccess_iff name kw x : init_VariableAccess name kw = Ok x <-> describes_VariableAccess name kw x.
Proof.
  unfold init_VariableAccess, describes_VariableAccess. split; [intros H; undo_all; splits; solve [assumption|reflexivity]|].
  intros (H0 & H1 & H2 & H3). destruct x. cbn in H1, H2, H3. redo_all. reflexivity.
Qed.
Lemma init_ExecutableEntityActivationReason_iff name kw x : init_ExecutableEntityActivationReason name kw = Ok x <-> describes_ExecutableEntityActivationReason name kw x.
Proof.
  unfold init_ExecutableEntityActivationReason, describes_ExecutableEntityActivationReason. split; [intros H; undo_all; splits; solve [assumption|reflexivity]|].
  intros (H0 & H1 & H2 & H3). destruct x. cbn in H1, H2, H3. subst. redo_all. reflexivity.
Qed.
Lemma init_ExclusiveAreaRefConditional_iff kw x : init_ExclusiveAreaRefConditional kw = Ok x <-> describes_ExclusiveAreaRefConditional kw x.
Proof.
  unfold init_ExclusiveAreaRefConditional, describes_ExclusiveAreaRefConditional. split; [intros H; undo_all; splits; solve [assumption|reflexivity]|].
  intros (H0 & H1). destruct x. cbn in H1. redo_all. reflexivity.
Qed.
Lemma init_RunnableEntityArgument_iff kw x : init_RunnableEntityArgument kw = Ok x <-> describes_RunnableEntityArgument kw x.
Proof.
  unfold init_RunnableEntityArgument, describes_RunnableEntityArgument. split; [intros H; undo_all; splits; solve [assumption|reflexivity]|].
  intros (H0 & H1). destruct x. cbn in H1. redo_all. reflexivity.
Qed.
Lemma init_AsynchronousServerCallPoint_iff name kw x : init_AsynchronousServerCallPoint name kw = Ok x <-> describes_AsynchronousServerCallPoint name kw x.
Proof.
  unfold init_AsynchronousServerCallPoint, describes_AsynchronousServerCallPoint. split; [intros H; undo_all; splits; solve [assumption|reflexivity]|].
  intros (H0 & H1 & H2 & H3 & H4). destruct x. cbn in H1, H2, H3, H4. redo_all. reflexivity.
Qed.
Lemma init_AsynchronousServerCallResultPoint_iff name kw x : init_AsynchronousServerCallResultPoint name kw = Ok x <-> describes_AsynchronousServerCallResultPoint name kw x.
Proof.
  unfold init_AsynchronousServerCallResultPoint, describes_AsynchronousServerCallResultPoint. split; [intros H; undo_all; splits; solve [assumption|reflexivity]|].
  intros (H0 & H1 & H2 & H3). destruct x. cbn in H1, H2, H3. redo_all. reflexivity.
Qed.
Lemma init_SynchronousServerCallPoint_iff name kw x : init_SynchronousServerCallPoint name kw = Ok x <-> describes_SynchronousServerCallPoint name kw x.
Proof.
  unfold init_SynchronousServerCallPoint, describes_SynchronousServerCallPoint. split; [intros H; undo_all; splits; solve [assumption|reflexivity]|].
  intros (H0 & H1 & H2 & H3 & H4 & H5). destruct x. cbn in H1, H2, H3, H4, H5. redo_all. reflexivity.
Qed.
Lemma init_ExternalTriggeringPointIdent_iff name kw x : init_ExternalTriggeringPointIdent name kw = Ok x <-> describes_ExternalTriggeringPointIdent name kw x.
Proof.
  unfold init_ExternalTriggeringPointIdent, describes_ExternalTriggeringPointIdent. split; [intros H; undo_all; splits; solve [assumption|reflexivity]|].
  intros (H0 & H1 & H2). destruct x. cbn in H1, H2. redo_all. reflexivity.
Qed.
Lemma init_ExternalTriggeringPoint_iff kw x : init_ExternalTriggeringPoint kw = Ok x <-> describes_ExternalTriggeringPoint kw x.
Proof.
  unfold init_ExternalTriggeringPoint, describes_ExternalTriggeringPoint. split; [intros H; undo_all; splits; solve [assumption|reflexivity]|].
  intros (H0 & H1 & H2). destruct x. cbn in H1, H2. redo_all. reflexivity.
Qed.
Lemma init_InternalTriggeringPoint_iff name kw x : init_InternalTriggeringPoint name kw = Ok x <-> describes_InternalTriggeringPoint name kw x.
Proof.
  unfold init_InternalTriggeringPoint, describes_InternalTriggeringPoint. split; [intros H; undo_all; splits; solve [assumption|reflexivity]|].
  intros (H0 & H1 & H2 & H3). destruct x. cbn in H1, H2, H3. redo_all. reflexivity.
Qed.
Lemma init_ModeAccessPointIdent_iff name kw x : init_ModeAccessPointIdent name kw = Ok x <-> describes_ModeAccessPointIdent name kw x.
Proof.
  unfold init_ModeAccessPointIdent, describes_ModeAccessPointIdent. split; [intros H; undo_all; splits; solve [assumption|reflexivity]|].
  intros (H0 & H1 & H2). destruct x. cbn in H1, H2. redo_all. reflexivity.
Qed.
Lemma init_ModeAccessPoint_iff kw x : init_ModeAccessPoint kw = Ok x <-> describes_ModeAccessPoint kw x.
Proof.
  unfold init_ModeAccessPoint, describes_ModeAccessPoint. split; [intros H; undo_all; splits; solve [assumption|reflexivity]|].
  intros (H0 & H1 & H2). destruct x. cbn in H1, H2. redo_all. reflexivity.
Qed.
Lemma init_ModeSwitchPoint_iff name kw x : init_ModeSwitchPoint name kw = Ok x <-> describes_ModeSwitchPoint name kw x.
Proof.
  unfold init_ModeSwitchPoint, describes_ModeSwitchPoint. split; [intros H; undo_all; splits; solve [assumption|reflexivity]|].
  intros (H0 & H1 & H2 & H3). destruct x. cbn in H1, H2, H3. redo_all. reflexivity.
Qed.
Lemma init_ParameterAccess_iff name kw x : init_ParameterAccess name kw = Ok x <-> describes_ParameterAccess name kw x.
Proof.
  unfold init_ParameterAccess, describes_ParameterAccess. split; [intros H; undo_all; splits; solve [assumption|reflexivity]|].
  intros (H0 & H1 & H2 & H3 & H4). destruct x. cbn in H1, H2, H3, H4. redo_all. reflexivity.
Qed.
Lemma init_WaitPoint_iff name kw x : init_WaitPoint name kw = Ok x <-> describes_WaitPoint name kw x.
Proof.
  unfold init_WaitPoint, describes_WaitPoint. split; [intros H; undo_all; splits; solve [assumption|reflexivity]|].
  intros (H0 & H1 & H2 & H3). destruct x. cbn in H1, H2, H3. redo_all. reflexivity.
Qed.
