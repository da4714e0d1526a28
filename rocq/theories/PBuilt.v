(** Proof that objects built by calls of constructors can be carried by XML. *)
From Verif Require Import Base MNames MNum SNum PNum PNum2 PLiteral2 PRef MXml SXml PXml2 MEnum MRefTab MRef SEnum PEnum MCodec SCodec PCodec MElem0 PElem0 MElem1 MElemA MElemB MElemC MElem2 MElemD MElem3 MElem4 MElemE MElem5 MElemF MArxml
  SElem1 SElemA SElemB SElemC SElem2 SElemD SElem3 SElem4 SElemE SElem5 SElemF MFind MValue MEvent MPort MAccess MRunnable MIface MData MConst MParts MPoint MOccur MComp SFit PScope PSpell PAccess SAccess PElemE SRunnable PRunnable PArxml PFit PMade PMade2 MPack SArxml SBuilt.
Local Ltac splits := repeat match goal with |- _ /\ _ => split end.
Open Scope list_scope.

Lemma arg_fit v (F : lib_object -> Prop) : (forall o, F o -> fit_object v o) -> forall a, arg_of F a -> fit_arg v a.
Proof.
  intros K. fix IH 1. intros [|b|n|s|l|l|l|o|] H; try exact H; cbn [fit_arg arg_of] in *.
  - revert H. induction l as [|a l IL]; cbn [all_ok]; [auto|]. intros [A L]. split; [apply IH, A|apply IL, L].
  - revert H. induction l as [|a l IL]; cbn [all_ok]; [auto|]. intros [A L]. split; [apply IH, A|apply IL, L].
  - revert H. induction l as [|[k a] l IL]; cbn [all_ok fst snd]; [auto|]. intros [[T A] L]. split; [split; [exact T|apply IH, A]|apply IL, L].
  - apply K, H.
Qed.
Lemma keywords_fit v (F : lib_object -> Prop) kw : (forall o, F o -> fit_object v o) -> keywords_of F kw -> fit_keywords v kw.
Proof. intros K H. induction H as [|[k a] l [A R] _ IH]; constructor; [|exact IH]. split; [eapply arg_fit; [exact K|exact A]|exact R]. Qed.
Lemma given_fit v o : given_object o -> fit_object v o.
Proof. destruct o; try exact (fun x => x); try (intros []; fail); try (intros; exact I). destruct e; try exact (fun x => x); intros []. Qed.
Lemma made_fit v (F : lib_object -> Prop) o : (forall o, F o -> fit_object v o) -> made_from v F o -> fit_object v o.
Proof.
  intros K M. destruct M;
    try match goal with H : keywords_of F ?kw |- _ => apply (keywords_fit v F kw K) in H end;
    try match goal with H : arg_of F ?a |- _ => apply (arg_fit v F K a) in H end.
  - apply (fit_new_bit_representation v kw); assumption.
  - apply (fit_new_text_props v kw); assumption.
  - apply (fit_new_pointer_target_props v kw); assumption.
  - apply (fit_new_conditional v kw); assumption.
  - apply (fit_new_symbol_props v name kw); assumption.
  - apply (fit_new_type_element v name kw); assumption.
  - apply (fit_new_array_element v name kw); assumption.
  - apply (fit_new_record_element v name kw); assumption.
  - apply (fit_new_variable v name kw); assumption.
  - apply (fit_new_parameter v name kw); assumption.
  - apply (fit_new_argument v name direction kw); assumption.
  - apply (fit_new_policy v kw); assumption.
  - apply (fit_new_application_error v name kw); assumption.
  - apply (fit_new_operation v name kw); assumption.
  - apply (fit_new_group_prototype v name kw); assumption.
  - apply (fit_new_mode v name kw); assumption.
  - apply (fit_new_error_behavior v kw); assumption.
  - apply (fit_new_transition v name kw); assumption.
  - apply (fit_new_axis_cont v kw); assumption.
  - apply (fit_new_value_cont v kw); assumption.
  - apply (fit_init_AutosarEngineeringObject v kw); assumption.
  - apply (fit_init_Code v name kw); assumption.
  - apply (fit_init_EndToEndTransformationComSpecProps v kw); assumption.
  - apply (fit_init_ModeSwitchedAckRequest v kw); assumption.
  - apply (fit_init_TransmissionAcknowledgementRequest v kw); assumption.
  - apply (fit_init_TransmissionComSpecProps v kw); assumption.
  - apply (fit_init_ReceptionComSpecProps v kw); assumption.
  - apply (fit_init_QueuedSenderComSpec v kw); assumption.
  - apply (fit_init_NonqueuedSenderComSpec v kw); assumption.
  - apply (fit_init_ModeSwitchSenderComSpec v kw); assumption.
  - apply (fit_init_NvProvideComSpec v kw); assumption.
  - apply (fit_init_ParameterProvideComSpec v kw); assumption.
  - apply (fit_init_ServerComSpec v kw); assumption.
  - apply (fit_init_QueuedReceiverComSpec v kw); assumption.
  - apply (fit_init_NonqueuedReceiverComSpec v kw); assumption.
  - apply (fit_init_NvRequireComSpec v kw); assumption.
  - apply (fit_init_ParameterRequireComSpec v kw); assumption.
  - apply (fit_init_ModeSwitchReceiverComSpec v kw); assumption.
  - apply (fit_init_ClientComSpec v kw); assumption.
  - apply (fit_init_POperationInAtomicSwcInstanceRef v kw); assumption.
  - apply (fit_init_PModeGroupInAtomicSwcInstanceRef v kw); assumption.
  - apply (fit_init_PTriggerInAtomicSwcTypeInstanceRef v kw); assumption.
  - apply (fit_init_ROperationInAtomicSwcInstanceRef v kw); assumption.
  - apply (fit_init_RModeInAtomicSwcInstanceRef v kw); assumption.
  - apply (fit_init_RModeGroupInAtomicSwcInstanceRef v kw); assumption.
  - apply (fit_init_RVariableInAtomicSwcInstanceRef v kw); assumption.
  - apply (fit_init_RTriggerInAtomicSwcInstanceRef v kw); assumption.
  - apply (fit_init_ArVariableInImplementationDataInstanceRef v kw); assumption.
  - apply (fit_init_VariableInAtomicSWCTypeInstanceRef v kw); assumption.
  - apply (fit_init_AutosarVariableRef v kw); assumption.
  - apply (fit_init_ParameterInAtomicSwcTypeInstanceRef v kw); assumption.
  - apply (fit_init_AutosarParameterRef v kw); assumption.
  - apply (fit_init_VariableAccess v name kw); assumption.
  - apply (fit_init_ExecutableEntityActivationReason v name kw); assumption.
  - split; [apply (fit_init_ExclusiveAreaRefConditional v kw); assumption|assumption].
  - apply (fit_init_RunnableEntityArgument v kw); assumption.
  - apply (fit_init_AsynchronousServerCallPoint v name kw); assumption.
  - apply (fit_init_AsynchronousServerCallResultPoint v name kw); assumption.
  - apply (fit_init_SynchronousServerCallPoint v name kw); assumption.
  - apply (fit_init_ExternalTriggeringPointIdent v name kw); assumption.
  - apply (fit_init_ExternalTriggeringPoint v kw); assumption.
  - apply (fit_init_InternalTriggeringPoint v name kw); assumption.
  - apply (fit_init_ModeAccessPointIdent v name kw); assumption.
  - apply (fit_init_ModeAccessPoint v kw); assumption.
  - apply (fit_init_ModeSwitchPoint v name kw); assumption.
  - apply (fit_init_ParameterAccess v name kw); assumption.
  - apply (fit_init_WaitPoint v name kw); assumption.
  - apply (fit_init_AsynchronousServerCallReturnsEvent v name kw); assumption.
  - apply (fit_init_BackgroundEvent v name kw); assumption.
  - apply (fit_init_DataReceiveErrorEvent v name kw); assumption.
  - apply (fit_make_DataReceiveErrorEvent v name kw); assumption.
  - apply (fit_init_DataReceivedEvent v name kw); assumption.
  - apply (fit_make_DataReceivedEvent v name kw); assumption.
  - apply (fit_init_DataSendCompletedEvent v name kw); assumption.
  - apply (fit_init_DataWriteCompletedEvent v name kw); assumption.
  - apply (fit_init_ExternalTriggerOccurredEvent v name kw); assumption.
  - apply (fit_make_ExternalTriggerOccurredEvent v name kw); assumption.
  - apply (fit_init_InitEvent v name kw); assumption.
  - apply (fit_init_InternalTriggerOccurredEvent v name kw); assumption.
  - apply (fit_init_ModeSwitchedAckEvent v name kw); assumption.
  - apply (fit_init_OperationInvokedEvent v name kw); assumption.
  - apply (fit_make_OperationInvokedEvent v name kw); assumption.
  - apply (fit_init_SwcModeManagerErrorEvent v name kw); assumption.
  - apply (fit_make_SwcModeManagerErrorEvent v name kw); assumption.
  - apply (fit_init_SwcModeSwitchEvent v name kw); assumption.
  - apply (fit_make_SwcModeSwitchEvent v name kw); assumption.
  - apply (fit_init_TimingEvent v name kw); assumption.
  - apply (fit_init_TransformerHardErrorEvent v name kw); assumption.
  - apply (fit_init_PortDefinedArgumentValue v kw); assumption.
  - apply (fit_init_CommunicationBufferLocking v kw); assumption.
  - apply (fit_init_PortApiOption v kw); assumption.
  - apply (fit_init_ProvidePortPrototype v name kw); assumption.
  - apply (fit_init_RequirePortPrototype v name kw); assumption.
  - apply (fit_init_SwComponentPrototype v name kw); assumption.
  - apply (fit_init_PassThroughSwConnector v name kw); assumption.
  - apply (fit_init_DataFilter kw); assumption.
  - apply (fit_new_props v a); assumption.
  - apply (fit_make_value_list v a); assumption.
  - apply (fit_make_sw_values v a); assumption.
  - apply (fit_new_text_value v label a); assumption.
  - apply (fit_new_array_value v label a); assumption.
  - apply (fit_new_record_value v label a); assumption.
  - apply (fit_new_application_value v label kw); assumption.
  - apply (fit_new_constant_reference v label a); assumption.
  - apply (fit_init_AssemblySwConnector v name kw); assumption.
  - apply (fit_init_DelegationSwConnector v name kw); assumption.
  - apply (fit_init_PRPortPrototype v name kw); assumption.
  - apply (fit_new_runnable v name kw); assumption.
  - apply (fit_new_behavior v name kw); assumption.
  - apply (fit_new_value_group v kw H (label, values)). assumption.
  - enough (G : gives (fun x => fit_object v (OPortInCompositionTypeInstanceRef x)) (init_PortInCompositionTypeInstanceRef kw)) by now apply G.
    unfold init_PortInCompositionTypeInstanceRef. through H. cbn [fit_object]. all_held.
  - match goal with E : create_exclusive_area _ _ _ = _ |- _ => revert E end. unfold create_exclusive_area.
    assert (G : gives good_ident_no_uuid (let* _ := check_keywords identifiable_keywords kw in MAccess.new_identifiable name kw)).
    { step H. intros i E. destruct (ident_fit v name kw ltac:(assumption) H i E). auto. }
    destruct (let* _ := check_keywords identifiable_keywords kw in MAccess.new_identifiable name kw) as [i|]; intros E; [|discriminate E]. injection E as _ <-. cbn. apply G. reflexivity.
Qed.
Lemma built_fit v n : forall o, built v n o -> fit_object v o.
Proof.
  induction n as [|n IH]; intros o; [apply given_fit|]. intros [H|H]; [apply IH, H|]. eapply made_fit; [exact IH|exact H].
Qed.
Lemma built_keywords_fit v kw : built_keywords v kw -> fit_keywords v kw.
Proof. intros [n H]. eapply keywords_fit; [apply (built_fit v n)|exact H]. Qed.

(** ** Elements, packages and documents *)
Lemma made_element_good v e : made_element v e -> good_ARElement v e.
Proof.
  intros M. induction M; try assumption; try match goal with H : built_keywords v ?kw |- _ => apply built_keywords_fit in H end; cbn [good_ARElement].
  - enough (G : gives good_SwAddrMethod (new_addr_method name kw)) by now apply G. unfold new_addr_method. through H. unfold good_SwAddrMethod. held.
  - apply (fit_new_unit v name kw H ltac:(assumption) u); assumption.
  - apply (fit_new_implementation_type v name kw); assumption.
  - apply (fit_new_primitive_type v name kw); assumption.
  - apply (fit_new_array_type v name kw); assumption.
  - apply (fit_new_record_type v name kw); assumption.
  - apply (fit_new_mapping_set v name kw); assumption.
  - apply (fit_new_sender_receiver_interface v name kw); assumption.
  - apply (fit_new_nv_data_interface v name kw); assumption.
  - apply (fit_new_parameter_interface v name kw); assumption.
  - apply (fit_new_mode_switch_interface v name kw); assumption.
  - apply (fit_new_client_server_interface v name kw); assumption.
  - apply (fit_new_mode_declaration_group v name kw); assumption.
  - apply (fit_new_constant v name kw); assumption.
  - apply (fit_init_SwcImplementation v name kw); assumption.
  - apply (fit_init_E2EProfileCompatibilityProps v name kw); assumption.
  - apply (fit_init_ApplicationSoftwareComponentType v name kw); assumption.
  - apply (fit_init_CompositionSwComponentType v name kw); assumption.
  - destruct IHM as (I & P & _ & S). apply built_fit in H. cbn in H. unfold good_ApplicationSoftwareComponentType. cbn. all_held.
Qed.
Lemma not_among n l : among n l = false -> ~ In n l.
Proof. unfold among. intros H I. apply Bool.not_true_iff_false in H. apply H. apply existsb_exists. exists n. split; [exact I|apply String.eqb_refl]. Qed.
Lemma nodup_end {A} (l : list A) x : NoDup l -> ~ In x l -> NoDup (l ++ [x]).
Proof. intros N K. apply (NoDup_Add (a := x) (l := l)); [|split; assumption]. rewrite <- (app_nil_r l) at 1. apply Add_app. Qed.
Lemma built_package_good v p : built_package v p -> good_package v p.
Proof.
  induction 1 as [name kw p H N E|p e p' _ IH M E|p q p' _ IH _ IHq E].
  - apply built_keywords_fit in H. enough (G : gives (good_package v) (new_package name kw)) by now apply G. unfold new_package. through H.
    cbn. splits; try held. constructor.
  - unfold append_element in E. destruct (among _ _) eqn:A in E; [discriminate|]. apply not_among in A. destruct p as [i es ps]. injection E as <-. cbn in A, IH |- *.
    destruct IH as (I1 & N & G & P). splits; try assumption.
    + rewrite map_app, <- app_assoc. cbn. apply (NoDup_Add (a := element_name e) (l := map element_name es ++ map package_name ps)); [apply Add_app|split; assumption].
    + apply all_ok_cat; [exact G|split; [now apply made_element_good|exact I]].
  - unfold append_package in E. destruct (among _ _) eqn:A in E; [discriminate|]. apply not_among in A. destruct p as [i es ps]. injection E as <-. cbn in A, IH |- *.
    destruct IH as (I1 & N & G & P). splits; try assumption.
    + rewrite map_app, app_assoc. cbn. now apply nodup_end.
    + apply all_ok_cat; [exact P|split; [assumption|exact I]].
Qed.
Lemma built_document_good d : built_document d -> good_document d.
Proof.
  unfold built_document, good_document. induction 1 as [|l p l' _ [N G] B E]; [split; [constructor|exact I]|].
  unfold collection_append in E. destruct (among _ _) eqn:A in E; [discriminate|]. apply not_among in A. injection E as <-. split.
  - rewrite map_app. cbn. now apply nodup_end.
  - apply all_ok_cat; [exact G|split; [now apply built_package_good|exact I]].
Qed.
