(** The elements read back are related to those written (SKept). *)
From Verif Require Import Base MNames MNum SNum MXml SXml MEnum MRefTab MRef SEnum MCodec SCodec MElem0 MElem1 MElemA MElemB MElemC MElem2 MElemD MElem3 MElem4 MElemE MElem5 MElemF MArxml SElem1 SElemA SElemB SElemC SElem2 SElemD SElem3 SElem4 SElemE SElem5 SElemF SArxml SElem PSame SKept.
Open Scope list_scope.
Ltac splits := repeat match goal with |- _ /\ _ => split end.

Lemma all_in {A} (P : A -> Prop) l : all_ok P l -> forall a, In a l -> P a.
Proof. induction l as [|x l IH]; cbn; [intros _ ? []|]. intros (H & T) a [<-|I]; auto. Qed.
Lemma Forall2_ok {A} (G : A -> Prop) (R : A -> A -> Prop) f l : all_ok G l -> (forall a, G a -> R a (f a)) -> Forall2 R l (map f l).
Proof. intros H F. induction l as [|x l IH]; cbn in *; constructor; [apply F; tauto|apply IH; tauto]. Qed.
Lemma opt_rel_ok {A} (G : A -> Prop) (R : A -> A -> Prop) f o : opt_ok G o -> (forall a, G a -> R a (f a)) -> opt_rel R o (option_map f o).
Proof. destruct o; cbn; auto. Qed.
Lemma Forall2_eq {A} (l : list A) : Forall2 eq l l.
Proof. induction l; constructor; auto. Qed.
Lemma kept_Unit e : good_Unit e -> same_Unit e (norm_Unit e).
Proof.
  intros G. unfold good_Unit in G. unfold same_Unit. cbn. splits; try reflexivity; try (symmetry; tauto); try tauto; first [solve [apply opt_rel_map; auto using same_merged]|solve [apply Forall2_map; auto using same_merged]|solve [eapply opt_rel_ok; [apply G|eauto using same_merged]]|solve [eapply Forall2_ok; [apply G|eauto using same_merged]]|idtac].
Qed.
Lemma kept_ApplicationPrimitiveDataType e : good_ApplicationPrimitiveDataType e -> same_ApplicationPrimitiveDataType e (norm_ApplicationPrimitiveDataType e).
Proof.
  intros G. unfold good_ApplicationPrimitiveDataType in G. unfold same_ApplicationPrimitiveDataType. cbn. splits; try reflexivity; try (symmetry; tauto); try tauto; first [solve [apply opt_rel_map; auto using same_norm_props]|solve [apply Forall2_map; auto using same_norm_props]|solve [eapply opt_rel_ok; [apply G|eauto using same_norm_props]]|solve [eapply Forall2_ok; [apply G|eauto using same_norm_props]]|idtac].
Qed.
Lemma kept_ApplicationArrayElement e : good_ApplicationArrayElement e -> same_ApplicationArrayElement e (norm_ApplicationArrayElement e).
Proof.
  intros G. unfold good_ApplicationArrayElement in G. unfold same_ApplicationArrayElement. cbn. splits; try reflexivity; try (symmetry; tauto); try tauto; first [solve [apply opt_rel_map; auto using same_norm_props]|solve [apply Forall2_map; auto using same_norm_props]|solve [eapply opt_rel_ok; [apply G|eauto using same_norm_props]]|solve [eapply Forall2_ok; [apply G|eauto using same_norm_props]]|idtac].
Qed.
Lemma kept_ApplicationRecordElement e : good_ApplicationRecordElement e -> same_ApplicationRecordElement e (norm_ApplicationRecordElement e).
Proof.
  intros G. unfold good_ApplicationRecordElement in G. unfold same_ApplicationRecordElement. cbn. splits; try reflexivity; try (symmetry; tauto); try tauto; first [solve [apply opt_rel_map; auto using same_norm_props]|solve [apply Forall2_map; auto using same_norm_props]|solve [eapply opt_rel_ok; [apply G|eauto using same_norm_props]]|solve [eapply Forall2_ok; [apply G|eauto using same_norm_props]]|idtac].
Qed.
Lemma kept_ApplicationArrayDataType e : good_ApplicationArrayDataType e -> same_ApplicationArrayDataType e (norm_ApplicationArrayDataType e).
Proof.
  intros G. unfold good_ApplicationArrayDataType in G. unfold same_ApplicationArrayDataType. cbn. splits; try reflexivity; try (symmetry; tauto); try tauto; first [solve [apply opt_rel_map; auto using same_norm_props, kept_ApplicationArrayElement]|solve [apply Forall2_map; auto using same_norm_props, kept_ApplicationArrayElement]|solve [eapply opt_rel_ok; [apply G|eauto using same_norm_props, kept_ApplicationArrayElement]]|solve [eapply Forall2_ok; [apply G|eauto using same_norm_props, kept_ApplicationArrayElement]]|idtac].
Qed.
Lemma kept_ApplicationRecordDataType e : good_ApplicationRecordDataType e -> same_ApplicationRecordDataType e (norm_ApplicationRecordDataType e).
Proof.
  intros G. unfold good_ApplicationRecordDataType in G. unfold same_ApplicationRecordDataType. cbn. splits; try reflexivity; try (symmetry; tauto); try tauto; first [solve [apply opt_rel_map; auto using same_norm_props, kept_ApplicationRecordElement]|solve [apply Forall2_map; auto using same_norm_props, kept_ApplicationRecordElement]|solve [eapply opt_rel_ok; [apply G|eauto using same_norm_props, kept_ApplicationRecordElement]]|solve [eapply Forall2_ok; [apply G|eauto using same_norm_props, kept_ApplicationRecordElement]]|idtac].
Qed.
Lemma kept_VariableDataPrototype e : good_VariableDataPrototype e -> same_VariableDataPrototype e (norm_VariableDataPrototype e).
Proof.
  intros G. unfold good_VariableDataPrototype in G. unfold same_VariableDataPrototype. cbn. splits; try reflexivity; try (symmetry; tauto); try tauto; first [solve [apply opt_rel_map; auto using same_norm_props, same_norm_spec]|solve [apply Forall2_map; auto using same_norm_props, same_norm_spec]|solve [eapply opt_rel_ok; [apply G|eauto using same_norm_props, same_norm_spec]]|solve [eapply Forall2_ok; [apply G|eauto using same_norm_props, same_norm_spec]]|idtac].
Qed.
Lemma kept_ParameterDataPrototype e : good_ParameterDataPrototype e -> same_ParameterDataPrototype e (norm_ParameterDataPrototype e).
Proof.
  intros G. unfold good_ParameterDataPrototype in G. unfold same_ParameterDataPrototype. cbn. splits; try reflexivity; try (symmetry; tauto); try tauto; first [solve [apply opt_rel_map; auto using same_norm_props, same_norm_spec]|solve [apply Forall2_map; auto using same_norm_props, same_norm_spec]|solve [eapply opt_rel_ok; [apply G|eauto using same_norm_props, same_norm_spec]]|solve [eapply Forall2_ok; [apply G|eauto using same_norm_props, same_norm_spec]]|idtac].
Qed.
Lemma kept_ArgumentDataPrototype e : good_ArgumentDataPrototype e -> same_ArgumentDataPrototype e (norm_ArgumentDataPrototype e).
Proof.
  intros G. unfold good_ArgumentDataPrototype in G. unfold same_ArgumentDataPrototype. cbn. splits; try reflexivity; try (symmetry; tauto); try tauto; first [solve [apply opt_rel_map; auto using same_norm_props]|solve [apply Forall2_map; auto using same_norm_props]|solve [eapply opt_rel_ok; [apply G|eauto using same_norm_props]]|solve [eapply Forall2_ok; [apply G|eauto using same_norm_props]]|idtac].
Qed.
Lemma kept_ConstantSpecification e : good_ConstantSpecification e -> same_ConstantSpecification e (norm_ConstantSpecification e).
Proof.
  intros G. unfold good_ConstantSpecification in G. unfold same_ConstantSpecification. cbn. splits; try reflexivity; try (symmetry; tauto); try tauto; first [solve [apply opt_rel_map; auto using same_norm_spec]|solve [apply Forall2_map; auto using same_norm_spec]|solve [eapply opt_rel_ok; [apply G|eauto using same_norm_spec]]|solve [eapply Forall2_ok; [apply G|eauto using same_norm_spec]]|idtac].
Qed.
Lemma kept_NvDataInterface e : good_NvDataInterface e -> same_NvDataInterface e (norm_NvDataInterface e).
Proof.
  intros G. unfold good_NvDataInterface in G. unfold same_NvDataInterface. cbn. splits; try reflexivity; try (symmetry; tauto); try tauto; first [solve [apply opt_rel_map; auto using kept_VariableDataPrototype]|solve [apply Forall2_map; auto using kept_VariableDataPrototype]|solve [eapply opt_rel_ok; [apply G|eauto using kept_VariableDataPrototype]]|solve [eapply Forall2_ok; [apply G|eauto using kept_VariableDataPrototype]]|idtac].
Qed.
Lemma kept_ParameterInterface e : good_ParameterInterface e -> same_ParameterInterface e (norm_ParameterInterface e).
Proof.
  intros G. unfold good_ParameterInterface in G. unfold same_ParameterInterface. cbn. splits; try reflexivity; try (symmetry; tauto); try tauto; first [solve [apply opt_rel_map; auto using kept_ParameterDataPrototype]|solve [apply Forall2_map; auto using kept_ParameterDataPrototype]|solve [eapply opt_rel_ok; [apply G|eauto using kept_ParameterDataPrototype]]|solve [eapply Forall2_ok; [apply G|eauto using kept_ParameterDataPrototype]]|idtac].
Qed.
Lemma kept_SenderReceiverInterface e : good_SenderReceiverInterface e -> same_SenderReceiverInterface e (norm_SenderReceiverInterface e).
Proof.
  intros G. unfold good_SenderReceiverInterface in G. unfold same_SenderReceiverInterface. cbn. splits; try reflexivity; try (symmetry; tauto); try tauto; first [solve [apply opt_rel_map; auto using kept_VariableDataPrototype]|solve [apply Forall2_map; auto using kept_VariableDataPrototype]|solve [eapply opt_rel_ok; [apply G|eauto using kept_VariableDataPrototype]]|solve [eapply Forall2_ok; [apply G|eauto using kept_VariableDataPrototype]]|idtac].
Qed.
Lemma kept_ClientServerOperation e : good_ClientServerOperation e -> same_ClientServerOperation e (norm_ClientServerOperation e).
Proof.
  intros G. unfold good_ClientServerOperation in G. unfold same_ClientServerOperation. cbn. splits; try reflexivity; try (symmetry; tauto); try tauto; first [solve [apply opt_rel_map; auto using kept_ArgumentDataPrototype]|solve [apply Forall2_map; auto using kept_ArgumentDataPrototype]|solve [eapply opt_rel_ok; [apply G|eauto using kept_ArgumentDataPrototype]]|solve [eapply Forall2_ok; [apply G|eauto using kept_ArgumentDataPrototype]]|idtac].
Qed.
Lemma kept_ClientServerInterface e : good_ClientServerInterface e -> same_ClientServerInterface e (norm_ClientServerInterface e).
Proof.
  intros G. unfold good_ClientServerInterface in G. unfold same_ClientServerInterface. cbn. splits; try reflexivity; try (symmetry; tauto); try tauto; first [solve [apply opt_rel_map; auto using kept_ClientServerOperation]|solve [apply Forall2_map; auto using kept_ClientServerOperation]|solve [eapply opt_rel_ok; [apply G|eauto using kept_ClientServerOperation]]|solve [eapply Forall2_ok; [apply G|eauto using kept_ClientServerOperation]]|idtac].
Qed.
Lemma kept_QueuedSenderComSpec e : good_QueuedSenderComSpec e -> same_QueuedSenderComSpec e (norm_QueuedSenderComSpec e).
Proof.
  intros G. unfold good_QueuedSenderComSpec in G. unfold same_QueuedSenderComSpec. cbn. splits; try reflexivity; try (symmetry; tauto); try tauto; first [solve [apply opt_rel_map; auto using same_norm_props]|solve [apply Forall2_map; auto using same_norm_props]|solve [eapply opt_rel_ok; [apply G|eauto using same_norm_props]]|solve [eapply Forall2_ok; [apply G|eauto using same_norm_props]]|idtac].
Qed.
Lemma kept_NonqueuedSenderComSpec e : good_NonqueuedSenderComSpec e -> same_NonqueuedSenderComSpec e (norm_NonqueuedSenderComSpec e).
Proof.
  intros G. unfold good_NonqueuedSenderComSpec in G. unfold same_NonqueuedSenderComSpec. cbn. splits; try reflexivity; try (symmetry; tauto); try tauto; first [solve [apply opt_rel_map; auto using same_norm_props, same_norm_spec]|solve [apply Forall2_map; auto using same_norm_props, same_norm_spec]|solve [eapply opt_rel_ok; [apply G|eauto using same_norm_props, same_norm_spec]]|solve [eapply Forall2_ok; [apply G|eauto using same_norm_props, same_norm_spec]]|idtac].
Qed.
Lemma kept_NvProvideComSpec e : good_NvProvideComSpec e -> same_NvProvideComSpec e (norm_NvProvideComSpec e).
Proof.
  intros G. unfold good_NvProvideComSpec in G. unfold same_NvProvideComSpec. cbn. splits; try reflexivity; try (symmetry; tauto); try tauto; first [solve [apply opt_rel_map; auto using same_norm_spec]|solve [apply Forall2_map; auto using same_norm_spec]|solve [eapply opt_rel_ok; [apply G|eauto using same_norm_spec]]|solve [eapply Forall2_ok; [apply G|eauto using same_norm_spec]]|idtac].
Qed.
Lemma kept_ParameterProvideComSpec e : good_ParameterProvideComSpec e -> same_ParameterProvideComSpec e (norm_ParameterProvideComSpec e).
Proof.
  intros G. unfold good_ParameterProvideComSpec in G. unfold same_ParameterProvideComSpec. cbn. splits; try reflexivity; try (symmetry; tauto); try tauto; first [solve [apply opt_rel_map; auto using same_norm_spec]|solve [apply Forall2_map; auto using same_norm_spec]|solve [eapply opt_rel_ok; [apply G|eauto using same_norm_spec]]|solve [eapply Forall2_ok; [apply G|eauto using same_norm_spec]]|idtac].
Qed.
Lemma kept_NvRequireComSpec e : good_NvRequireComSpec e -> same_NvRequireComSpec e (norm_NvRequireComSpec e).
Proof.
  intros G. unfold good_NvRequireComSpec in G. unfold same_NvRequireComSpec. cbn. splits; try reflexivity; try (symmetry; tauto); try tauto; first [solve [apply opt_rel_map; auto using same_norm_spec]|solve [apply Forall2_map; auto using same_norm_spec]|solve [eapply opt_rel_ok; [apply G|eauto using same_norm_spec]]|solve [eapply Forall2_ok; [apply G|eauto using same_norm_spec]]|idtac].
Qed.
Lemma kept_ParameterRequireComSpec e : good_ParameterRequireComSpec e -> same_ParameterRequireComSpec e (norm_ParameterRequireComSpec e).
Proof.
  intros G. unfold good_ParameterRequireComSpec in G. unfold same_ParameterRequireComSpec. cbn. splits; try reflexivity; try (symmetry; tauto); try tauto; first [solve [apply opt_rel_map; auto using same_norm_spec]|solve [apply Forall2_map; auto using same_norm_spec]|solve [eapply opt_rel_ok; [apply G|eauto using same_norm_spec]]|solve [eapply Forall2_ok; [apply G|eauto using same_norm_spec]]|idtac].
Qed.
Lemma kept_ParameterAccess e : good_ParameterAccess e -> same_ParameterAccess e (norm_ParameterAccess e).
Proof.
  intros G. unfold good_ParameterAccess in G. unfold same_ParameterAccess. cbn. splits; try reflexivity; try (symmetry; tauto); try tauto; first [solve [apply opt_rel_map; auto using same_norm_props]|solve [apply Forall2_map; auto using same_norm_props]|solve [eapply opt_rel_ok; [apply G|eauto using same_norm_props]]|solve [eapply Forall2_ok; [apply G|eauto using same_norm_props]]|idtac].
Qed.
Lemma kept_PortDefinedArgumentValue e : good_PortDefinedArgumentValue e -> same_PortDefinedArgumentValue e (norm_PortDefinedArgumentValue e).
Proof.
  intros G. unfold good_PortDefinedArgumentValue in G. unfold same_PortDefinedArgumentValue. cbn. splits; try reflexivity; try (symmetry; tauto); try tauto; first [solve [apply opt_rel_map; auto using same_norm_spec]|solve [apply Forall2_map; auto using same_norm_spec]|solve [eapply opt_rel_ok; [apply G|eauto using same_norm_spec]]|solve [eapply Forall2_ok; [apply G|eauto using same_norm_spec]]|idtac].
Qed.
Lemma kept_PortApiOption e : good_PortApiOption e -> same_PortApiOption e (norm_PortApiOption e).
Proof.
  intros G. unfold good_PortApiOption in G. unfold same_PortApiOption. cbn. splits; try reflexivity; try (symmetry; tauto); try tauto; first [solve [apply opt_rel_map; auto using kept_PortDefinedArgumentValue]|solve [apply Forall2_map; auto using kept_PortDefinedArgumentValue]|solve [eapply opt_rel_ok; [apply G|eauto using kept_PortDefinedArgumentValue]]|solve [eapply Forall2_ok; [apply G|eauto using kept_PortDefinedArgumentValue]]|idtac].
Qed.
Lemma kept_QueuedReceiverComSpec e : good_QueuedReceiverComSpec e -> same_QueuedReceiverComSpec e (norm_QueuedReceiverComSpec e).
Proof.
  intros G. unfold good_QueuedReceiverComSpec in G. unfold same_QueuedReceiverComSpec. cbn. splits; try reflexivity; try (symmetry; tauto); try tauto; first [solve [apply opt_rel_map; auto using same_norm_props]|solve [apply Forall2_map; auto using same_norm_props]|solve [eapply opt_rel_ok; [apply G|eauto using same_norm_props]]|solve [eapply Forall2_ok; [apply G|eauto using same_norm_props]]|idtac].
Qed.
Lemma kept_NonqueuedReceiverComSpec e : good_NonqueuedReceiverComSpec e -> same_NonqueuedReceiverComSpec e (norm_NonqueuedReceiverComSpec e).
Proof.
  intros G. unfold good_NonqueuedReceiverComSpec in G. unfold same_NonqueuedReceiverComSpec. cbn. splits; try reflexivity; try (symmetry; tauto); try tauto; first [solve [apply opt_rel_map; auto using same_norm_props, same_norm_spec]|solve [apply Forall2_map; auto using same_norm_props, same_norm_spec]|solve [eapply opt_rel_ok; [apply G|eauto using same_norm_props, same_norm_spec]]|solve [eapply Forall2_ok; [apply G|eauto using same_norm_props, same_norm_spec]]|idtac].
Qed.
Lemma kept_ProvidePortComSpec e : good_ProvidePortComSpec e -> same_ProvidePortComSpec e (norm_ProvidePortComSpec e).
Proof. destruct e; cbn; intros G; auto using kept_QueuedSenderComSpec, kept_NonqueuedSenderComSpec, kept_NvProvideComSpec, kept_ParameterProvideComSpec. Qed.
Lemma kept_RequirePortComSpec e : good_RequirePortComSpec e -> same_RequirePortComSpec e (norm_RequirePortComSpec e).
Proof. destruct e; cbn; intros G; auto using kept_QueuedReceiverComSpec, kept_NonqueuedReceiverComSpec, kept_NvRequireComSpec, kept_ParameterRequireComSpec. Qed.
Lemma kept_ProvidePortPrototype e : good_ProvidePortPrototype e -> same_ProvidePortPrototype e (norm_ProvidePortPrototype e).
Proof.
  intros G. unfold good_ProvidePortPrototype in G. unfold same_ProvidePortPrototype. cbn. splits; try reflexivity; try (symmetry; tauto); try tauto; first [solve [apply opt_rel_map; auto using kept_ProvidePortComSpec]|solve [apply Forall2_map; auto using kept_ProvidePortComSpec]|solve [eapply opt_rel_ok; [apply G|eauto using kept_ProvidePortComSpec]]|solve [eapply Forall2_ok; [apply G|eauto using kept_ProvidePortComSpec]]|idtac].
Qed.
Lemma kept_RequirePortPrototype e : good_RequirePortPrototype e -> same_RequirePortPrototype e (norm_RequirePortPrototype e).
Proof.
  intros G. unfold good_RequirePortPrototype in G. unfold same_RequirePortPrototype. cbn. splits; try reflexivity; try (symmetry; tauto); try tauto; first [solve [apply opt_rel_map; auto using kept_RequirePortComSpec]|solve [apply Forall2_map; auto using kept_RequirePortComSpec]|solve [eapply opt_rel_ok; [apply G|eauto using kept_RequirePortComSpec]]|solve [eapply Forall2_ok; [apply G|eauto using kept_RequirePortComSpec]]|idtac].
Qed.
Lemma kept_PRPortPrototype e : good_PRPortPrototype e -> same_PRPortPrototype e (norm_PRPortPrototype e).
Proof.
  intros G. unfold good_PRPortPrototype in G. unfold same_PRPortPrototype. cbn. splits; try reflexivity; try (symmetry; tauto); try tauto; first [solve [apply opt_rel_map; auto using kept_ProvidePortComSpec, kept_RequirePortComSpec]|solve [apply Forall2_map; auto using kept_ProvidePortComSpec, kept_RequirePortComSpec]|solve [eapply opt_rel_ok; [apply G|eauto using kept_ProvidePortComSpec, kept_RequirePortComSpec]]|solve [eapply Forall2_ok; [apply G|eauto using kept_ProvidePortComSpec, kept_RequirePortComSpec]]|idtac].
Qed.
Lemma kept_PortPrototypeElement e : good_PortPrototypeElement e -> same_PortPrototypeElement e (norm_PortPrototypeElement e).
Proof. destruct e; cbn; intros G; auto using kept_ProvidePortPrototype, kept_RequirePortPrototype, kept_PRPortPrototype. Qed.
Lemma kept_CompositionSwComponentType e : good_CompositionSwComponentType e -> same_CompositionSwComponentType e (norm_CompositionSwComponentType e).
Proof.
  intros G. unfold good_CompositionSwComponentType in G. unfold same_CompositionSwComponentType. cbn. splits; try reflexivity; try (symmetry; tauto); try tauto; first [solve [apply opt_rel_map; auto using kept_PortPrototypeElement]|solve [apply Forall2_map; auto using kept_PortPrototypeElement]|solve [eapply opt_rel_ok; [apply G|eauto using kept_PortPrototypeElement]]|solve [eapply Forall2_ok; [apply G|eauto using kept_PortPrototypeElement]]|idtac].
Qed.
Lemma kept_RunnableEntity v e : good_RunnableEntity v e -> same_RunnableEntity e (norm_RunnableEntity e).
Proof.
  intros G. unfold good_RunnableEntity in G. unfold same_RunnableEntity. cbn. splits; try reflexivity; try (symmetry; tauto); try tauto; first [solve [apply opt_rel_map; auto using kept_ParameterAccess]|solve [apply Forall2_map; auto using kept_ParameterAccess]|solve [eapply opt_rel_ok; [apply G|eauto using kept_ParameterAccess]]|solve [eapply Forall2_ok; [apply G|eauto using kept_ParameterAccess]]|idtac].
Qed.
Lemma kept_SwcInternalBehavior v e : good_SwcInternalBehavior v e -> same_SwcInternalBehavior e (norm_SwcInternalBehavior e).
Proof.
  intros (G1 & G2 & G3 & G4 & (G5 & _) & G6). unfold same_SwcInternalBehavior. cbn. splits; try reflexivity.
  - eapply Forall2_ok; [exact G5|]. intros a G. split; [reflexivity|now apply kept_PortApiOption].
  - eapply Forall2_ok; [exact G6|]. intros a. apply kept_RunnableEntity.
Qed.
Lemma kept_ApplicationSoftwareComponentType v e : good_ApplicationSoftwareComponentType v e -> same_ApplicationSoftwareComponentType e (norm_ApplicationSoftwareComponentType e).
Proof.
  intros G. unfold good_ApplicationSoftwareComponentType in G. unfold same_ApplicationSoftwareComponentType. cbn. splits; try reflexivity; try (symmetry; tauto); try tauto; first [solve [apply opt_rel_map; auto using kept_PortPrototypeElement, kept_SwcInternalBehavior]|solve [apply Forall2_map; auto using kept_PortPrototypeElement, kept_SwcInternalBehavior]|solve [eapply opt_rel_ok; [apply G|eauto using kept_PortPrototypeElement, kept_SwcInternalBehavior]]|solve [eapply Forall2_ok; [apply G|eauto using kept_PortPrototypeElement, kept_SwcInternalBehavior]]|idtac].
Qed.
Lemma kept_ARElement v e : good_ARElement v e -> same_ARElement e (norm_ARElement e).
Proof.
  destruct e; cbn [good_ARElement norm_ARElement same_ARElement]; intros G; try reflexivity;
    first [apply same_norm_method|apply same_norm_constraint|apply same_norm_type|idtac];
    first [exact (kept_Unit _ G)|exact (kept_ApplicationPrimitiveDataType _ G)|exact (kept_ApplicationArrayDataType _ G)|exact (kept_ApplicationRecordDataType _ G)
      |exact (kept_ConstantSpecification _ G)|exact (kept_NvDataInterface _ G)|exact (kept_ParameterInterface _ G)|exact (kept_SenderReceiverInterface _ G)
      |exact (kept_ClientServerInterface _ G)|exact (kept_ApplicationSoftwareComponentType _ _ G)|exact (kept_CompositionSwComponentType _ G)].
Qed.
Fixpoint kept_package v p : good_package v p -> same_package p (norm_package p).
Proof.
  destruct p as [ident es ps]. cbn. intros (_ & _ & G & K). constructor.
  - eapply Forall2_ok; [exact G|]. intros a. apply kept_ARElement.
  - revert K. induction ps as [|q ps IH]; cbn; [constructor|]. intros (K1 & K2). constructor; [exact (kept_package v q K1)|exact (IH K2)].
Qed.
Lemma kept_document d : good_document d -> same_document d (norm_document d).
Proof. intros (_ & G). split; [reflexivity|]. cbn. eapply Forall2_ok; [exact G|]. intros a. apply kept_package. Qed.
