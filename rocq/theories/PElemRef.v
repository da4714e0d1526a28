(** Round trips of the references, by class.  Generated by tools/gen_codec.py. *)
From Verif Require Import Base MXml MEnum MRefTab MRef SEnum MCodec SCodec PCodec PPiece PXml2.
Open Scope list_scope.

Lemma k_AbstractImplementationDataTypeElementRef v tag r : name_okb tag = true -> good_ref rc_AbstractImplementationDataTypeElementRef r -> carries tag (write_ref tag r) (read_ref rc_AbstractImplementationDataTypeElementRef v) r.
Proof. apply c_ref; [unfold all_ref_classes; repeat (first [left; reflexivity|right])|discriminate]. Qed.
Lemma k_AbstractProvidedPortPrototypeRef v tag r : name_okb tag = true -> good_ref rc_AbstractProvidedPortPrototypeRef r -> carries tag (write_ref tag r) (read_ref rc_AbstractProvidedPortPrototypeRef v) r.
Proof. apply c_ref; [unfold all_ref_classes; repeat (first [left; reflexivity|right])|discriminate]. Qed.
Lemma k_AbstractRequiredPortPrototypeRef v tag r : name_okb tag = true -> good_ref rc_AbstractRequiredPortPrototypeRef r -> carries tag (write_ref tag r) (read_ref rc_AbstractRequiredPortPrototypeRef v) r.
Proof. apply c_ref; [unfold all_ref_classes; repeat (first [left; reflexivity|right])|discriminate]. Qed.
Lemma k_ApplicationArrayElementRef v tag r : name_okb tag = true -> good_ref rc_ApplicationArrayElementRef r -> carries tag (write_ref tag r) (read_ref rc_ApplicationArrayElementRef v) r.
Proof. apply c_ref; [unfold all_ref_classes; repeat (first [left; reflexivity|right])|discriminate]. Qed.
Lemma k_ApplicationCompositeElementDataPrototypeRef v tag r : name_okb tag = true -> good_ref rc_ApplicationCompositeElementDataPrototypeRef r -> carries tag (write_ref tag r) (read_ref rc_ApplicationCompositeElementDataPrototypeRef v) r.
Proof. apply c_ref; [unfold all_ref_classes; repeat (first [left; reflexivity|right])|discriminate]. Qed.
Lemma k_ApplicationDataTypeRef v tag r : name_okb tag = true -> good_ref rc_ApplicationDataTypeRef r -> carries tag (write_ref tag r) (read_ref rc_ApplicationDataTypeRef v) r.
Proof. apply c_ref; [unfold all_ref_classes; repeat (first [left; reflexivity|right])|discriminate]. Qed.
Lemma k_ApplicationErrorRef v tag r : name_okb tag = true -> good_ref rc_ApplicationErrorRef r -> carries tag (write_ref tag r) (read_ref rc_ApplicationErrorRef v) r.
Proof. apply c_ref; [unfold all_ref_classes; repeat (first [left; reflexivity|right])|discriminate]. Qed.
Lemma k_ApplicationRecordElementRef v tag r : name_okb tag = true -> good_ref rc_ApplicationRecordElementRef r -> carries tag (write_ref tag r) (read_ref rc_ApplicationRecordElementRef v) r.
Proof. apply c_ref; [unfold all_ref_classes; repeat (first [left; reflexivity|right])|discriminate]. Qed.
Lemma k_ArgumentDataPrototypeRef v tag r : name_okb tag = true -> good_ref rc_ArgumentDataPrototypeRef r -> carries tag (write_ref tag r) (read_ref rc_ArgumentDataPrototypeRef v) r.
Proof. apply c_ref; [unfold all_ref_classes; repeat (first [left; reflexivity|right])|discriminate]. Qed.
Lemma k_AsynchronousServerCallPointRef v tag r : name_okb tag = true -> good_ref rc_AsynchronousServerCallPointRef r -> carries tag (write_ref tag r) (read_ref rc_AsynchronousServerCallPointRef v) r.
Proof. apply c_ref; [unfold all_ref_classes; repeat (first [left; reflexivity|right])|discriminate]. Qed.
Lemma k_AsynchronousServerCallResultPointRef v tag r : name_okb tag = true -> good_ref rc_AsynchronousServerCallResultPointRef r -> carries tag (write_ref tag r) (read_ref rc_AsynchronousServerCallResultPointRef v) r.
Proof. apply c_ref; [unfold all_ref_classes; repeat (first [left; reflexivity|right])|discriminate]. Qed.
Lemma k_AutosarDataPrototypeRef v tag r : name_okb tag = true -> good_ref rc_AutosarDataPrototypeRef r -> carries tag (write_ref tag r) (read_ref rc_AutosarDataPrototypeRef v) r.
Proof. apply c_ref; [unfold all_ref_classes; repeat (first [left; reflexivity|right])|discriminate]. Qed.
Lemma k_AutosarDataTypeRef v tag r : name_okb tag = true -> good_ref rc_AutosarDataTypeRef r -> carries tag (write_ref tag r) (read_ref rc_AutosarDataTypeRef v) r.
Proof. apply c_ref; [unfold all_ref_classes; repeat (first [left; reflexivity|right])|discriminate]. Qed.
Lemma k_ClientServerOperationRef v tag r : name_okb tag = true -> good_ref rc_ClientServerOperationRef r -> carries tag (write_ref tag r) (read_ref rc_ClientServerOperationRef v) r.
Proof. apply c_ref; [unfold all_ref_classes; repeat (first [left; reflexivity|right])|discriminate]. Qed.
Lemma k_CompuMethodRef v tag r : name_okb tag = true -> good_ref rc_CompuMethodRef r -> carries tag (write_ref tag r) (read_ref rc_CompuMethodRef v) r.
Proof. apply c_ref; [unfold all_ref_classes; repeat (first [left; reflexivity|right])|discriminate]. Qed.
Lemma k_ConstantRef v tag r : name_okb tag = true -> good_ref rc_ConstantRef r -> carries tag (write_ref tag r) (read_ref rc_ConstantRef v) r.
Proof. apply c_ref; [unfold all_ref_classes; repeat (first [left; reflexivity|right])|discriminate]. Qed.
Lemma k_DataConstraintRef v tag r : name_okb tag = true -> good_ref rc_DataConstraintRef r -> carries tag (write_ref tag r) (read_ref rc_DataConstraintRef v) r.
Proof. apply c_ref; [unfold all_ref_classes; repeat (first [left; reflexivity|right])|discriminate]. Qed.
Lemma k_DataPrototypeRef v tag r : name_okb tag = true -> good_ref rc_DataPrototypeRef r -> carries tag (write_ref tag r) (read_ref rc_DataPrototypeRef v) r.
Proof. apply c_ref; [unfold all_ref_classes; repeat (first [left; reflexivity|right])|discriminate]. Qed.
Lemma k_DataTypeMappingSetRef v tag r : name_okb tag = true -> good_ref rc_DataTypeMappingSetRef r -> carries tag (write_ref tag r) (read_ref rc_DataTypeMappingSetRef v) r.
Proof. apply c_ref; [unfold all_ref_classes; repeat (first [left; reflexivity|right])|discriminate]. Qed.
Lemma k_E2EProfileCompatibilityPropsRef v tag r : name_okb tag = true -> good_ref rc_E2EProfileCompatibilityPropsRef r -> carries tag (write_ref tag r) (read_ref rc_E2EProfileCompatibilityPropsRef v) r.
Proof. apply c_ref; [unfold all_ref_classes; repeat (first [left; reflexivity|right])|discriminate]. Qed.
Lemma k_ExclusiveAreaNestingOrderRef v tag r : name_okb tag = true -> good_ref rc_ExclusiveAreaNestingOrderRef r -> carries tag (write_ref tag r) (read_ref rc_ExclusiveAreaNestingOrderRef v) r.
Proof. apply c_ref; [unfold all_ref_classes; repeat (first [left; reflexivity|right])|discriminate]. Qed.
Lemma k_ExclusiveAreaRef v tag r : name_okb tag = true -> good_ref rc_ExclusiveAreaRef r -> carries tag (write_ref tag r) (read_ref rc_ExclusiveAreaRef v) r.
Proof. apply c_ref; [unfold all_ref_classes; repeat (first [left; reflexivity|right])|discriminate]. Qed.
Lemma k_FunctionPtrSignatureRef v tag r : name_okb tag = true -> good_ref rc_FunctionPtrSignatureRef r -> carries tag (write_ref tag r) (read_ref rc_FunctionPtrSignatureRef v) r.
Proof. apply c_ref; [unfold all_ref_classes; repeat (first [left; reflexivity|right])|discriminate]. Qed.
Lemma k_ImplementationDataTypeRef v tag r : name_okb tag = true -> good_ref rc_ImplementationDataTypeRef r -> carries tag (write_ref tag r) (read_ref rc_ImplementationDataTypeRef v) r.
Proof. apply c_ref; [unfold all_ref_classes; repeat (first [left; reflexivity|right])|discriminate]. Qed.
Lemma k_IndexDataTypeRef v tag r : name_okb tag = true -> good_ref rc_IndexDataTypeRef r -> carries tag (write_ref tag r) (read_ref rc_IndexDataTypeRef v) r.
Proof. apply c_ref; [unfold all_ref_classes; repeat (first [left; reflexivity|right])|discriminate]. Qed.
Lemma k_InternalTriggeringPointRef v tag r : name_okb tag = true -> good_ref rc_InternalTriggeringPointRef r -> carries tag (write_ref tag r) (read_ref rc_InternalTriggeringPointRef v) r.
Proof. apply c_ref; [unfold all_ref_classes; repeat (first [left; reflexivity|right])|discriminate]. Qed.
Lemma k_ModeDeclarationGroupPrototypeRef v tag r : name_okb tag = true -> good_ref rc_ModeDeclarationGroupPrototypeRef r -> carries tag (write_ref tag r) (read_ref rc_ModeDeclarationGroupPrototypeRef v) r.
Proof. apply c_ref; [unfold all_ref_classes; repeat (first [left; reflexivity|right])|discriminate]. Qed.
Lemma k_ModeDeclarationGroupRef v tag r : name_okb tag = true -> good_ref rc_ModeDeclarationGroupRef r -> carries tag (write_ref tag r) (read_ref rc_ModeDeclarationGroupRef v) r.
Proof. apply c_ref; [unfold all_ref_classes; repeat (first [left; reflexivity|right])|discriminate]. Qed.
Lemma k_ModeDeclarationRef v tag r : name_okb tag = true -> good_ref rc_ModeDeclarationRef r -> carries tag (write_ref tag r) (read_ref rc_ModeDeclarationRef v) r.
Proof. apply c_ref; [unfold all_ref_classes; repeat (first [left; reflexivity|right])|discriminate]. Qed.
Lemma k_ModeSwitchPointRef v tag r : name_okb tag = true -> good_ref rc_ModeSwitchPointRef r -> carries tag (write_ref tag r) (read_ref rc_ModeSwitchPointRef v) r.
Proof. apply c_ref; [unfold all_ref_classes; repeat (first [left; reflexivity|right])|discriminate]. Qed.
Lemma k_ParameterDataPrototypeRef v tag r : name_okb tag = true -> good_ref rc_ParameterDataPrototypeRef r -> carries tag (write_ref tag r) (read_ref rc_ParameterDataPrototypeRef v) r.
Proof. apply c_ref; [unfold all_ref_classes; repeat (first [left; reflexivity|right])|discriminate]. Qed.
Lemma k_PhysicalDimensionRef v tag r : name_okb tag = true -> good_ref rc_PhysicalDimensionRef r -> carries tag (write_ref tag r) (read_ref rc_PhysicalDimensionRef v) r.
Proof. apply c_ref; [unfold all_ref_classes; repeat (first [left; reflexivity|right])|discriminate]. Qed.
Lemma k_PortInterfaceRef v tag r : name_okb tag = true -> good_ref rc_PortInterfaceRef r -> carries tag (write_ref tag r) (read_ref rc_PortInterfaceRef v) r.
Proof. apply c_ref; [unfold all_ref_classes; repeat (first [left; reflexivity|right])|discriminate]. Qed.
Lemma k_PortPrototypeRef v tag r : name_okb tag = true -> good_ref rc_PortPrototypeRef r -> carries tag (write_ref tag r) (read_ref rc_PortPrototypeRef v) r.
Proof. apply c_ref; [unfold all_ref_classes; repeat (first [left; reflexivity|right])|discriminate]. Qed.
Lemma k_RteEventRef v tag r : name_okb tag = true -> good_ref rc_RteEventRef r -> carries tag (write_ref tag r) (read_ref rc_RteEventRef v) r.
Proof. apply c_ref; [unfold all_ref_classes; repeat (first [left; reflexivity|right])|discriminate]. Qed.
Lemma k_RunnableEntityRef v tag r : name_okb tag = true -> good_ref rc_RunnableEntityRef r -> carries tag (write_ref tag r) (read_ref rc_RunnableEntityRef v) r.
Proof. apply c_ref; [unfold all_ref_classes; repeat (first [left; reflexivity|right])|discriminate]. Qed.
Lemma k_SwAddrMethodRef v tag r : name_okb tag = true -> good_ref rc_SwAddrMethodRef r -> carries tag (write_ref tag r) (read_ref rc_SwAddrMethodRef v) r.
Proof. apply c_ref; [unfold all_ref_classes; repeat (first [left; reflexivity|right])|discriminate]. Qed.
Lemma k_SwBaseTypeRef v tag r : name_okb tag = true -> good_ref rc_SwBaseTypeRef r -> carries tag (write_ref tag r) (read_ref rc_SwBaseTypeRef v) r.
Proof. apply c_ref; [unfold all_ref_classes; repeat (first [left; reflexivity|right])|discriminate]. Qed.
Lemma k_SwComponentPrototypeRef v tag r : name_okb tag = true -> good_ref rc_SwComponentPrototypeRef r -> carries tag (write_ref tag r) (read_ref rc_SwComponentPrototypeRef v) r.
Proof. apply c_ref; [unfold all_ref_classes; repeat (first [left; reflexivity|right])|discriminate]. Qed.
Lemma k_SwComponentTypeRef v tag r : name_okb tag = true -> good_ref rc_SwComponentTypeRef r -> carries tag (write_ref tag r) (read_ref rc_SwComponentTypeRef v) r.
Proof. apply c_ref; [unfold all_ref_classes; repeat (first [left; reflexivity|right])|discriminate]. Qed.
Lemma k_SwcInternalBehaviorRef v tag r : name_okb tag = true -> good_ref rc_SwcInternalBehaviorRef r -> carries tag (write_ref tag r) (read_ref rc_SwcInternalBehaviorRef v) r.
Proof. apply c_ref; [unfold all_ref_classes; repeat (first [left; reflexivity|right])|discriminate]. Qed.
Lemma k_TriggerRef v tag r : name_okb tag = true -> good_ref rc_TriggerRef r -> carries tag (write_ref tag r) (read_ref rc_TriggerRef v) r.
Proof. apply c_ref; [unfold all_ref_classes; repeat (first [left; reflexivity|right])|discriminate]. Qed.
Lemma k_UnitRef v tag r : name_okb tag = true -> good_ref rc_UnitRef r -> carries tag (write_ref tag r) (read_ref rc_UnitRef v) r.
Proof. apply c_ref; [unfold all_ref_classes; repeat (first [left; reflexivity|right])|discriminate]. Qed.
Lemma k_VariableAccessRef v tag r : name_okb tag = true -> good_ref rc_VariableAccessRef r -> carries tag (write_ref tag r) (read_ref rc_VariableAccessRef v) r.
Proof. apply c_ref; [unfold all_ref_classes; repeat (first [left; reflexivity|right])|discriminate]. Qed.
Lemma k_VariableDataPrototypeRef v tag r : name_okb tag = true -> good_ref rc_VariableDataPrototypeRef r -> carries tag (write_ref tag r) (read_ref rc_VariableDataPrototypeRef v) r.
Proof. apply c_ref; [unfold all_ref_classes; repeat (first [left; reflexivity|right])|discriminate]. Qed.
