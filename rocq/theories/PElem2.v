(** Elements built from data properties, value specifications and accesses: round trips.
    Generated by tools/gen_codec.py from /repo/src/autosar/xml/{element,writer,reader}.py; the
    line numbers in the comments refer to these files. *)
From Verif Require Import Base PBase MNames MNum SNum PNum PNum3 MXml SXml PXml PXml2 MEnum PEnum MRefTab MRef SEnum PRef MCodec SCodec PCodec PPiece PIdent MElem0 PElem0 PElemRef MElem1 MElemA MElemB MElemC MElem2 SElem1 SElemA SElemB SElemC SElem2 PElem1 PElemA PElemB PElemC.
Open Scope list_scope.

Lemma rt_ImplementationDataType v e : good_ImplementationDataType e -> carries "IMPLEMENTATION-DATA-TYPE" (write_implementation_data_type v e) (read_implementation_data_type v) (norm_ImplementationDataType e).
Proof.
  unfold good_ImplementationDataType. intros (G_ident & G_sw_data_def_props & G_dynamic_array_size_profile & G_sub_elements & G_symbol_props & G_type_emitter). unfold write_implementation_data_type.
  eapply e_node2.
  {
    eapply p_ident; [exact (ident_of _ G_ident)| |].
    {
      eapply piece_cons.
      {
        unfold write_autosar_data_type.
        eapply piece_cat1.
        exact (p_child "SW-DATA-DEF-PROPS" _ _ _ norm_SwDataDefProps (fun a E => rt_SwDataDefProps v "SW-DATA-DEF-PROPS" a eq_refl (opt_in _ _ a G_sw_data_def_props E))).
      }
      {
        eapply piece_cat1.
        unfold write_implementation_data_type_group.
        eapply piece_cons.
        {
          exact (p_text "DYNAMIC-ARRAY-SIZE-PROFILE" _ eq_refl G_dynamic_array_size_profile).
        }
        {
          eapply piece_cons.
          {
            exact (p_child_id "IS-STRUCT-WITH-OPTIONAL-ELEMENT" _ _ _ (fun a E => c_bool "IS-STRUCT-WITH-OPTIONAL-ELEMENT" a eq_refl)).
          }
          {
            eapply piece_cons.
            {
              exact (p_children "SUB-ELEMENTS" "IMPLEMENTATION-DATA-TYPE-ELEMENT" _ _ _ norm_ImplementationDataTypeElement eq_refl (fun a I => rt_ImplementationDataTypeElement v a (all_in _ _ a G_sub_elements I))).
            }
            {
              eapply piece_cons.
              {
                exact (p_child_id "SYMBOL-PROPS" _ _ _ (fun a E => rt_SymbolProps v "SYMBOL-PROPS" a eq_refl (opt_in _ _ a G_symbol_props E))).
              }
              {
                eapply piece_cat1.
                exact (p_text "TYPE-EMITTER" _ eq_refl G_type_emitter).
              }
              reflexivity.
            }
            reflexivity.
          }
          reflexivity.
        }
        reflexivity.
      }
      reflexivity.
    }
    reflexivity.
  }
  { exact eq_refl. }
  { apply attrs_ok_nil. }
  intros t k ktl H N. cbv beta in H. unand H.
  unfold read_implementation_data_type, read_autosar_data_type, read_implementation_data_type_group. cbn [x_attrs x_kids].
  match goal with H : ident_read _ k |- _ => rewrite (H _ (no_uuid _ G_ident)); clear H end. cbn [bind].
  use_facts.
  rewrite new_ident by (apply ident_of; assumption). cbn [bind].
  reflexivity.
Qed.
Lemma rt_ApplicationPrimitiveDataType v e : good_ApplicationPrimitiveDataType e -> carries "APPLICATION-PRIMITIVE-DATA-TYPE" (write_application_primitive_data_type v e) (read_application_primitive_data_type v) (norm_ApplicationPrimitiveDataType e).
Proof.
  unfold good_ApplicationPrimitiveDataType. intros (G_ident & G_sw_data_def_props). unfold write_application_primitive_data_type.
  eapply e_node2.
  {
    eapply p_ident; [exact (ident_of _ G_ident)| |].
    {
      eapply piece_cat1.
      unfold write_autosar_data_type.
      eapply piece_cat1.
      exact (p_child "SW-DATA-DEF-PROPS" _ _ _ norm_SwDataDefProps (fun a E => rt_SwDataDefProps v "SW-DATA-DEF-PROPS" a eq_refl (opt_in _ _ a G_sw_data_def_props E))).
    }
    reflexivity.
  }
  { exact eq_refl. }
  { apply attrs_ok_nil. }
  intros t k ktl H N. cbv beta in H. unand H.
  unfold read_application_primitive_data_type, read_autosar_data_type. cbn [x_attrs x_kids].
  match goal with H : ident_read _ k |- _ => rewrite (H _ (no_uuid _ G_ident)); clear H end. cbn [bind].
  use_facts.
  rewrite new_ident by (apply ident_of; assumption). cbn [bind].
  reflexivity.
Qed.
Lemma rt_ApplicationArrayElement v e : good_ApplicationArrayElement e -> carries "ELEMENT" (write_application_array_element v e) (read_application_array_element v) (norm_ApplicationArrayElement e).
Proof.
  unfold good_ApplicationArrayElement. intros (G_ident & G_sw_data_def_props & G_type_ref & G_max_number_of_elements & G_index_data_type_ref). unfold write_application_array_element.
  eapply e_node2.
  {
    eapply p_ident; [exact (ident_of _ G_ident)| |].
    {
      eapply piece_cons.
      {
        unfold write_data_prototype.
        eapply piece_cat1.
        exact (p_child "SW-DATA-DEF-PROPS" _ _ _ norm_SwDataDefProps (fun a E => rt_SwDataDefProps v "SW-DATA-DEF-PROPS" a eq_refl (opt_in _ _ a G_sw_data_def_props E))).
      }
      {
        eapply piece_cons.
        {
          unfold write_application_composite_element_data_prototype.
          eapply piece_cat1.
          exact (p_child_id "TYPE-TREF" _ _ _ (fun a E => k_ApplicationDataTypeRef v "TYPE-TREF" a eq_refl (opt_in _ _ a G_type_ref E))).
        }
        {
          eapply piece_cat1.
          unfold write_application_array_element_group.
          eapply piece_cons.
          {
            exact (p_child_id "ARRAY-SIZE-HANDLING" _ _ _ (fun a E => c_enum em_ArraySizeHandling "ARRAY-SIZE-HANDLING" a ok_ArraySizeHandling eq_refl)).
          }
          {
            eapply piece_cons.
            {
              exact (p_child_id "ARRAY-SIZE-SEMANTICS" _ _ _ (fun a E => c_enum em_ArraySizeSemantics "ARRAY-SIZE-SEMANTICS" a ok_ArraySizeSemantics eq_refl)).
            }
            {
              eapply piece_cons.
              {
                exact (p_child_id "INDEX-DATA-TYPE-REF" _ _ _ (fun a E => k_IndexDataTypeRef v "INDEX-DATA-TYPE-REF" a eq_refl (opt_in _ _ a G_index_data_type_ref E))).
              }
              {
                eapply piece_cat1.
                exact (p_child_id "MAX-NUMBER-OF-ELEMENTS" _ _ _ (fun a E => c_int "MAX-NUMBER-OF-ELEMENTS" a eq_refl)).
              }
              reflexivity.
            }
            reflexivity.
          }
          reflexivity.
        }
        reflexivity.
      }
      reflexivity.
    }
    reflexivity.
  }
  { exact eq_refl. }
  { apply attrs_ok_nil. }
  intros t k ktl H N. cbv beta in H. unand H.
  unfold read_application_array_element, read_data_prototype, read_application_composite_element_data_prototype, read_application_array_element_group. cbn [x_attrs x_kids].
  match goal with H : ident_read _ k |- _ => rewrite (H _ (no_uuid _ G_ident)); clear H end. cbn [bind].
  use_facts.
  rewrite new_ident by (apply ident_of; assumption). cbn [bind].
  rewrite (opt_positive_ok _ G_max_number_of_elements). cbn [bind].
  reflexivity.
Qed.
Lemma rt_ApplicationRecordElement v e : good_ApplicationRecordElement e -> carries "APPLICATION-RECORD-ELEMENT" (write_application_record_element v e) (read_application_record_element v) (norm_ApplicationRecordElement e).
Proof.
  unfold good_ApplicationRecordElement. intros (G_ident & G_sw_data_def_props & G_type_ref). unfold write_application_record_element.
  eapply e_node2.
  {
    eapply p_ident; [exact (ident_of _ G_ident)| |].
    {
      eapply piece_cons.
      {
        unfold write_data_prototype.
        eapply piece_cat1.
        exact (p_child "SW-DATA-DEF-PROPS" _ _ _ norm_SwDataDefProps (fun a E => rt_SwDataDefProps v "SW-DATA-DEF-PROPS" a eq_refl (opt_in _ _ a G_sw_data_def_props E))).
      }
      {
        eapply piece_cons.
        {
          unfold write_application_composite_element_data_prototype.
          eapply piece_cat1.
          exact (p_child_id "TYPE-TREF" _ _ _ (fun a E => k_ApplicationDataTypeRef v "TYPE-TREF" a eq_refl (opt_in _ _ a G_type_ref E))).
        }
        {
          eapply piece_cat1.
          unfold write_application_record_element_group.
          eapply piece_cat1.
          exact (p_child_id "IS-OPTIONAL" _ _ _ (fun a E => c_bool "IS-OPTIONAL" a eq_refl)).
        }
        reflexivity.
      }
      reflexivity.
    }
    reflexivity.
  }
  { exact eq_refl. }
  { apply attrs_ok_nil. }
  intros t k ktl H N. cbv beta in H. unand H.
  unfold read_application_record_element, read_data_prototype, read_application_composite_element_data_prototype, read_application_record_element_group. cbn [x_attrs x_kids].
  match goal with H : ident_read _ k |- _ => rewrite (H _ (no_uuid _ G_ident)); clear H end. cbn [bind].
  use_facts.
  rewrite new_ident by (apply ident_of; assumption). cbn [bind].
  reflexivity.
Qed.
Lemma rt_ApplicationArrayDataType v e : good_ApplicationArrayDataType e -> carries "APPLICATION-ARRAY-DATA-TYPE" (write_application_array_data_type v e) (read_application_array_data_type v) (norm_ApplicationArrayDataType e).
Proof.
  unfold good_ApplicationArrayDataType. intros (G_ident & G_sw_data_def_props & G_dynamic_array_size_profile & G_element). unfold write_application_array_data_type.
  eapply e_node2.
  {
    eapply p_ident; [exact (ident_of _ G_ident)| |].
    {
      eapply piece_cons.
      {
        unfold write_autosar_data_type.
        eapply piece_cat1.
        exact (p_child "SW-DATA-DEF-PROPS" _ _ _ norm_SwDataDefProps (fun a E => rt_SwDataDefProps v "SW-DATA-DEF-PROPS" a eq_refl (opt_in _ _ a G_sw_data_def_props E))).
      }
      {
        eapply piece_cat1.
        unfold write_application_array_data_type_group.
        eapply piece_cons.
        {
          exact (p_text "DYNAMIC-ARRAY-SIZE-PROFILE" _ eq_refl G_dynamic_array_size_profile).
        }
        {
          eapply piece_cat1.
          exact (p_child "ELEMENT" _ _ _ norm_ApplicationArrayElement (fun a E => rt_ApplicationArrayElement v a (opt_in _ _ a G_element E))).
        }
        reflexivity.
      }
      reflexivity.
    }
    reflexivity.
  }
  { exact eq_refl. }
  { apply attrs_ok_nil. }
  intros t k ktl H N. cbv beta in H. unand H.
  unfold read_application_array_data_type, read_autosar_data_type, read_application_array_data_type_group. cbn [x_attrs x_kids].
  match goal with H : ident_read _ k |- _ => rewrite (H _ (no_uuid _ G_ident)); clear H end. cbn [bind].
  use_facts.
  rewrite new_ident by (apply ident_of; assumption). cbn [bind].
  reflexivity.
Qed.
Lemma rt_ApplicationRecordDataType v e : good_ApplicationRecordDataType e -> carries "APPLICATION-RECORD-DATA-TYPE" (write_application_record_data_type v e) (read_application_record_data_type v) (norm_ApplicationRecordDataType e).
Proof.
  unfold good_ApplicationRecordDataType. intros (G_ident & G_sw_data_def_props & G_elements). unfold write_application_record_data_type.
  eapply e_node2.
  {
    eapply p_ident; [exact (ident_of _ G_ident)| |].
    {
      eapply piece_cons.
      {
        unfold write_autosar_data_type.
        eapply piece_cat1.
        exact (p_child "SW-DATA-DEF-PROPS" _ _ _ norm_SwDataDefProps (fun a E => rt_SwDataDefProps v "SW-DATA-DEF-PROPS" a eq_refl (opt_in _ _ a G_sw_data_def_props E))).
      }
      {
        eapply piece_cat1.
        unfold write_application_record_data_type_group.
        eapply piece_cat1.
        exact (p_children "ELEMENTS" "APPLICATION-RECORD-ELEMENT" _ _ _ norm_ApplicationRecordElement eq_refl (fun a I => rt_ApplicationRecordElement v a (all_in _ _ a G_elements I))).
      }
      reflexivity.
    }
    reflexivity.
  }
  { exact eq_refl. }
  { apply attrs_ok_nil. }
  intros t k ktl H N. cbv beta in H. unand H.
  unfold read_application_record_data_type, read_autosar_data_type, read_application_record_data_type_group. cbn [x_attrs x_kids].
  match goal with H : ident_read _ k |- _ => rewrite (H _ (no_uuid _ G_ident)); clear H end. cbn [bind].
  use_facts.
  rewrite new_ident by (apply ident_of; assumption). cbn [bind].
  reflexivity.
Qed.
Lemma rt_VariableDataPrototype v tag e : name_okb tag = true -> good_VariableDataPrototype e -> carries tag (write_variable_data_prototype v tag e) (read_variable_data_prototype v) (norm_VariableDataPrototype e).
Proof.
  intros NT. unfold good_VariableDataPrototype. intros (G_ident & G_sw_data_def_props & G_type_ref & G_init_value). unfold write_variable_data_prototype.
  eapply e_node2.
  {
    eapply p_ident; [exact G_ident| |].
    {
      eapply piece_cons.
      {
        unfold write_data_prototype.
        eapply piece_cat1.
        exact (p_child "SW-DATA-DEF-PROPS" _ _ _ norm_SwDataDefProps (fun a E => rt_SwDataDefProps v "SW-DATA-DEF-PROPS" a eq_refl (opt_in _ _ a G_sw_data_def_props E))).
      }
      {
        eapply piece_cons.
        {
          unfold write_autosar_data_prototype.
          eapply piece_cat1.
          exact (p_child_id "TYPE-TREF" _ _ _ (fun a E => k_AutosarDataTypeRef v "TYPE-TREF" a eq_refl (opt_in _ _ a G_type_ref E))).
        }
        {
          eapply piece_cat1.
          unfold write_variable_data_prototype_group.
          eapply piece_cat1.
          exact (p_inner_try "INIT-VALUE" _ _ _ norm_ValueSpecificationElement eq_refl (fun a E => rt_ValueSpecificationElement v a (opt_in _ _ a G_init_value E))).
        }
        reflexivity.
      }
      reflexivity.
    }
    reflexivity.
  }
  { exact NT. }
  { apply ident_attrs; exact G_ident. }
  intros t k ktl H N. cbv beta in H. unand H.
  unfold read_variable_data_prototype, read_data_prototype, read_autosar_data_prototype, read_variable_data_prototype_group. cbn [x_attrs x_kids].
  match goal with H : ident_read _ k |- _ => rewrite (H _ (with_uuid _ G_ident)); clear H end. cbn [bind].
  use_facts.
  rewrite new_ident by assumption. cbn [bind].
  reflexivity.
Qed.
Lemma rt_ParameterDataPrototype v tag e : name_okb tag = true -> good_ParameterDataPrototype e -> carries tag (write_parameter_data_prototype v tag e) (read_parameter_data_prototype v) (norm_ParameterDataPrototype e).
Proof.
  intros NT. unfold good_ParameterDataPrototype. intros (G_ident & G_sw_data_def_props & G_type_ref & G_init_value). unfold write_parameter_data_prototype.
  eapply e_node2.
  {
    eapply p_ident; [exact G_ident| |].
    {
      eapply piece_cons.
      {
        unfold write_data_prototype.
        eapply piece_cat1.
        exact (p_child "SW-DATA-DEF-PROPS" _ _ _ norm_SwDataDefProps (fun a E => rt_SwDataDefProps v "SW-DATA-DEF-PROPS" a eq_refl (opt_in _ _ a G_sw_data_def_props E))).
      }
      {
        eapply piece_cons.
        {
          unfold write_autosar_data_prototype.
          eapply piece_cat1.
          exact (p_child_id "TYPE-TREF" _ _ _ (fun a E => k_AutosarDataTypeRef v "TYPE-TREF" a eq_refl (opt_in _ _ a G_type_ref E))).
        }
        {
          eapply piece_cat1.
          unfold write_variable_data_prototype_group.
          eapply piece_cat1.
          exact (p_inner_try "INIT-VALUE" _ _ _ norm_ValueSpecificationElement eq_refl (fun a E => rt_ValueSpecificationElement v a (opt_in _ _ a G_init_value E))).
        }
        reflexivity.
      }
      reflexivity.
    }
    reflexivity.
  }
  { exact NT. }
  { apply ident_attrs; exact G_ident. }
  intros t k ktl H N. cbv beta in H. unand H.
  unfold read_parameter_data_prototype, read_data_prototype, read_autosar_data_prototype, read_parameter_data_prototype_group. cbn [x_attrs x_kids].
  match goal with H : ident_read _ k |- _ => rewrite (H _ (with_uuid _ G_ident)); clear H end. cbn [bind].
  use_facts.
  rewrite new_ident by assumption. cbn [bind].
  reflexivity.
Qed.
Lemma rt_ArgumentDataPrototype v e : good_ArgumentDataPrototype e -> carries "ARGUMENT-DATA-PROTOTYPE" (write_argument_data_prototype v e) (read_argument_data_prototype v) (norm_ArgumentDataPrototype e).
Proof.
  unfold good_ArgumentDataPrototype. intros (G_ident & G_sw_data_def_props & G_type_ref). unfold write_argument_data_prototype.
  eapply e_node2.
  {
    eapply p_ident; [exact G_ident| |].
    {
      eapply piece_cons.
      {
        unfold write_data_prototype.
        eapply piece_cat1.
        exact (p_child "SW-DATA-DEF-PROPS" _ _ _ norm_SwDataDefProps (fun a E => rt_SwDataDefProps v "SW-DATA-DEF-PROPS" a eq_refl (opt_in _ _ a G_sw_data_def_props E))).
      }
      {
        eapply piece_cons.
        {
          unfold write_autosar_data_prototype.
          eapply piece_cat1.
          exact (p_child_id "TYPE-TREF" _ _ _ (fun a E => k_AutosarDataTypeRef v "TYPE-TREF" a eq_refl (opt_in _ _ a G_type_ref E))).
        }
        {
          eapply piece_cat1.
          unfold write_argument_data_prototype_group.
          eapply piece_cons.
          {
            exact (p_child_id "DIRECTION" _ _ _ (fun a E => c_enum em_ArgumentDirection "DIRECTION" a ok_ArgumentDirection eq_refl)).
          }
          {
            eapply piece_cat1.
            exact (p_child_id "SERVER-ARGUMENT-IMPL-POLICY" _ _ _ (fun a E => c_enum em_ServerArgImplPolicy "SERVER-ARGUMENT-IMPL-POLICY" a ok_ServerArgImplPolicy eq_refl)).
          }
          reflexivity.
        }
        reflexivity.
      }
      reflexivity.
    }
    reflexivity.
  }
  { exact eq_refl. }
  { apply ident_attrs; exact G_ident. }
  intros t k ktl H N. cbv beta in H. unand H.
  unfold read_argument_data_prototype, read_data_prototype, read_autosar_data_prototype, read_argument_data_prototype_group. cbn [x_attrs x_kids].
  match goal with H : ident_read _ k |- _ => rewrite (H _ (with_uuid _ G_ident)); clear H end. cbn [bind].
  use_facts.
  rewrite new_ident by assumption. cbn [bind].
  reflexivity.
Qed.
Lemma rt_ConstantSpecification v e : good_ConstantSpecification e -> carries "CONSTANT-SPECIFICATION" (write_constant_specification v e) (read_constant_specification v) (norm_ConstantSpecification e).
Proof.
  unfold good_ConstantSpecification. intros (G_ident & G_value). unfold write_constant_specification.
  eapply e_node2.
  {
    eapply p_ident; [exact G_ident| |].
    {
      eapply piece_cat1.
      unfold write_constant_specification_group.
      eapply piece_cat1.
      exact (p_inner "VALUE-SPEC" _ _ _ norm_ValueSpecificationElement eq_refl (fun a E => rt_ValueSpecificationElement v a (opt_in _ _ a G_value E))).
    }
    reflexivity.
  }
  { exact eq_refl. }
  { apply ident_attrs; exact G_ident. }
  intros t k ktl H N. cbv beta in H. unand H.
  unfold read_constant_specification, read_constant_specification_group. cbn [x_attrs x_kids].
  match goal with H : ident_read _ k |- _ => rewrite (H _ (with_uuid _ G_ident)); clear H end. cbn [bind].
  use_facts.
  rewrite new_ident by assumption. cbn [bind].
  reflexivity.
Qed.
Lemma rt_NvDataInterface v e : good_NvDataInterface e -> carries "NV-DATA-INTERFACE" (write_nv_data_interface v e) (read_nv_data_interface v) (norm_NvDataInterface e).
Proof.
  unfold good_NvDataInterface. intros (G_ident & G_service_kind & G_data_elements). unfold write_nv_data_interface.
  eapply e_node2.
  {
    eapply p_ident; [exact (ident_of _ G_ident)| |].
    {
      eapply piece_cons.
      {
        unfold write_port_interface.
        eapply piece_cons.
        {
          exact (p_child_id "IS-SERVICE" _ _ _ (fun a E => c_bool "IS-SERVICE" a eq_refl)).
        }
        {
          eapply piece_cat1.
          exact (p_off _ _ G_service_kind).
        }
        reflexivity.
      }
      {
        eapply piece_cat1.
        unfold write_nv_data_interface_group.
        eapply piece_cat1.
        exact (p_children "NV-DATAS" "VARIABLE-DATA-PROTOTYPE" _ _ _ norm_VariableDataPrototype eq_refl (fun a I => rt_VariableDataPrototype v "VARIABLE-DATA-PROTOTYPE" a eq_refl (all_in _ _ a G_data_elements I))).
      }
      reflexivity.
    }
    reflexivity.
  }
  { exact eq_refl. }
  { apply attrs_ok_nil. }
  intros t k ktl H N. cbv beta in H. unand H.
  unfold read_nv_data_interface, read_port_interface, read_nv_data_interface_group. cbn [x_attrs x_kids].
  match goal with H : ident_read _ k |- _ => rewrite (H _ (no_uuid _ G_ident)); clear H end. cbn [bind].
  use_facts.
  rewrite new_ident by (apply ident_of; assumption). cbn [bind].
  reflexivity.
Qed.
Lemma rt_ParameterInterface v e : good_ParameterInterface e -> carries "PARAMETER-INTERFACE" (write_parameter_interface v e) (read_parameter_interface v) (norm_ParameterInterface e).
Proof.
  unfold good_ParameterInterface. intros (G_ident & G_service_kind & G_parameters). unfold write_parameter_interface.
  eapply e_node2.
  {
    eapply p_ident; [exact (ident_of _ G_ident)| |].
    {
      eapply piece_cons.
      {
        unfold write_port_interface.
        eapply piece_cons.
        {
          exact (p_child_id "IS-SERVICE" _ _ _ (fun a E => c_bool "IS-SERVICE" a eq_refl)).
        }
        {
          eapply piece_cat1.
          exact (p_off _ _ G_service_kind).
        }
        reflexivity.
      }
      {
        eapply piece_cat1.
        unfold write_parameter_interface_group.
        eapply piece_cat1.
        exact (p_children "PARAMETERS" "PARAMETER-DATA-PROTOTYPE" _ _ _ norm_ParameterDataPrototype eq_refl (fun a I => rt_ParameterDataPrototype v "PARAMETER-DATA-PROTOTYPE" a eq_refl (all_in _ _ a G_parameters I))).
      }
      reflexivity.
    }
    reflexivity.
  }
  { exact eq_refl. }
  { apply attrs_ok_nil. }
  intros t k ktl H N. cbv beta in H. unand H.
  unfold read_parameter_interface, read_port_interface, read_parameter_interface_group. cbn [x_attrs x_kids].
  match goal with H : ident_read _ k |- _ => rewrite (H _ (no_uuid _ G_ident)); clear H end. cbn [bind].
  use_facts.
  rewrite new_ident by (apply ident_of; assumption). cbn [bind].
  reflexivity.
Qed.
Lemma rt_SenderReceiverInterface v e : good_SenderReceiverInterface e -> carries "SENDER-RECEIVER-INTERFACE" (write_sender_receiver_interface v e) (read_sender_receiver_interface v) (norm_SenderReceiverInterface e).
Proof.
  unfold good_SenderReceiverInterface. intros (G_ident & G_service_kind & G_data_elements & G_invalidation_policies). unfold write_sender_receiver_interface.
  eapply e_node2.
  {
    eapply p_ident; [exact (ident_of _ G_ident)| |].
    {
      eapply piece_cons.
      {
        unfold write_port_interface.
        eapply piece_cons.
        {
          exact (p_child_id "IS-SERVICE" _ _ _ (fun a E => c_bool "IS-SERVICE" a eq_refl)).
        }
        {
          eapply piece_cat1.
          exact (p_off _ _ G_service_kind).
        }
        reflexivity.
      }
      {
        eapply piece_cat1.
        unfold write_sender_receiver_interface_group.
        eapply piece_cons.
        {
          exact (p_children "DATA-ELEMENTS" "VARIABLE-DATA-PROTOTYPE" _ _ _ norm_VariableDataPrototype eq_refl (fun a I => rt_VariableDataPrototype v "VARIABLE-DATA-PROTOTYPE" a eq_refl (all_in _ _ a G_data_elements I))).
        }
        {
          eapply piece_cat1.
          exact (p_children_id "INVALIDATION-POLICYS" "INVALIDATION-POLICY" _ _ _  eq_refl (fun a I => rt_InvalidationPolicy v a (all_in _ _ a G_invalidation_policies I))).
        }
        reflexivity.
      }
      reflexivity.
    }
    reflexivity.
  }
  { exact eq_refl. }
  { apply attrs_ok_nil. }
  intros t k ktl H N. cbv beta in H. unand H.
  unfold read_sender_receiver_interface, read_port_interface, read_sender_receiver_interface_group. cbn [x_attrs x_kids].
  match goal with H : ident_read _ k |- _ => rewrite (H _ (no_uuid _ G_ident)); clear H end. cbn [bind].
  use_facts.
  rewrite new_ident by (apply ident_of; assumption). cbn [bind].
  reflexivity.
Qed.
Lemma rt_ClientServerOperation v e : good_ClientServerOperation e -> carries "CLIENT-SERVER-OPERATION" (write_client_server_operation v e) (read_client_server_operation v) (norm_ClientServerOperation e).
Proof.
  unfold good_ClientServerOperation. intros (G_ident & G_arguments & G_possible_error_refs). unfold write_client_server_operation.
  eapply e_node2.
  {
    eapply p_ident; [exact (ident_of _ G_ident)| |].
    {
      eapply piece_cat1.
      unfold write_client_server_operation_group.
      eapply piece_cons.
      {
        exact (p_children "ARGUMENTS" "ARGUMENT-DATA-PROTOTYPE" _ _ _ norm_ArgumentDataPrototype eq_refl (fun a I => rt_ArgumentDataPrototype v a (all_in _ _ a G_arguments I))).
      }
      {
        eapply piece_cons.
        {
          exact (p_child_id "DIAG-ARG-INTEGRITY" _ _ _ (fun a E => c_bool "DIAG-ARG-INTEGRITY" a eq_refl)).
        }
        {
          eapply piece_cons.
          {
            exact (p_child_id "FIRE-AND-FORGET" _ _ _ (fun a E => c_bool "FIRE-AND-FORGET" a eq_refl)).
          }
          {
            eapply piece_cat1.
            exact (p_children_id "POSSIBLE-ERROR-REFS" "POSSIBLE-ERROR-REF" _ _ _  eq_refl (fun a I => k_ApplicationErrorRef v "POSSIBLE-ERROR-REF" a eq_refl (all_in _ _ a G_possible_error_refs I))).
          }
          reflexivity.
        }
        reflexivity.
      }
      reflexivity.
    }
    reflexivity.
  }
  { exact eq_refl. }
  { apply attrs_ok_nil. }
  intros t k ktl H N. cbv beta in H. unand H.
  unfold read_client_server_operation, read_client_server_operation_group. cbn [x_attrs x_kids].
  match goal with H : ident_read _ k |- _ => rewrite (H _ (no_uuid _ G_ident)); clear H end. cbn [bind].
  use_facts.
  rewrite new_ident by (apply ident_of; assumption). cbn [bind].
  reflexivity.
Qed.
Lemma rt_ClientServerInterface v e : good_ClientServerInterface e -> carries "CLIENT-SERVER-INTERFACE" (write_client_server_interface v e) (read_client_server_interface v) (norm_ClientServerInterface e).
Proof.
  unfold good_ClientServerInterface. intros (G_ident & G_service_kind & G_operations & G_possible_errors). unfold write_client_server_interface.
  eapply e_node2.
  {
    eapply p_ident; [exact (ident_of _ G_ident)| |].
    {
      eapply piece_cons.
      {
        unfold write_port_interface.
        eapply piece_cons.
        {
          exact (p_child_id "IS-SERVICE" _ _ _ (fun a E => c_bool "IS-SERVICE" a eq_refl)).
        }
        {
          eapply piece_cat1.
          exact (p_off _ _ G_service_kind).
        }
        reflexivity.
      }
      {
        eapply piece_cat1.
        unfold write_client_server_interface_group.
        eapply piece_cons.
        {
          exact (p_children "OPERATIONS" "CLIENT-SERVER-OPERATION" _ _ _ norm_ClientServerOperation eq_refl (fun a I => rt_ClientServerOperation v a (all_in _ _ a G_operations I))).
        }
        {
          eapply piece_cat1.
          exact (p_children_id "POSSIBLE-ERRORS" "APPLICATION-ERROR" _ _ _  eq_refl (fun a I => rt_ApplicationError v a (all_in _ _ a G_possible_errors I))).
        }
        reflexivity.
      }
      reflexivity.
    }
    reflexivity.
  }
  { exact eq_refl. }
  { apply attrs_ok_nil. }
  intros t k ktl H N. cbv beta in H. unand H.
  unfold read_client_server_interface, read_port_interface, read_client_server_interface_group. cbn [x_attrs x_kids].
  match goal with H : ident_read _ k |- _ => rewrite (H _ (no_uuid _ G_ident)); clear H end. cbn [bind].
  use_facts.
  rewrite new_ident by (apply ident_of; assumption). cbn [bind].
  reflexivity.
Qed.
Lemma rt_QueuedSenderComSpec v e : good_QueuedSenderComSpec e -> carries "QUEUED-SENDER-COM-SPEC" (write_queued_sender_com_spec v e) (read_queued_sender_com_spec v) (norm_QueuedSenderComSpec e).
Proof.
  unfold good_QueuedSenderComSpec. intros (G_data_element_ref & G_network_representation & G_transmission_acknowledge & G_tranmsission_props). unfold write_queued_sender_com_spec.
  destruct (QueuedSenderComSpec_is_empty e) eqn:E.
  { clear - E. unfold QueuedSenderComSpec_is_empty in E. apply e_empty; [exact eq_refl|]. destruct e. cbn in E. emptied E. subst. reflexivity. }
  clear E.
  eapply e_node2.
  {
    eapply piece_cat1.
    unfold write_sender_com_spec_group.
    eapply piece_cons.
    {
      exact (p_child_id "DATA-ELEMENT-REF" _ _ _ (fun a E => k_AutosarDataPrototypeRef v "DATA-ELEMENT-REF" a eq_refl (opt_in _ _ a G_data_element_ref E))).
    }
    {
      eapply piece_cons.
      {
        exact (p_child_id "HANDLE-OUT-OF-RANGE" _ _ _ (fun a E => c_enum em_HandleOutOfRange "HANDLE-OUT-OF-RANGE" a ok_HandleOutOfRange eq_refl)).
      }
      {
        eapply piece_cons.
        {
          exact (p_child "NETWORK-REPRESENTATION" _ _ _ norm_SwDataDefProps (fun a E => rt_SwDataDefProps v "NETWORK-REPRESENTATION" a eq_refl (opt_in _ _ a G_network_representation E))).
        }
        {
          eapply piece_cons.
          {
            exact (p_child_id "TRANSMISSION-ACKNOWLEDGE" _ _ _ (fun a E => rt_TransmissionAcknowledgementRequest v a (opt_in _ _ a G_transmission_acknowledge E))).
          }
          {
            eapply piece_cons.
            {
              exact (p_child_id "TRANSMISSION-PROPS" _ _ _ (fun a E => rt_TransmissionComSpecProps v a (opt_in _ _ a G_tranmsission_props E))).
            }
            {
              eapply piece_cat1.
              exact (p_child_id "USES-END-TO-END-PROTECTION" _ _ _ (fun a E => c_bool "USES-END-TO-END-PROTECTION" a eq_refl)).
            }
            reflexivity.
          }
          reflexivity.
        }
        reflexivity.
      }
      reflexivity.
    }
    reflexivity.
  }
  { exact eq_refl. }
  { apply attrs_ok_nil. }
  intros t k ktl H N. cbv beta in H. unand H.
  unfold read_queued_sender_com_spec, read_sender_com_spec_group. cbn [x_attrs x_kids].
  use_facts.
  reflexivity.
Qed.
Lemma rt_NonqueuedSenderComSpec v e : good_NonqueuedSenderComSpec e -> carries "NONQUEUED-SENDER-COM-SPEC" (write_non_queued_sender_com_spec v e) (read_nonqueued_sender_com_spec v) (norm_NonqueuedSenderComSpec e).
Proof.
  unfold good_NonqueuedSenderComSpec. intros (G_data_element_ref & G_network_representation & G_transmission_acknowledge & G_tranmsission_props & G_data_filter & G_init_value). unfold write_non_queued_sender_com_spec.
  destruct (NonqueuedSenderComSpec_is_empty e) eqn:E.
  { clear - E. unfold NonqueuedSenderComSpec_is_empty in E. apply e_empty; [exact eq_refl|]. destruct e. cbn in E. emptied E. subst. reflexivity. }
  clear E.
  eapply e_node2.
  {
    eapply piece_cons.
    {
      unfold write_sender_com_spec_group.
      eapply piece_cons.
      {
        exact (p_child_id "DATA-ELEMENT-REF" _ _ _ (fun a E => k_AutosarDataPrototypeRef v "DATA-ELEMENT-REF" a eq_refl (opt_in _ _ a G_data_element_ref E))).
      }
      {
        eapply piece_cons.
        {
          exact (p_child_id "HANDLE-OUT-OF-RANGE" _ _ _ (fun a E => c_enum em_HandleOutOfRange "HANDLE-OUT-OF-RANGE" a ok_HandleOutOfRange eq_refl)).
        }
        {
          eapply piece_cons.
          {
            exact (p_child "NETWORK-REPRESENTATION" _ _ _ norm_SwDataDefProps (fun a E => rt_SwDataDefProps v "NETWORK-REPRESENTATION" a eq_refl (opt_in _ _ a G_network_representation E))).
          }
          {
            eapply piece_cons.
            {
              exact (p_child_id "TRANSMISSION-ACKNOWLEDGE" _ _ _ (fun a E => rt_TransmissionAcknowledgementRequest v a (opt_in _ _ a G_transmission_acknowledge E))).
            }
            {
              eapply piece_cons.
              {
                exact (p_child_id "TRANSMISSION-PROPS" _ _ _ (fun a E => rt_TransmissionComSpecProps v a (opt_in _ _ a G_tranmsission_props E))).
              }
              {
                eapply piece_cat1.
                exact (p_child_id "USES-END-TO-END-PROTECTION" _ _ _ (fun a E => c_bool "USES-END-TO-END-PROTECTION" a eq_refl)).
              }
              reflexivity.
            }
            reflexivity.
          }
          reflexivity.
        }
        reflexivity.
      }
      reflexivity.
    }
    {
      eapply piece_cat1.
      unfold write_non_queued_sender_com_spec_group.
      eapply piece_cons.
      {
        exact (p_child_id "DATA-FILTER" _ _ _ (fun a E => rt_DataFilter v "DATA-FILTER" a eq_refl (opt_in _ _ a G_data_filter E))).
      }
      {
        eapply piece_cat1.
        exact (p_inner_try "INIT-VALUE" _ _ _ norm_ValueSpecificationElement eq_refl (fun a E => rt_ValueSpecificationElement v a (opt_in _ _ a G_init_value E))).
      }
      reflexivity.
    }
    reflexivity.
  }
  { exact eq_refl. }
  { apply attrs_ok_nil. }
  intros t k ktl H N. cbv beta in H. unand H.
  unfold read_nonqueued_sender_com_spec, read_sender_com_spec_group, read_nonqueued_sender_com_spec_group. cbn [x_attrs x_kids].
  use_facts.
  reflexivity.
Qed.
Lemma rt_NvProvideComSpec v e : good_NvProvideComSpec e -> carries "NV-PROVIDE-COM-SPEC" (write_nv_provide_com_spec v e) (read_nv_provider_com_spec v) (norm_NvProvideComSpec e).
Proof.
  unfold good_NvProvideComSpec. intros (G_ram_block_init_value & G_rom_block_init_value & G_variable_ref). unfold write_nv_provide_com_spec.
  destruct (NvProvideComSpec_is_empty e) eqn:E.
  { clear - E. unfold NvProvideComSpec_is_empty in E. apply e_empty; [exact eq_refl|]. destruct e. cbn in E. emptied E. subst. reflexivity. }
  clear E.
  eapply e_node2.
  {
    eapply piece_cons.
    {
      exact (p_inner_try "RAM-BLOCK-INIT-VALUE" _ _ _ norm_ValueSpecificationElement eq_refl (fun a E => rt_ValueSpecificationElement v a (opt_in _ _ a G_ram_block_init_value E))).
    }
    {
      eapply piece_cons.
      {
        exact (p_inner_try "ROM-BLOCK-INIT-VALUE" _ _ _ norm_ValueSpecificationElement eq_refl (fun a E => rt_ValueSpecificationElement v a (opt_in _ _ a G_rom_block_init_value E))).
      }
      {
        eapply piece_cat1.
        exact (p_child_id "VARIABLE-REF" _ _ _ (fun a E => k_VariableDataPrototypeRef v "VARIABLE-REF" a eq_refl (opt_in _ _ a G_variable_ref E))).
      }
      reflexivity.
    }
    reflexivity.
  }
  { exact eq_refl. }
  { apply attrs_ok_nil. }
  intros t k ktl H N. cbv beta in H. unand H.
  unfold read_nv_provider_com_spec, read_nv_provider_com_spec_group. cbn [x_attrs x_kids].
  use_facts.
  reflexivity.
Qed.
Lemma rt_ParameterProvideComSpec v e : good_ParameterProvideComSpec e -> carries "PARAMETER-PROVIDE-COM-SPEC" (write_parameter_provide_com_spec v e) (read_parameter_provide_com_spec v) (norm_ParameterProvideComSpec e).
Proof.
  unfold good_ParameterProvideComSpec. intros (G_init_value & G_parameter_ref). unfold write_parameter_provide_com_spec.
  destruct (ParameterProvideComSpec_is_empty e) eqn:E.
  { clear - E. unfold ParameterProvideComSpec_is_empty in E. apply e_empty; [exact eq_refl|]. destruct e. cbn in E. emptied E. subst. reflexivity. }
  clear E.
  eapply e_node2.
  {
    eapply piece_cons.
    {
      exact (p_inner_try "INIT-VALUE" _ _ _ norm_ValueSpecificationElement eq_refl (fun a E => rt_ValueSpecificationElement v a (opt_in _ _ a G_init_value E))).
    }
    {
      eapply piece_cat1.
      exact (p_child_id "PARAMETER-REF" _ _ _ (fun a E => k_ParameterDataPrototypeRef v "PARAMETER-REF" a eq_refl (opt_in _ _ a G_parameter_ref E))).
    }
    reflexivity.
  }
  { exact eq_refl. }
  { apply attrs_ok_nil. }
  intros t k ktl H N. cbv beta in H. unand H.
  unfold read_parameter_provide_com_spec. cbn [x_attrs x_kids].
  use_facts.
  reflexivity.
Qed.
Lemma rt_NvRequireComSpec v e : good_NvRequireComSpec e -> carries "NV-REQUIRE-COM-SPEC" (write_nv_require_com_spec v e) (read_nv_require_com_spec v) (norm_NvRequireComSpec e).
Proof.
  unfold good_NvRequireComSpec. intros (G_init_value & G_variable_ref). unfold write_nv_require_com_spec.
  destruct (NvRequireComSpec_is_empty e) eqn:E.
  { clear - E. unfold NvRequireComSpec_is_empty in E. apply e_empty; [exact eq_refl|]. destruct e. cbn in E. emptied E. subst. reflexivity. }
  clear E.
  eapply e_node2.
  {
    eapply piece_cons.
    {
      exact (p_inner_try "INIT-VALUE" _ _ _ norm_ValueSpecificationElement eq_refl (fun a E => rt_ValueSpecificationElement v a (opt_in _ _ a G_init_value E))).
    }
    {
      eapply piece_cat1.
      exact (p_child_id "VARIABLE-REF" _ _ _ (fun a E => k_VariableDataPrototypeRef v "VARIABLE-REF" a eq_refl (opt_in _ _ a G_variable_ref E))).
    }
    reflexivity.
  }
  { exact eq_refl. }
  { apply attrs_ok_nil. }
  intros t k ktl H N. cbv beta in H. unand H.
  unfold read_nv_require_com_spec. cbn [x_attrs x_kids].
  use_facts.
  reflexivity.
Qed.
Lemma rt_ParameterRequireComSpec v e : good_ParameterRequireComSpec e -> carries "PARAMETER-REQUIRE-COM-SPEC" (write_parameter_require_com_spec v e) (read_parameter_require_com_spec v) (norm_ParameterRequireComSpec e).
Proof.
  unfold good_ParameterRequireComSpec. intros (G_init_value & G_parameter_ref). unfold write_parameter_require_com_spec.
  destruct (ParameterRequireComSpec_is_empty e) eqn:E.
  { clear - E. unfold ParameterRequireComSpec_is_empty in E. apply e_empty; [exact eq_refl|]. destruct e. cbn in E. emptied E. subst. reflexivity. }
  clear E.
  eapply e_node2.
  {
    eapply piece_cons.
    {
      exact (p_inner_try "INIT-VALUE" _ _ _ norm_ValueSpecificationElement eq_refl (fun a E => rt_ValueSpecificationElement v a (opt_in _ _ a G_init_value E))).
    }
    {
      eapply piece_cat1.
      exact (p_child_id "PARAMETER-REF" _ _ _ (fun a E => k_ParameterDataPrototypeRef v "PARAMETER-REF" a eq_refl (opt_in _ _ a G_parameter_ref E))).
    }
    reflexivity.
  }
  { exact eq_refl. }
  { apply attrs_ok_nil. }
  intros t k ktl H N. cbv beta in H. unand H.
  unfold read_parameter_require_com_spec. cbn [x_attrs x_kids].
  use_facts.
  reflexivity.
Qed.
Lemma rt_AutosarVariableRef v tag e : name_okb tag = true -> good_AutosarVariableRef e -> carries tag (write_autosar_variable_ref v tag e) (read_autosar_variable_ref v) e.
Proof.
  intros NT. unfold good_AutosarVariableRef. intros (G_ar_variable_in_impl_datatype & G_ar_variable_iref & G_local_variable_ref). unfold write_autosar_variable_ref.
  destruct (AutosarVariableRef_is_empty e) eqn:E.
  { clear - E NT. unfold AutosarVariableRef_is_empty in E. apply e_empty; [exact NT|]. destruct e. cbn in E. emptied E. subst. reflexivity. }
  clear E.
  eapply e_node2.
  {
    eapply piece_cons.
    {
      exact (p_child_id "AUTOSAR-VARIABLE-IN-IMPL-DATATYPE" _ _ _ (fun a E => rt_ArVariableInImplementationDataInstanceRef v "AUTOSAR-VARIABLE-IN-IMPL-DATATYPE" a eq_refl (opt_in _ _ a G_ar_variable_in_impl_datatype E))).
    }
    {
      eapply piece_cons.
      {
        exact (p_child_id "AUTOSAR-VARIABLE-IREF" _ _ _ (fun a E => rt_VariableInAtomicSWCTypeInstanceRef v a (opt_in _ _ a G_ar_variable_iref E))).
      }
      {
        eapply piece_cat1.
        exact (p_child_id "LOCAL-VARIABLE-REF" _ _ _ (fun a E => k_VariableDataPrototypeRef v "LOCAL-VARIABLE-REF" a eq_refl (opt_in _ _ a G_local_variable_ref E))).
      }
      reflexivity.
    }
    reflexivity.
  }
  { exact NT. }
  { apply attrs_ok_nil. }
  intros t k ktl H N. cbv beta in H. unand H.
  unfold read_autosar_variable_ref, read_autosar_variable_ref_group. cbn [x_attrs x_kids].
  use_facts.
  destruct e; reflexivity.
Qed.
Lemma rt_VariableAccess v tag e : name_okb tag = true -> good_VariableAccess e -> carries tag (write_variable_access v tag e) (read_variable_access v) e.
Proof.
  intros NT. unfold good_VariableAccess. intros (G_ident & G_accessed_variable). unfold write_variable_access.
  eapply e_node2.
  {
    eapply p_ident; [exact (ident_of _ G_ident)| |].
    {
      eapply piece_cons.
      {
        exact (p_child_id "ACCESSED-VARIABLE" _ _ _ (fun a E => rt_AutosarVariableRef v "ACCESSED-VARIABLE" a eq_refl (opt_in _ _ a G_accessed_variable E))).
      }
      {
        eapply piece_cat1.
        exact (p_child_id "SCOPE" _ _ _ (fun a E => c_enum em_VariableAccessScope "SCOPE" a ok_VariableAccessScope eq_refl)).
      }
      reflexivity.
    }
    reflexivity.
  }
  { exact NT. }
  { apply attrs_ok_nil. }
  intros t k ktl H N. cbv beta in H. unand H.
  unfold read_variable_access, read_variable_access_group. cbn [x_attrs x_kids].
  match goal with H : ident_read _ k |- _ => rewrite (H _ (no_uuid _ G_ident)); clear H end. cbn [bind].
  use_facts.
  rewrite new_ident by (apply ident_of; assumption). cbn [bind].
  destruct e; reflexivity.
Qed.
Lemma rt_ParameterAccess v e : good_ParameterAccess e -> carries "PARAMETER-ACCESS" (write_parameter_access v e) (read_parameter_access v) (norm_ParameterAccess e).
Proof.
  unfold good_ParameterAccess. intros (G_ident & G_accessed_parameter & G_sw_data_def_props). unfold write_parameter_access.
  eapply e_node2.
  {
    eapply p_ident; [exact (ident_of _ G_ident)| |].
    {
      eapply piece_cons.
      {
        unfold write_abstract_access_point.
        eapply piece_cat1.
        exact (p_child_id "RETURN-VALUE-PROVISION" _ _ _ (fun a E => c_enum em_RteApiReturnValueProvision "RETURN-VALUE-PROVISION" a ok_RteApiReturnValueProvision eq_refl)).
      }
      {
        eapply piece_cat1.
        unfold write_parameter_access_group.
        eapply piece_cons.
        {
          exact (p_child_id "ACCESSED-PARAMETER" _ _ _ (fun a E => rt_AutosarParameterRef v "ACCESSED-PARAMETER" a eq_refl (opt_in _ _ a G_accessed_parameter E))).
        }
        {
          eapply piece_cat1.
          exact (p_child "SW-DATA-DEF-PROPS" _ _ _ norm_SwDataDefProps (fun a E => rt_SwDataDefProps v "SW-DATA-DEF-PROPS" a eq_refl (opt_in _ _ a G_sw_data_def_props E))).
        }
        reflexivity.
      }
      reflexivity.
    }
    reflexivity.
  }
  { exact eq_refl. }
  { apply attrs_ok_nil. }
  intros t k ktl H N. cbv beta in H. unand H.
  unfold read_parameter_access, read_abstract_access_point, read_parameter_access_group. cbn [x_attrs x_kids].
  match goal with H : ident_read _ k |- _ => rewrite (H _ (no_uuid _ G_ident)); clear H end. cbn [bind].
  use_facts.
  rewrite new_ident by (apply ident_of; assumption). cbn [bind].
  reflexivity.
Qed.
Lemma rt_PortDefinedArgumentValue v e : good_PortDefinedArgumentValue e -> carries "PORT-DEFINED-ARGUMENT-VALUE" (write_port_defined_argument_value v e) (read_port_defined_argument_value v) (norm_PortDefinedArgumentValue e).
Proof.
  unfold good_PortDefinedArgumentValue. intros (G_value & G_value_type). unfold write_port_defined_argument_value.
  destruct (PortDefinedArgumentValue_is_empty e) eqn:E.
  { clear - E. unfold PortDefinedArgumentValue_is_empty in E. apply e_empty; [exact eq_refl|]. destruct e. cbn in E. emptied E. subst. reflexivity. }
  clear E.
  eapply e_node2.
  {
    eapply piece_cons.
    {
      exact (p_inner_try "VALUE" _ _ _ norm_ValueSpecificationElement eq_refl (fun a E => rt_ValueSpecificationElement v a (opt_in _ _ a G_value E))).
    }
    {
      eapply piece_cat1.
      exact (p_child_id "VALUE-TYPE-TREF" _ _ _ (fun a E => k_ImplementationDataTypeRef v "VALUE-TYPE-TREF" a eq_refl (opt_in _ _ a G_value_type E))).
    }
    reflexivity.
  }
  { exact eq_refl. }
  { apply attrs_ok_nil. }
  intros t k ktl H N. cbv beta in H. unand H.
  unfold read_port_defined_argument_value. cbn [x_attrs x_kids].
  use_facts.
  reflexivity.
Qed.
Lemma rt_PortApiOption v e : good_PortApiOption e -> carries "PORT-API-OPTION" (write_port_api_option v e) (read_port_api_option v) (norm_PortApiOption e).
Proof.
  unfold good_PortApiOption. intros (G_port_arg_values & G_port & G_supported_features). unfold write_port_api_option.
  destruct (PortApiOption_is_empty e) eqn:E.
  { clear - E. unfold PortApiOption_is_empty in E. apply e_empty; [exact eq_refl|]. destruct e. cbn in E. emptied E. subst. reflexivity. }
  clear E.
  eapply e_node2.
  {
    eapply piece_cat1.
    unfold write_port_api_option_group.
    eapply piece_cons.
    {
      exact (p_child_id "ENABLE-TAKE-ADDRESS" _ _ _ (fun a E => c_bool "ENABLE-TAKE-ADDRESS" a eq_refl)).
    }
    {
      eapply piece_cons.
      {
        exact (p_child_id "ERROR-HANDLING" _ _ _ (fun a E => c_enum em_DataTransformationErrorHandling "ERROR-HANDLING" a ok_DataTransformationErrorHandling eq_refl)).
      }
      {
        eapply piece_cons.
        {
          exact (p_child_id "INDIRECT-API" _ _ _ (fun a E => c_bool "INDIRECT-API" a eq_refl)).
        }
        {
          eapply piece_cons.
          {
            exact (p_children "PORT-ARG-VALUES" "PORT-DEFINED-ARGUMENT-VALUE" _ _ _ norm_PortDefinedArgumentValue eq_refl (fun a I => rt_PortDefinedArgumentValue v a (all_in _ _ a G_port_arg_values I))).
          }
          {
            eapply piece_cons.
            {
              exact (p_child_id "PORT-REF" _ _ _ (fun a E => k_PortPrototypeRef v "PORT-REF" a eq_refl (opt_in _ _ a G_port E))).
            }
            {
              eapply piece_cons.
              {
                exact (p_children_id "SUPPORTED-FEATURES" "COMMUNICATION-BUFFER-LOCKING" _ _ _  eq_refl (fun a I => rt_CommunicationBufferLocking v a (all_in _ _ a G_supported_features I))).
              }
              {
                eapply piece_cat1.
                exact (p_child_id "TRANSFORMER-STATUS-FORWARDING" _ _ _ (fun a E => c_enum em_DataTransformationStatusForwarding "TRANSFORMER-STATUS-FORWARDING" a ok_DataTransformationStatusForwarding eq_refl)).
              }
              reflexivity.
            }
            reflexivity.
          }
          reflexivity.
        }
        reflexivity.
      }
      reflexivity.
    }
    reflexivity.
  }
  { exact eq_refl. }
  { apply attrs_ok_nil. }
  intros t k ktl H N. cbv beta in H. unand H.
  unfold read_port_api_option, read_port_api_option_group. cbn [x_attrs x_kids].
  use_facts.
  reflexivity.
Qed.
