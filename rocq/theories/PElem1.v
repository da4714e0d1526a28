(** Elements built from texts, numbers, enumerations and references: round trips.
    Generated by tools/gen_codec.py from /repo/src/autosar/xml/{element,writer,reader}.py; the
    line numbers in the comments refer to these files. *)
From Verif Require Import Base PBase MNames MNum SNum PNum PNum3 MXml SXml PXml PXml2 MEnum PEnum MRefTab MRef SEnum PRef MCodec SCodec PCodec PPiece PIdent MElem0 PElem0 PElemRef  MElem1  SElem1.
Open Scope list_scope.

Lemma rt_Unit v e : good_Unit e -> carries "UNIT" (write_unit v e) (read_unit v) (norm_Unit e).
Proof.
  unfold good_Unit. intros (G_ident & G_display_name & G_physical_dimension_ref & G_factor & G_offset). unfold write_unit.
  eapply e_node2.
  {
    eapply p_ident; [exact G_ident| |].
    {
      eapply piece_cat1.
      unfold write_unit_group.
      eapply piece_cons.
      {
        exact (p_child "DISPLAY-NAME" _ _ _ merged (fun a E => c_unit_names "DISPLAY-NAME" a eq_refl (opt_in _ _ a G_display_name E))).
      }
      {
        eapply piece_cons.
        {
          exact (p_child_id "FACTOR-SI-TO-UNIT" _ _ _ (fun a E => c_float "FACTOR-SI-TO-UNIT" a eq_refl (opt_in _ _ a G_factor E))).
        }
        {
          eapply piece_cons.
          {
            exact (p_child_id "OFFSET-SI-TO-UNIT" _ _ _ (fun a E => c_float "OFFSET-SI-TO-UNIT" a eq_refl (opt_in _ _ a G_offset E))).
          }
          {
            eapply piece_cat1.
            exact (p_child_id "PHYSICAL-DIMENSION-REF" _ _ _ (fun a E => k_PhysicalDimensionRef v "PHYSICAL-DIMENSION-REF" a eq_refl (opt_in _ _ a G_physical_dimension_ref E))).
          }
          reflexivity.
        }
        reflexivity.
      }
      reflexivity.
    }
    reflexivity.
  }
  { exact eq_refl. }
  { apply ident_attrs; exact G_ident. }
  intros t k ktl H N. cbv beta in H. unand H.
  unfold read_unit, read_unit_group. cbn [x_attrs x_kids].
  match goal with H : ident_read _ k |- _ => rewrite (H _ (with_uuid _ G_ident)); clear H end. cbn [bind].
  use_facts.
  rewrite new_ident by assumption. cbn [bind].
  reflexivity.
Qed.
Lemma rt_DataFilter v tag e : name_okb tag = true -> good_DataFilter e -> carries tag (write_data_filter v tag e) (read_data_filter v) e.
Proof.
  intros NT. unfold good_DataFilter. intros (G_offset & G_period). unfold write_data_filter.
  destruct (DataFilter_is_empty e) eqn:E.
  { clear - E NT. unfold DataFilter_is_empty in E. apply e_empty; [exact NT|]. destruct e. cbn in E. emptied E. subst. reflexivity. }
  clear E.
  eapply e_node2.
  {
    eapply piece_cat1.
    unfold write_data_filter_group.
    eapply piece_cons.
    {
      exact (p_child_id "DATA-FILTER-TYPE" _ _ _ (fun a E => c_enum em_DataFilterType "DATA-FILTER-TYPE" a ok_DataFilterType eq_refl)).
    }
    {
      eapply piece_cons.
      {
        exact (p_child_id "MASK" _ _ _ (fun a E => c_integer "MASK" a eq_refl)).
      }
      {
        eapply piece_cons.
        {
          exact (p_child_id "MAX" _ _ _ (fun a E => c_integer "MAX" a eq_refl)).
        }
        {
          eapply piece_cons.
          {
            exact (p_child_id "MIN" _ _ _ (fun a E => c_integer "MIN" a eq_refl)).
          }
          {
            eapply piece_cons.
            {
              exact (p_child_id "OFFSET" _ _ _ (fun a E => c_positive "OFFSET" a eq_refl (opt_in _ _ a G_offset E))).
            }
            {
              eapply piece_cons.
              {
                exact (p_child_id "PERIOD" _ _ _ (fun a E => c_positive "PERIOD" a eq_refl (opt_in _ _ a G_period E))).
              }
              {
                eapply piece_cat1.
                exact (p_child_id "X" _ _ _ (fun a E => c_integer "X" a eq_refl)).
              }
              reflexivity.
            }
            reflexivity.
          }
          reflexivity.
        }
        reflexivity.
      }
      reflexivity.
    }
    reflexivity.
  }
  { exact NT. }
  { apply attrs_ok_nil. }
  intros t k ktl H N. cbv beta in H. unand H.
  unfold read_data_filter. cbn [x_attrs x_kids].
  use_facts.
  destruct e; reflexivity.
Qed.
Lemma rt_AutosarEngineeringObject v tag e : name_okb tag = true -> good_AutosarEngineeringObject e -> carries tag (write_autosar_engineering_object v tag e) (read_autosar_engineering_object v) e.
Proof.
  intros NT. unfold good_AutosarEngineeringObject. intros (G_label & G_category). unfold write_autosar_engineering_object.
  destruct (AutosarEngineeringObject_is_empty e) eqn:E.
  { clear - E NT. unfold AutosarEngineeringObject_is_empty in E. apply e_empty; [exact NT|]. destruct e. cbn in E. emptied E. subst. reflexivity. }
  clear E.
  eapply e_node2.
  {
    eapply piece_cat1.
    unfold write_engineering_object.
    eapply piece_cons.
    {
      exact (p_text "SHORT-LABEL" _ eq_refl G_label).
    }
    {
      eapply piece_cat1.
      exact (p_text "CATEGORY" _ eq_refl G_category).
    }
    reflexivity.
  }
  { exact NT. }
  { apply attrs_ok_nil. }
  intros t k ktl H N. cbv beta in H. unand H.
  unfold read_autosar_engineering_object, read_engineering_object. cbn [x_attrs x_kids].
  use_facts.
  destruct e; reflexivity.
Qed.
Lemma rt_Code v e : good_Code e -> carries "CODE" (write_code v e) (read_code v) e.
Proof.
  unfold good_Code. intros (G_ident & G_artifact_descriptors). unfold write_code.
  eapply e_node2.
  {
    eapply p_ident; [exact G_ident| |].
    {
      eapply piece_cat1.
      exact (p_children_id "ARTIFACT-DESCRIPTORS" "AUTOSAR-ENGINEERING-OBJECT" _ _ _  eq_refl (fun a I => rt_AutosarEngineeringObject v "AUTOSAR-ENGINEERING-OBJECT" a eq_refl (all_in _ _ a G_artifact_descriptors I))).
    }
    reflexivity.
  }
  { exact eq_refl. }
  { apply ident_attrs; exact G_ident. }
  intros t k ktl H N. cbv beta in H. unand H.
  unfold read_code. cbn [x_attrs x_kids].
  match goal with H : ident_read _ k |- _ => rewrite (H _ (with_uuid _ G_ident)); clear H end. cbn [bind].
  use_facts.
  rewrite new_ident by assumption. cbn [bind].
  destruct e; reflexivity.
Qed.
Lemma rt_SwBaseType v e : good_SwBaseType e -> carries "SW-BASE-TYPE" (write_sw_base_type v e) (read_sw_base_type v) e.
Proof.
  unfold good_SwBaseType. intros (G_ident & G_size & G_max_size & G_encoding & G_alignment & G_native_declaration). unfold write_sw_base_type.
  eapply e_node2.
  {
    eapply p_ident; [exact G_ident| |].
    {
      eapply piece_cat1.
      unfold write_base_type.
      eapply piece_cons.
      {
        exact (p_child_id "BASE-TYPE-SIZE" _ _ _ (fun a E => c_positive "BASE-TYPE-SIZE" a eq_refl (opt_in _ _ a G_size E))).
      }
      {
        eapply piece_cons.
        {
          exact (p_child_id "MAX-BASE-TYPE-SIZE" _ _ _ (fun a E => c_positive "MAX-BASE-TYPE-SIZE" a eq_refl (opt_in _ _ a G_max_size E))).
        }
        {
          eapply piece_cons.
          {
            exact (p_str "BASE-TYPE-ENCODING" _ eq_refl G_encoding).
          }
          {
            eapply piece_cons.
            {
              exact (p_child_id "MEM-ALIGNMENT" _ _ _ (fun a E => c_positive "MEM-ALIGNMENT" a eq_refl (opt_in _ _ a G_alignment E))).
            }
            {
              eapply piece_cons.
              {
                exact (p_child_id "BYTE-ORDER" _ _ _ (fun a E => c_enum em_ByteOrder "BYTE-ORDER" a ok_ByteOrder eq_refl)).
              }
              {
                eapply piece_cat1.
                exact (p_str "NATIVE-DECLARATION" _ eq_refl G_native_declaration).
              }
              reflexivity.
            }
            reflexivity.
          }
          reflexivity.
        }
        reflexivity.
      }
      reflexivity.
    }
    reflexivity.
  }
  { exact eq_refl. }
  { apply ident_attrs; exact G_ident. }
  intros t k ktl H N. cbv beta in H. unand H.
  unfold read_sw_base_type, read_base_type. cbn [x_attrs x_kids].
  match goal with H : ident_read _ k |- _ => rewrite (H _ (with_uuid _ G_ident)); clear H end. cbn [bind].
  use_facts.
  rewrite new_ident by assumption. cbn [bind].
  destruct e; reflexivity.
Qed.
Lemma rt_SwBitRepresentation v e : good_SwBitRepresentation e -> carries "SW-BIT-REPRESENTATION" (write_sw_bit_represenation v e) (read_sw_bit_representation v) e.
Proof.
  unfold good_SwBitRepresentation. intros _. unfold write_sw_bit_represenation.
  destruct (SwBitRepresentation_is_empty e) eqn:E.
  { clear - E. unfold SwBitRepresentation_is_empty in E. apply e_empty; [exact eq_refl|]. destruct e. cbn in E. emptied E. subst. reflexivity. }
  clear E.
  eapply e_node2.
  {
    eapply piece_cons.
    {
      exact (p_child_id "BIT-POSITION" _ _ _ (fun a E => c_int "BIT-POSITION" a eq_refl)).
    }
    {
      eapply piece_cat1.
      exact (p_child_id "NUMBER-OF-BITS" _ _ _ (fun a E => c_int "NUMBER-OF-BITS" a eq_refl)).
    }
    reflexivity.
  }
  { exact eq_refl. }
  { apply attrs_ok_nil. }
  intros t k ktl H N. cbv beta in H. unand H.
  unfold read_sw_bit_representation. cbn [x_attrs x_kids].
  use_facts.
  destruct e; reflexivity.
Qed.
Lemma rt_SwTextProps v e : good_SwTextProps e -> carries "SW-TEXT-PROPS" (write_sw_text_props v e) (read_sw_text_props v) e.
Proof.
  unfold good_SwTextProps. intros G_base_type_ref. unfold write_sw_text_props.
  destruct (SwTextProps_is_empty e) eqn:E.
  { clear - E. unfold SwTextProps_is_empty in E. apply e_empty; [exact eq_refl|]. destruct e. cbn in E. emptied E. subst. reflexivity. }
  clear E.
  eapply e_node2.
  {
    eapply piece_cons.
    {
      exact (p_child_id "ARRAY-SIZE-SEMANTICS" _ _ _ (fun a E => c_enum em_ArraySizeSemantics "ARRAY-SIZE-SEMANTICS" a ok_ArraySizeSemantics eq_refl)).
    }
    {
      eapply piece_cons.
      {
        exact (p_child_id "SW-MAX-TEXT-SIZE" _ _ _ (fun a E => c_integer "SW-MAX-TEXT-SIZE" a eq_refl)).
      }
      {
        eapply piece_cons.
        {
          exact (p_child_id "BASE-TYPE-REF" _ _ _ (fun a E => k_SwBaseTypeRef v "BASE-TYPE-REF" a eq_refl (opt_in _ _ a G_base_type_ref E))).
        }
        {
          eapply piece_cat1.
          exact (p_child_id "SW-FILL-CHARACTER" _ _ _ (fun a E => c_integer "SW-FILL-CHARACTER" a eq_refl)).
        }
        reflexivity.
      }
      reflexivity.
    }
    reflexivity.
  }
  { exact eq_refl. }
  { apply attrs_ok_nil. }
  intros t k ktl H N. cbv beta in H. unand H.
  unfold read_sw_text_props. cbn [x_attrs x_kids].
  use_facts.
  destruct e; reflexivity.
Qed.
Lemma rt_SymbolProps v tag e : name_okb tag = true -> good_SymbolProps e -> carries tag (write_symbol_props v tag e) (read_symbol_props v) e.
Proof.
  intros NT. unfold good_SymbolProps. intros (G_name & G_symbol). unfold write_symbol_props.
  eapply e_node2.
  {
    eapply piece_cons.
    {
      exact (p_name _ G_name).
    }
    {
      eapply piece_cat1.
      unfold write_implementation_props.
      eapply piece_cat1.
      exact (p_text "SYMBOL" _ eq_refl G_symbol).
    }
    reflexivity.
  }
  { exact NT. }
  { apply attrs_ok_nil. }
  intros t k ktl H N. cbv beta in H. unand H.
  unfold read_symbol_props, read_implementation_props. cbn [x_attrs x_kids].
  use_facts.
  cbn [new_referrable fst snd bind].
  destruct e; reflexivity.
Qed.
Lemma rt_DataTypeMap v e : good_DataTypeMap e -> carries "DATA-TYPE-MAP" (write_data_type_map v e) (read_data_type_map v) e.
Proof.
  unfold good_DataTypeMap. intros (G_appl_data_type_ref & G_impl_data_type_ref). unfold write_data_type_map.
  eapply e_node2.
  {
    eapply piece_cons.
    {
      exact (p_child_id "APPLICATION-DATA-TYPE-REF" _ _ _ (fun a E => k_ApplicationDataTypeRef v "APPLICATION-DATA-TYPE-REF" a eq_refl (opt_in _ _ a G_appl_data_type_ref E))).
    }
    {
      eapply piece_cat1.
      exact (p_child_id "IMPLEMENTATION-DATA-TYPE-REF" _ _ _ (fun a E => k_ImplementationDataTypeRef v "IMPLEMENTATION-DATA-TYPE-REF" a eq_refl (opt_in _ _ a G_impl_data_type_ref E))).
    }
    reflexivity.
  }
  { exact eq_refl. }
  { apply attrs_ok_nil. }
  intros t k ktl H N. cbv beta in H. unand H.
  unfold read_data_type_map. cbn [x_attrs x_kids].
  use_facts.
  destruct e; reflexivity.
Qed.
Lemma rt_DataTypeMappingSet v e : good_DataTypeMappingSet e -> carries "DATA-TYPE-MAPPING-SET" (write_data_type_mapping_set v e) (read_data_type_mapping_set v) e.
Proof.
  unfold good_DataTypeMappingSet. intros (G_ident & G_data_type_maps). unfold write_data_type_mapping_set.
  eapply e_node2.
  {
    eapply p_ident; [exact G_ident| |].
    {
      eapply piece_cat1.
      exact (p_children_id "DATA-TYPE-MAPS" "DATA-TYPE-MAP" _ _ _  eq_refl (fun a I => rt_DataTypeMap v a (all_in _ _ a G_data_type_maps I))).
    }
    reflexivity.
  }
  { exact eq_refl. }
  { apply ident_attrs; exact G_ident. }
  intros t k ktl H N. cbv beta in H. unand H.
  unfold read_data_type_mapping_set, read_read_data_type_mapping_set_group. cbn [x_attrs x_kids].
  match goal with H : ident_read _ k |- _ => rewrite (H _ (with_uuid _ G_ident)); clear H end. cbn [bind].
  use_facts.
  rewrite new_ident by assumption. cbn [bind].
  destruct e; reflexivity.
Qed.
Lemma rt_ModeRequestTypeMap v e : good_ModeRequestTypeMap e -> carries "MODE-REQUEST-TYPE-MAP" (write_mode_request_type_map v e) (read_mode_request_type_map v) e.
Proof.
  unfold good_ModeRequestTypeMap. intros (G_implementation_data_type & G_mode_group). unfold write_mode_request_type_map.
  destruct (ModeRequestTypeMap_is_empty e) eqn:E.
  { clear - E. unfold ModeRequestTypeMap_is_empty in E. apply e_empty; [exact eq_refl|]. destruct e. cbn in E. emptied E. subst. reflexivity. }
  clear E.
  eapply e_node2.
  {
    eapply piece_cons.
    {
      exact (p_child_id "IMPLEMENTATION-DATA-TYPE-REF" _ _ _ (fun a E => k_ImplementationDataTypeRef v "IMPLEMENTATION-DATA-TYPE-REF" a eq_refl (opt_in _ _ a G_implementation_data_type E))).
    }
    {
      eapply piece_cat1.
      exact (p_child_id "MODE-GROUP-REF" _ _ _ (fun a E => k_ModeDeclarationGroupRef v "MODE-GROUP-REF" a eq_refl (opt_in _ _ a G_mode_group E))).
    }
    reflexivity.
  }
  { exact eq_refl. }
  { apply attrs_ok_nil. }
  intros t k ktl H N. cbv beta in H. unand H.
  unfold read_mode_request_type_map. cbn [x_attrs x_kids].
  use_facts.
  destruct e; reflexivity.
Qed.
Lemma rt_ModeDeclaration v e : good_ModeDeclaration e -> carries "MODE-DECLARATION" (write_mode_declaration v e) (read_mode_declaration v) e.
Proof.
  unfold good_ModeDeclaration. intros (G_ident & G_value). unfold write_mode_declaration.
  eapply e_node2.
  {
    eapply p_ident; [exact (ident_of _ G_ident)| |].
    {
      eapply piece_cat1.
      exact (p_child_id "VALUE" _ _ _ (fun a E => c_positive "VALUE" a eq_refl (opt_in _ _ a G_value E))).
    }
    reflexivity.
  }
  { exact eq_refl. }
  { apply attrs_ok_nil. }
  intros t k ktl H N. cbv beta in H. unand H.
  pose proof (child_none "IS-SERVICE" k rd_boolean (N "IS-SERVICE" eq_refl)).
  unfold read_mode_declaration, read_port_interface. cbn [x_attrs x_kids].
  match goal with H : ident_read _ k |- _ => rewrite (H _ (no_uuid _ G_ident)); clear H end. cbn [bind].
  use_facts.
  rewrite unexpected_none by (repeat constructor; apply N; reflexivity). cbn [bind].
  rewrite new_ident by (apply ident_of; assumption). cbn [bind].
  destruct e; reflexivity.
Qed.
Lemma rt_ModeErrorBehavior v tag e : name_okb tag = true -> good_ModeErrorBehavior e -> carries tag (write_mode_error_behavior v tag e) (read_mode_error_behavior v) e.
Proof.
  intros NT. unfold good_ModeErrorBehavior. intros G_default_mode_ref. unfold write_mode_error_behavior.
  destruct (ModeErrorBehavior_is_empty e) eqn:E.
  { clear - E NT. unfold ModeErrorBehavior_is_empty in E. apply e_empty; [exact NT|]. destruct e. cbn in E. emptied E. subst. reflexivity. }
  clear E.
  eapply e_node2.
  {
    eapply piece_cons.
    {
      exact (p_child_id "DEFAULT-MODE-REF" _ _ _ (fun a E => k_ModeDeclarationRef v "DEFAULT-MODE-REF" a eq_refl (opt_in _ _ a G_default_mode_ref E))).
    }
    {
      eapply piece_cat1.
      exact (p_child_id "ERROR-REACTION-POLICY" _ _ _ (fun a E => c_enum em_ModeErrorReactionPolicy "ERROR-REACTION-POLICY" a ok_ModeErrorReactionPolicy eq_refl)).
    }
    reflexivity.
  }
  { exact NT. }
  { apply attrs_ok_nil. }
  intros t k ktl H N. cbv beta in H. unand H.
  unfold read_mode_error_behavior. cbn [x_attrs x_kids].
  use_facts.
  destruct e; reflexivity.
Qed.
Lemma rt_ModeTransition v e : good_ModeTransition e -> carries "MODE-TRANSITION" (write_mode_transition v e) (read_mode_transition v) e.
Proof.
  unfold good_ModeTransition. intros (G_ident & G_entered_mode_ref & G_exited_mode_ref). unfold write_mode_transition.
  eapply e_node2.
  {
    eapply p_ident; [exact (ident_of _ G_ident)| |].
    {
      eapply piece_cat1.
      unfold write_mode_transition_group.
      eapply piece_cons.
      {
        exact (p_child_id "ENTERED-MODE-REF" _ _ _ (fun a E => k_ModeDeclarationRef v "ENTERED-MODE-REF" a eq_refl (opt_in _ _ a G_entered_mode_ref E))).
      }
      {
        eapply piece_cat1.
        exact (p_child_id "EXITED-MODE-REF" _ _ _ (fun a E => k_ModeDeclarationRef v "EXITED-MODE-REF" a eq_refl (opt_in _ _ a G_exited_mode_ref E))).
      }
      reflexivity.
    }
    reflexivity.
  }
  { exact eq_refl. }
  { apply attrs_ok_nil. }
  intros t k ktl H N. cbv beta in H. unand H.
  unfold read_mode_transition, read_mode_transition_group. cbn [x_attrs x_kids].
  match goal with H : ident_read _ k |- _ => rewrite (H _ (no_uuid _ G_ident)); clear H end. cbn [bind].
  use_facts.
  rewrite new_ident by (apply ident_of; assumption). cbn [bind].
  destruct e; reflexivity.
Qed.
Lemma rt_ModeDeclarationGroupPrototype v tag e : name_okb tag = true -> good_ModeDeclarationGroupPrototype e -> carries tag (write_mode_declaration_group_prototype v tag e) (read_mode_declaration_group_prototype v) e.
Proof.
  intros NT. unfold good_ModeDeclarationGroupPrototype. intros (G_ident & G_type_ref). unfold write_mode_declaration_group_prototype.
  eapply e_node2.
  {
    eapply p_ident; [exact G_ident| |].
    {
      eapply piece_cat1.
      unfold write_mode_declaration_group_prototype_data.
      eapply piece_cons.
      {
        exact (p_child_id "SW-CALIBRATION-ACCESS" _ _ _ (fun a E => c_enum em_SwCalibrationAccess "SW-CALIBRATION-ACCESS" a ok_SwCalibrationAccess eq_refl)).
      }
      {
        eapply piece_cat1.
        exact (p_child_id "TYPE-TREF" _ _ _ (fun a E => k_ModeDeclarationGroupRef v "TYPE-TREF" a eq_refl (opt_in _ _ a G_type_ref E))).
      }
      reflexivity.
    }
    reflexivity.
  }
  { exact NT. }
  { apply ident_attrs; exact G_ident. }
  intros t k ktl H N. cbv beta in H. unand H.
  unfold read_mode_declaration_group_prototype, read_mode_declaration_group_prototype_data. cbn [x_attrs x_kids].
  match goal with H : ident_read _ k |- _ => rewrite (H _ (with_uuid _ G_ident)); clear H end. cbn [bind].
  use_facts.
  rewrite new_ident by assumption. cbn [bind].
  destruct e; reflexivity.
Qed.
Lemma rt_InvalidationPolicy v e : good_InvalidationPolicy e -> carries "INVALIDATION-POLICY" (write_invalidation_policy v e) (read_invalidation_policy v) e.
Proof.
  unfold good_InvalidationPolicy. intros G_data_element_ref. unfold write_invalidation_policy.
  destruct (InvalidationPolicy_is_empty e) eqn:E.
  { clear - E. unfold InvalidationPolicy_is_empty in E. apply e_empty; [exact eq_refl|]. destruct e. cbn in E. emptied E. subst. reflexivity. }
  clear E.
  eapply e_node2.
  {
    eapply piece_cat1.
    unfold write_invalidation_policy_group.
    eapply piece_cons.
    {
      exact (p_child_id "DATA-ELEMENT-REF" _ _ _ (fun a E => k_VariableDataPrototypeRef v "DATA-ELEMENT-REF" a eq_refl (opt_in _ _ a G_data_element_ref E))).
    }
    {
      eapply piece_cat1.
      exact (p_child_id "HANDLE-INVALID" _ _ _ (fun a E => c_enum em_HandleInvalid "HANDLE-INVALID" a ok_HandleInvalid eq_refl)).
    }
    reflexivity.
  }
  { exact eq_refl. }
  { apply attrs_ok_nil. }
  intros t k ktl H N. cbv beta in H. unand H.
  unfold read_invalidation_policy. cbn [x_attrs x_kids].
  use_facts.
  destruct e; reflexivity.
Qed.
Lemma rt_ApplicationError v e : good_ApplicationError e -> carries "APPLICATION-ERROR" (write_application_error v e) (read_application_error v) e.
Proof.
  unfold good_ApplicationError. intros G_ident. unfold write_application_error.
  eapply e_node2.
  {
    eapply p_ident; [exact (ident_of _ G_ident)| |].
    {
      eapply piece_cat1.
      unfold write_application_error_group.
      eapply piece_cat1.
      exact (p_child_id "ERROR-CODE" _ _ _ (fun a E => c_integer "ERROR-CODE" a eq_refl)).
    }
    reflexivity.
  }
  { exact eq_refl. }
  { apply attrs_ok_nil. }
  intros t k ktl H N. cbv beta in H. unand H.
  unfold read_application_error, read_application_error_group. cbn [x_attrs x_kids].
  match goal with H : ident_read _ k |- _ => rewrite (H _ (no_uuid _ G_ident)); clear H end. cbn [bind].
  use_facts.
  rewrite new_ident by (apply ident_of; assumption). cbn [bind].
  destruct e; reflexivity.
Qed.
Lemma rt_ModeSwitchInterface v e : good_ModeSwitchInterface e -> carries "MODE-SWITCH-INTERFACE" (write_mode_switch_interface v e) (read_mode_switch_interface v) e.
Proof.
  unfold good_ModeSwitchInterface. intros (G_ident & G_service_kind & G_mode_group). unfold write_mode_switch_interface.
  eapply e_node2.
  {
    eapply p_ident; [exact (ident_of _ G_ident)| |].
    {
      eapply piece_cons.
      {
        unfold write_port_interface.
        eapply piece_cons.
        {
          exact (p_child_id "IS-SERVICE" _ _ _ (fun a E => c_bool "IS-SERVICE" a eq_refl)).
        }
        {
          eapply piece_cat1.
          exact (p_off _ _ G_service_kind).
        }
        reflexivity.
      }
      {
        eapply piece_cat1.
        exact (p_child_id "MODE-GROUP" _ _ _ (fun a E => rt_ModeDeclarationGroupPrototype v "MODE-GROUP" a eq_refl (opt_in _ _ a G_mode_group E))).
      }
      reflexivity.
    }
    reflexivity.
  }
  { exact eq_refl. }
  { apply attrs_ok_nil. }
  intros t k ktl H N. cbv beta in H. unand H.
  unfold read_mode_switch_interface, read_port_interface. cbn [x_attrs x_kids].
  match goal with H : ident_read _ k |- _ => rewrite (H _ (no_uuid _ G_ident)); clear H end. cbn [bind].
  use_facts.
  rewrite new_ident by (apply ident_of; assumption). cbn [bind].
  transitivity (Ok (mkModeSwitchInterface (ModeSwitchInterface_ident e) (ModeSwitchInterface_is_service e) (ModeSwitchInterface_service_kind e) (ModeSwitchInterface_mode_group e))); [rewrite G_service_kind; reflexivity|destruct e; reflexivity].
Qed.
Lemma rt_EndToEndTransformationComSpecProps v e : good_EndToEndTransformationComSpecProps e -> carries "END-TO-END-TRANSFORMATION-COM-SPEC-PROPS" (write_e2e_transformation_com_spec_props v e) (read_e2e_transformation_com_spec_props v) e.
Proof.
  unfold good_EndToEndTransformationComSpecProps. intros (G_desc & G_category & G_introduction & G_admin_data & G_e2e_profile_compatibility_props_ref & G_max_delta_counter & G_max_error_state_init & G_max_error_state_invalid & G_max_error_state_valid & G_max_no_new_repeated_data & G_min_ok_state_init & G_min_ok_state_invalid & G_min_ok_state_valid & G_sync_counter_init & G_window_size & G_window_size_init & G_window_size_invalid & G_window_size_valid). unfold write_e2e_transformation_com_spec_props.
  destruct (EndToEndTransformationComSpecProps_is_empty e) eqn:E.
  { clear - E. unfold EndToEndTransformationComSpecProps_is_empty in E. apply e_empty; [exact eq_refl|]. destruct e. cbn in E. emptied E. subst. reflexivity. }
  clear E.
  eapply e_node2.
  {
    eapply piece_cons.
    {
      unfold write_describable.
      eapply piece_cons.
      {
        exact (p_child_id "DESC" _ _ _ (fun a E => c_langs "DESC" "L-2" a eq_refl eq_refl (opt_in _ _ a G_desc E))).
      }
      {
        eapply piece_cons.
        {
          exact (p_text "CATEGORY" _ eq_refl G_category).
        }
        {
          eapply piece_cons.
          {
            exact (p_child_id "INTRODUCTION" _ _ _ (fun a E => c_doc "INTRODUCTION" a eq_refl (opt_in _ _ a G_introduction E))).
          }
          {
            eapply piece_cat1.
            exact (p_off _ _ G_admin_data).
          }
          reflexivity.
        }
        reflexivity.
      }
      reflexivity.
    }
    {
      eapply piece_cat1.
      unfold write_e2e_transformation_com_spec_props_group.
      eapply piece_cons.
      {
        exact (p_child_id "CLEAR-FROM-VALID-TO-INVALID" _ _ _ (fun a E => c_bool "CLEAR-FROM-VALID-TO-INVALID" a eq_refl)).
      }
      {
        eapply piece_cons.
        {
          exact (p_child_id "DISABLE-END-TO-END-CHECK" _ _ _ (fun a E => c_bool "DISABLE-END-TO-END-CHECK" a eq_refl)).
        }
        {
          eapply piece_cons.
          {
            exact (p_child_id "DISABLE-END-TO-END-STATE-MACHINE" _ _ _ (fun a E => c_bool "DISABLE-END-TO-END-STATE-MACHINE" a eq_refl)).
          }
          {
            eapply piece_cons.
            {
              exact (p_child_id "E-2-E-PROFILE-COMPATIBILITY-PROPS-REF" _ _ _ (fun a E => k_E2EProfileCompatibilityPropsRef v "E-2-E-PROFILE-COMPATIBILITY-PROPS-REF" a eq_refl (opt_in _ _ a G_e2e_profile_compatibility_props_ref E))).
            }
            {
              eapply piece_cons.
              {
                exact (p_child_id "MAX-DELTA-COUNTER" _ _ _ (fun a E => c_positive "MAX-DELTA-COUNTER" a eq_refl (opt_in _ _ a G_max_delta_counter E))).
              }
              {
                eapply piece_cons.
                {
                  exact (p_child_id "MAX-ERROR-STATE-INIT" _ _ _ (fun a E => c_positive "MAX-ERROR-STATE-INIT" a eq_refl (opt_in _ _ a G_max_error_state_init E))).
                }
                {
                  eapply piece_cons.
                  {
                    exact (p_child_id "MAX-ERROR-STATE-INVALID" _ _ _ (fun a E => c_positive "MAX-ERROR-STATE-INVALID" a eq_refl (opt_in _ _ a G_max_error_state_invalid E))).
                  }
                  {
                    eapply piece_cons.
                    {
                      exact (p_child_id "MAX-ERROR-STATE-VALID" _ _ _ (fun a E => c_positive "MAX-ERROR-STATE-VALID" a eq_refl (opt_in _ _ a G_max_error_state_valid E))).
                    }
                    {
                      eapply piece_cons.
                      {
                        exact (p_child_id "MAX-NO-NEW-OR-REPEATED-DATA" _ _ _ (fun a E => c_positive "MAX-NO-NEW-OR-REPEATED-DATA" a eq_refl (opt_in _ _ a G_max_no_new_repeated_data E))).
                      }
                      {
                        eapply piece_cons.
                        {
                          exact (p_child_id "MIN-OK-STATE-INIT" _ _ _ (fun a E => c_positive "MIN-OK-STATE-INIT" a eq_refl (opt_in _ _ a G_min_ok_state_init E))).
                        }
                        {
                          eapply piece_cons.
                          {
                            exact (p_child_id "MIN-OK-STATE-INVALID" _ _ _ (fun a E => c_positive "MIN-OK-STATE-INVALID" a eq_refl (opt_in _ _ a G_min_ok_state_invalid E))).
                          }
                          {
                            eapply piece_cons.
                            {
                              exact (p_child_id "MIN-OK-STATE-VALID" _ _ _ (fun a E => c_positive "MIN-OK-STATE-VALID" a eq_refl (opt_in _ _ a G_min_ok_state_valid E))).
                            }
                            {
                              eapply piece_cons.
                              {
                                exact (p_child_id "SYNC-COUNTER-INIT" _ _ _ (fun a E => c_positive "SYNC-COUNTER-INIT" a eq_refl (opt_in _ _ a G_sync_counter_init E))).
                              }
                              {
                                eapply piece_cons.
                                {
                                  exact (p_child_id "WINDOW-SIZE" _ _ _ (fun a E => c_positive "WINDOW-SIZE" a eq_refl (opt_in _ _ a G_window_size E))).
                                }
                                {
                                  eapply piece_cons.
                                  {
                                    exact (p_child_id "WINDOW-SIZE-INIT" _ _ _ (fun a E => c_positive "WINDOW-SIZE-INIT" a eq_refl (opt_in _ _ a G_window_size_init E))).
                                  }
                                  {
                                    eapply piece_cons.
                                    {
                                      exact (p_child_id "WINDOW-SIZE-INVALID" _ _ _ (fun a E => c_positive "WINDOW-SIZE-INVALID" a eq_refl (opt_in _ _ a G_window_size_invalid E))).
                                    }
                                    {
                                      eapply piece_cat1.
                                      exact (p_child_id "WINDOW-SIZE-VALID" _ _ _ (fun a E => c_positive "WINDOW-SIZE-VALID" a eq_refl (opt_in _ _ a G_window_size_valid E))).
                                    }
                                    reflexivity.
                                  }
                                  reflexivity.
                                }
                                reflexivity.
                              }
                              reflexivity.
                            }
                            reflexivity.
                          }
                          reflexivity.
                        }
                        reflexivity.
                      }
                      reflexivity.
                    }
                    reflexivity.
                  }
                  reflexivity.
                }
                reflexivity.
              }
              reflexivity.
            }
            reflexivity.
          }
          reflexivity.
        }
        reflexivity.
      }
      reflexivity.
    }
    reflexivity.
  }
  { exact eq_refl. }
  { apply attrs_ok_nil. }
  intros t k ktl H N. cbv beta in H. unand H.
  unfold read_e2e_transformation_com_spec_props, read_describable, read_e2e_transformation_com_spec_props_group. cbn [x_attrs x_kids].
  use_facts.
  transitivity (Ok (mkEndToEndTransformationComSpecProps (EndToEndTransformationComSpecProps_desc e) (EndToEndTransformationComSpecProps_category e) (EndToEndTransformationComSpecProps_introduction e) (EndToEndTransformationComSpecProps_admin_data e) (EndToEndTransformationComSpecProps_clear_from_valid_to_invalid e) (EndToEndTransformationComSpecProps_disable_e2e_check e) (EndToEndTransformationComSpecProps_disable_e2e_state_machine e) (EndToEndTransformationComSpecProps_e2e_profile_compatibility_props_ref e) (EndToEndTransformationComSpecProps_max_delta_counter e) (EndToEndTransformationComSpecProps_max_error_state_init e) (EndToEndTransformationComSpecProps_max_error_state_invalid e) (EndToEndTransformationComSpecProps_max_error_state_valid e) (EndToEndTransformationComSpecProps_max_no_new_repeated_data e) (EndToEndTransformationComSpecProps_min_ok_state_init e) (EndToEndTransformationComSpecProps_min_ok_state_invalid e) (EndToEndTransformationComSpecProps_min_ok_state_valid e) (EndToEndTransformationComSpecProps_sync_counter_init e) (EndToEndTransformationComSpecProps_window_size e) (EndToEndTransformationComSpecProps_window_size_init e) (EndToEndTransformationComSpecProps_window_size_invalid e) (EndToEndTransformationComSpecProps_window_size_valid e))); [rewrite G_admin_data; reflexivity|destruct e; reflexivity].
Qed.
Lemma rt_E2EProfileCompatibilityProps v e : good_E2EProfileCompatibilityProps e -> carries "E-2-E-PROFILE-COMPATIBILITY-PROPS" (write_e2e_profile_compatibility_props v e) (read_e2e_profile_compatibility_props v) e.
Proof.
  unfold good_E2EProfileCompatibilityProps. intros G_ident. unfold write_e2e_profile_compatibility_props.
  eapply e_node2.
  {
    eapply p_ident; [exact (ident_of _ G_ident)| |].
    {
      eapply piece_cat1.
      exact (p_child_id "TRANSIT-TO-INVALID-EXTENDED" _ _ _ (fun a E => c_bool "TRANSIT-TO-INVALID-EXTENDED" a eq_refl)).
    }
    reflexivity.
  }
  { exact eq_refl. }
  { apply attrs_ok_nil. }
  intros t k ktl H N. cbv beta in H. unand H.
  unfold read_e2e_profile_compatibility_props, read_e2e_profile_compatibility_props_group. cbn [x_attrs x_kids].
  match goal with H : ident_read _ k |- _ => rewrite (H _ (no_uuid _ G_ident)); clear H end. cbn [bind].
  use_facts.
  rewrite new_ident by (apply ident_of; assumption). cbn [bind].
  destruct e; reflexivity.
Qed.
Lemma rt_ModeSwitchedAckRequest v e : good_ModeSwitchedAckRequest e -> carries "MODE-SWITCHED-ACK" (write_mode_switched_ack_request v e) (read_mode_switched_ack_request v) e.
Proof.
  unfold good_ModeSwitchedAckRequest. intros G_timeout. unfold write_mode_switched_ack_request.
  destruct (ModeSwitchedAckRequest_is_empty e) eqn:E.
  { clear - E. unfold ModeSwitchedAckRequest_is_empty in E. apply e_empty; [exact eq_refl|]. destruct e. cbn in E. emptied E. subst. reflexivity. }
  clear E.
  eapply e_node2.
  {
    eapply piece_cat1.
    exact (p_child "TIMEOUT" _ _ _ reread (fun a E => c_real_float "TIMEOUT" a eq_refl (opt_in _ _ a G_timeout E))).
  }
  { exact eq_refl. }
  { apply attrs_ok_nil. }
  intros t k ktl H N. cbv beta in H. unand H.
  unfold read_mode_switched_ack_request. cbn [x_attrs x_kids].
  use_facts.
  rewrite (as_float_opt _ G_timeout).
  destruct e; reflexivity.
Qed.
Lemma rt_ModeSwitchSenderComSpec v e : good_ModeSwitchSenderComSpec e -> carries "MODE-SWITCH-SENDER-COM-SPEC" (write_mode_switch_sender_com_spec v e) (read_mode_switch_sender_com_spec v) e.
Proof.
  unfold good_ModeSwitchSenderComSpec. intros (G_mode_group_ref & G_mode_switched_ack & G_queue_length). unfold write_mode_switch_sender_com_spec.
  destruct (ModeSwitchSenderComSpec_is_empty e) eqn:E.
  { clear - E. unfold ModeSwitchSenderComSpec_is_empty in E. apply e_empty; [exact eq_refl|]. destruct e. cbn in E. emptied E. subst. reflexivity. }
  clear E.
  eapply e_node2.
  {
    eapply piece_cat1.
    unfold write_mode_switch_sender_com_spec_group.
    eapply piece_cons.
    {
      exact (p_child_id "ENHANCED-MODE-API" _ _ _ (fun a E => c_bool "ENHANCED-MODE-API" a eq_refl)).
    }
    {
      eapply piece_cons.
      {
        exact (p_child_id "MODE-GROUP-REF" _ _ _ (fun a E => k_ModeDeclarationGroupPrototypeRef v "MODE-GROUP-REF" a eq_refl (opt_in _ _ a G_mode_group_ref E))).
      }
      {
        eapply piece_cons.
        {
          exact (p_child_id "MODE-SWITCHED-ACK" _ _ _ (fun a E => rt_ModeSwitchedAckRequest v a (opt_in _ _ a G_mode_switched_ack E))).
        }
        {
          eapply piece_cat1.
          exact (p_child_id "QUEUE-LENGTH" _ _ _ (fun a E => c_positive "QUEUE-LENGTH" a eq_refl (opt_in _ _ a G_queue_length E))).
        }
        reflexivity.
      }
      reflexivity.
    }
    reflexivity.
  }
  { exact eq_refl. }
  { apply attrs_ok_nil. }
  intros t k ktl H N. cbv beta in H. unand H.
  unfold read_mode_switch_sender_com_spec. cbn [x_attrs x_kids].
  use_facts.
  destruct e; reflexivity.
Qed.
Lemma rt_TransmissionAcknowledgementRequest v e : good_TransmissionAcknowledgementRequest e -> carries "TRANSMISSION-ACKNOWLEDGE" (write_transmission_acknowledgement_request v e) (read_transmission_acknowledgement_request v) e.
Proof.
  unfold good_TransmissionAcknowledgementRequest. intros G_timeout. unfold write_transmission_acknowledgement_request.
  destruct (TransmissionAcknowledgementRequest_is_empty e) eqn:E.
  { clear - E. unfold TransmissionAcknowledgementRequest_is_empty in E. apply e_empty; [exact eq_refl|]. destruct e. cbn in E. emptied E. subst. reflexivity. }
  clear E.
  eapply e_node2.
  {
    eapply piece_cat1.
    exact (p_child "TIMEOUT" _ _ _ reread (fun a E => c_real_float "TIMEOUT" a eq_refl (opt_in _ _ a G_timeout E))).
  }
  { exact eq_refl. }
  { apply attrs_ok_nil. }
  intros t k ktl H N. cbv beta in H. unand H.
  unfold read_transmission_acknowledgement_request. cbn [x_attrs x_kids].
  use_facts.
  rewrite (as_float_opt _ G_timeout).
  destruct e; reflexivity.
Qed.
Lemma rt_TransmissionComSpecProps v e : good_TransmissionComSpecProps e -> carries "TRANSMISSION-PROPS" (write_tranmsission_com_spec_props v e) (read_tranmsission_com_spec_props v) e.
Proof.
  unfold good_TransmissionComSpecProps. intros (G_data_update_period & G_minimum_send_interval). unfold write_tranmsission_com_spec_props.
  destruct (TransmissionComSpecProps_is_empty e) eqn:E.
  { clear - E. unfold TransmissionComSpecProps_is_empty in E. apply e_empty; [exact eq_refl|]. destruct e. cbn in E. emptied E. subst. reflexivity. }
  clear E.
  eapply e_node2.
  {
    eapply piece_cons.
    {
      exact (p_child "DATA-UPDATE-PERIOD" _ _ _ reread (fun a E => c_real_float "DATA-UPDATE-PERIOD" a eq_refl (opt_in _ _ a G_data_update_period E))).
    }
    {
      eapply piece_cons.
      {
        exact (p_child "MINIMUM-SEND-INTERVAL" _ _ _ reread (fun a E => c_real_float "MINIMUM-SEND-INTERVAL" a eq_refl (opt_in _ _ a G_minimum_send_interval E))).
      }
      {
        eapply piece_cat1.
        exact (p_child_id "TRANSMISSION-MODE" _ _ _ (fun a E => c_enum em_TransmissionMode "TRANSMISSION-MODE" a ok_TransmissionMode eq_refl)).
      }
      reflexivity.
    }
    reflexivity.
  }
  { exact eq_refl. }
  { apply attrs_ok_nil. }
  intros t k ktl H N. cbv beta in H. unand H.
  unfold read_tranmsission_com_spec_props. cbn [x_attrs x_kids].
  use_facts.
  rewrite (as_float_opt _ G_data_update_period).
  rewrite (as_float_opt _ G_minimum_send_interval).
  destruct e; reflexivity.
Qed.
Lemma rt_ServerComSpec v e : good_ServerComSpec e -> carries "SERVER-COM-SPEC" (write_server_com_spec v e) (read_server_com_spec v) e.
Proof.
  unfold good_ServerComSpec. intros (G_operation_ref & G_queue_length & G_transformation_com_spec_props). unfold write_server_com_spec.
  destruct (ServerComSpec_is_empty e) eqn:E.
  { clear - E. unfold ServerComSpec_is_empty in E. apply e_empty; [exact eq_refl|]. destruct e. cbn in E. emptied E. subst. reflexivity. }
  clear E.
  eapply e_node2.
  {
    eapply piece_cons.
    {
      exact (p_child_id "OPERATION-REF" _ _ _ (fun a E => k_ClientServerOperationRef v "OPERATION-REF" a eq_refl (opt_in _ _ a G_operation_ref E))).
    }
    {
      eapply piece_cons.
      {
        exact (p_child_id "QUEUE-LENGTH" _ _ _ (fun a E => c_positive "QUEUE-LENGTH" a eq_refl (opt_in _ _ a G_queue_length E))).
      }
      {
        eapply piece_cat1.
        exact (p_children_id "TRANSFORMATION-COM-SPEC-PROPSS" "END-TO-END-TRANSFORMATION-COM-SPEC-PROPS" _ _ _  eq_refl (fun a I => rt_EndToEndTransformationComSpecProps v a (all_in _ _ a G_transformation_com_spec_props I))).
      }
      reflexivity.
    }
    reflexivity.
  }
  { exact eq_refl. }
  { apply attrs_ok_nil. }
  intros t k ktl H N. cbv beta in H. unand H.
  unfold read_server_com_spec, read_server_com_spec_group. cbn [x_attrs x_kids].
  use_facts.
  destruct e; reflexivity.
Qed.
Lemma rt_ModeSwitchReceiverComSpec v e : good_ModeSwitchReceiverComSpec e -> carries "MODE-SWITCH-RECEIVER-COM-SPEC" (write_mode_switch_receiver_com_spec v e) (read_mode_switch_receiver_com_spec v) e.
Proof.
  unfold good_ModeSwitchReceiverComSpec. intros G_mode_group_ref. unfold write_mode_switch_receiver_com_spec.
  destruct (ModeSwitchReceiverComSpec_is_empty e) eqn:E.
  { clear - E. unfold ModeSwitchReceiverComSpec_is_empty in E. apply e_empty; [exact eq_refl|]. destruct e. cbn in E. emptied E. subst. reflexivity. }
  clear E.
  eapply e_node2.
  {
    eapply piece_cons.
    {
      exact (p_child_id "ENHANCED-MODE-API" _ _ _ (fun a E => c_bool "ENHANCED-MODE-API" a eq_refl)).
    }
    {
      eapply piece_cons.
      {
        exact (p_child_id "MODE-GROUP-REF" _ _ _ (fun a E => k_ModeDeclarationGroupPrototypeRef v "MODE-GROUP-REF" a eq_refl (opt_in _ _ a G_mode_group_ref E))).
      }
      {
        eapply piece_cat1.
        exact (p_child_id "SUPPORTS-ASYNCHRONOUS-MODE-SWITCH" _ _ _ (fun a E => c_bool "SUPPORTS-ASYNCHRONOUS-MODE-SWITCH" a eq_refl)).
      }
      reflexivity.
    }
    reflexivity.
  }
  { exact eq_refl. }
  { apply attrs_ok_nil. }
  intros t k ktl H N. cbv beta in H. unand H.
  unfold read_mode_switch_receiver_com_spec. cbn [x_attrs x_kids].
  use_facts.
  destruct e; reflexivity.
Qed.
Lemma rt_ClientComSpec v e : good_ClientComSpec e -> carries "CLIENT-COM-SPEC" (write_client_com_spec v e) (read_client_com_spec v) e.
Proof.
  unfold good_ClientComSpec. intros (G_operation_ref & G_e2e_call_respone_timeout & G_transformation_com_spec_props). unfold write_client_com_spec.
  destruct (ClientComSpec_is_empty e) eqn:E.
  { clear - E. unfold ClientComSpec_is_empty in E. apply e_empty; [exact eq_refl|]. destruct e. cbn in E. emptied E. subst. reflexivity. }
  clear E.
  eapply e_node2.
  {
    eapply piece_cons.
    {
      exact (p_child "END-TO-END-CALL-RESPONSE-TIMEOUT" _ _ _ reread (fun a E => c_real_float "END-TO-END-CALL-RESPONSE-TIMEOUT" a eq_refl (opt_in _ _ a G_e2e_call_respone_timeout E))).
    }
    {
      eapply piece_cons.
      {
        exact (p_child_id "OPERATION-REF" _ _ _ (fun a E => k_ClientServerOperationRef v "OPERATION-REF" a eq_refl (opt_in _ _ a G_operation_ref E))).
      }
      {
        eapply piece_cat1.
        exact (p_children_id "TRANSFORMATION-COM-SPEC-PROPSS" "END-TO-END-TRANSFORMATION-COM-SPEC-PROPS" _ _ _  eq_refl (fun a I => rt_EndToEndTransformationComSpecProps v a (all_in _ _ a G_transformation_com_spec_props I))).
      }
      reflexivity.
    }
    reflexivity.
  }
  { exact eq_refl. }
  { apply attrs_ok_nil. }
  intros t k ktl H N. cbv beta in H. unand H.
  unfold read_client_com_spec, read_client_com_spec_group. cbn [x_attrs x_kids].
  use_facts.
  rewrite (as_float_opt _ G_e2e_call_respone_timeout).
  destruct e; reflexivity.
Qed.
Lemma rt_PassThroughSwConnector v e : good_PassThroughSwConnector e -> carries "PASS-THROUGH-SW-CONNECTOR" (write_passthrough_sw_connector v e) (read_pass_through_sw_connector v) e.
Proof.
  unfold good_PassThroughSwConnector. intros (G_ident & G_provide_port & G_require_port). unfold write_passthrough_sw_connector.
  eapply e_node2.
  {
    eapply p_ident; [exact (ident_of _ G_ident)| |].
    {
      eapply piece_cons.
      {
        exact (p_child_id "PROVIDED-OUTER-PORT-REF" _ _ _ (fun a E => k_PortPrototypeRef v "PROVIDED-OUTER-PORT-REF" a eq_refl (opt_in _ _ a G_provide_port E))).
      }
      {
        eapply piece_cat1.
        exact (p_child_id "REQUIRED-OUTER-PORT-REF" _ _ _ (fun a E => k_PortPrototypeRef v "REQUIRED-OUTER-PORT-REF" a eq_refl (opt_in _ _ a G_require_port E))).
      }
      reflexivity.
    }
    reflexivity.
  }
  { exact eq_refl. }
  { apply attrs_ok_nil. }
  intros t k ktl H N. cbv beta in H. unand H.
  unfold read_pass_through_sw_connector, read_sw_connector. cbn [x_attrs x_kids].
  match goal with H : ident_read _ k |- _ => rewrite (H _ (no_uuid _ G_ident)); clear H end. cbn [bind].
  use_facts.
  rewrite new_ident by (apply ident_of; assumption). cbn [bind].
  destruct e; reflexivity.
Qed.
Lemma rt_SwcImplementation v e : good_SwcImplementation e -> carries "SWC-IMPLEMENTATION" (write_swc_implementation v e) (read_swc_implementation v) e.
Proof.
  unfold good_SwcImplementation. intros (G_ident & G_code_descriptors & G_behavior_ref & G_required_rte_vendor). unfold write_swc_implementation.
  eapply e_node2.
  {
    eapply p_ident; [exact (ident_of _ G_ident)| |].
    {
      eapply piece_cons.
      {
        unfold write_implementtion.
        eapply piece_cat1.
        exact (p_children_id "CODE-DESCRIPTORS" "CODE" _ _ _  eq_refl (fun a I => rt_Code v a (all_in _ _ a G_code_descriptors I))).
      }
      {
        eapply piece_cat1.
        unfold write_swc_implementation_group.
        eapply piece_cons.
        {
          exact (p_child_id "BEHAVIOR-REF" _ _ _ (fun a E => k_SwcInternalBehaviorRef v "BEHAVIOR-REF" a eq_refl (opt_in _ _ a G_behavior_ref E))).
        }
        {
          eapply piece_cat1.
          exact (p_text "REQUIRED-RTE-VENDOR" _ eq_refl G_required_rte_vendor).
        }
        reflexivity.
      }
      reflexivity.
    }
    reflexivity.
  }
  { exact eq_refl. }
  { apply attrs_ok_nil. }
  intros t k ktl H N. cbv beta in H. unand H.
  unfold read_swc_implementation, read_implementation, read_swc_implementation_group. cbn [x_attrs x_kids].
  match goal with H : ident_read _ k |- _ => rewrite (H _ (no_uuid _ G_ident)); clear H end. cbn [bind].
  use_facts.
  rewrite new_ident by (apply ident_of; assumption). cbn [bind].
  destruct e; reflexivity.
Qed.
Lemma rt_PModeGroupInAtomicSwcInstanceRef v tag e : name_okb tag = true -> good_PModeGroupInAtomicSwcInstanceRef e -> carries tag (write_p_mode_group_in_atomic_swc_instance_ref v tag e) (read_p_mode_group_in_atomic_swc_instance_ref v) e.
Proof.
  intros NT. unfold good_PModeGroupInAtomicSwcInstanceRef. intros (G_context_port & G_target_mode_group). unfold write_p_mode_group_in_atomic_swc_instance_ref.
  destruct (PModeGroupInAtomicSwcInstanceRef_is_empty e) eqn:E.
  { clear - E NT. unfold PModeGroupInAtomicSwcInstanceRef_is_empty in E. apply e_empty; [exact NT|]. destruct e. cbn in E. emptied E. subst. reflexivity. }
  clear E.
  eapply e_node2.
  {
    eapply piece_cons.
    {
      exact (p_child_id "CONTEXT-P-PORT-REF" _ _ _ (fun a E => k_AbstractProvidedPortPrototypeRef v "CONTEXT-P-PORT-REF" a eq_refl (opt_in _ _ a G_context_port E))).
    }
    {
      eapply piece_cat1.
      exact (p_child_id "TARGET-MODE-GROUP-REF" _ _ _ (fun a E => k_ModeDeclarationGroupPrototypeRef v "TARGET-MODE-GROUP-REF" a eq_refl (opt_in _ _ a G_target_mode_group E))).
    }
    reflexivity.
  }
  { exact NT. }
  { apply attrs_ok_nil. }
  intros t k ktl H N. cbv beta in H. unand H.
  unfold read_p_mode_group_in_atomic_swc_instance_ref. cbn [x_attrs x_kids].
  use_facts.
  destruct e; reflexivity.
Qed.
Lemma rt_POperationInAtomicSwcInstanceRef v e : good_POperationInAtomicSwcInstanceRef e -> carries "OPERATION-IREF" (write_p_operation_in_atomic_swc_instance_ref v e) (read_p_operation_in_atomic_swc_instance_ref v) e.
Proof.
  unfold good_POperationInAtomicSwcInstanceRef. intros (G_context_port & G_target_provided_operation). unfold write_p_operation_in_atomic_swc_instance_ref.
  destruct (POperationInAtomicSwcInstanceRef_is_empty e) eqn:E.
  { clear - E. unfold POperationInAtomicSwcInstanceRef_is_empty in E. apply e_empty; [exact eq_refl|]. destruct e. cbn in E. emptied E. subst. reflexivity. }
  clear E.
  eapply e_node2.
  {
    eapply piece_cons.
    {
      exact (p_child_id "CONTEXT-P-PORT-REF" _ _ _ (fun a E => k_AbstractProvidedPortPrototypeRef v "CONTEXT-P-PORT-REF" a eq_refl (opt_in _ _ a G_context_port E))).
    }
    {
      eapply piece_cat1.
      exact (p_child_id "TARGET-PROVIDED-OPERATION-REF" _ _ _ (fun a E => k_ClientServerOperationRef v "TARGET-PROVIDED-OPERATION-REF" a eq_refl (opt_in _ _ a G_target_provided_operation E))).
    }
    reflexivity.
  }
  { exact eq_refl. }
  { apply attrs_ok_nil. }
  intros t k ktl H N. cbv beta in H. unand H.
  unfold read_p_operation_in_atomic_swc_instance_ref. cbn [x_attrs x_kids].
  use_facts.
  destruct e; reflexivity.
Qed.
Lemma rt_PTriggerInAtomicSwcTypeInstanceRef v tag e : name_okb tag = true -> good_PTriggerInAtomicSwcTypeInstanceRef e -> carries tag (write_p_trigger_in_atomic_swc_instance_ref v tag e) (read_p_trigger_in_atomic_swc_instance_ref v) e.
Proof.
  intros NT. unfold good_PTriggerInAtomicSwcTypeInstanceRef. intros (G_context_port & G_target_trigger). unfold write_p_trigger_in_atomic_swc_instance_ref.
  destruct (PTriggerInAtomicSwcTypeInstanceRef_is_empty e) eqn:E.
  { clear - E NT. unfold PTriggerInAtomicSwcTypeInstanceRef_is_empty in E. apply e_empty; [exact NT|]. destruct e. cbn in E. emptied E. subst. reflexivity. }
  clear E.
  eapply e_node2.
  {
    eapply piece_cons.
    {
      exact (p_child_id "CONTEXT-P-PORT-REF" _ _ _ (fun a E => k_AbstractProvidedPortPrototypeRef v "CONTEXT-P-PORT-REF" a eq_refl (opt_in _ _ a G_context_port E))).
    }
    {
      eapply piece_cat1.
      exact (p_child_id "TARGET-TRIGGER-REF" _ _ _ (fun a E => k_TriggerRef v "TARGET-TRIGGER-REF" a eq_refl (opt_in _ _ a G_target_trigger E))).
    }
    reflexivity.
  }
  { exact NT. }
  { apply attrs_ok_nil. }
  intros t k ktl H N. cbv beta in H. unand H.
  unfold read_p_trigger_in_atomic_swc_instance_ref. cbn [x_attrs x_kids].
  use_facts.
  destruct e; reflexivity.
Qed.
Lemma rt_RModeInAtomicSwcInstanceRef v tag e : name_okb tag = true -> good_RModeInAtomicSwcInstanceRef e -> carries tag (write_r_mode_in_atomic_swc_instance_ref v tag e) (read_r_mode_in_atomic_swc_instance_ref v) e.
Proof.
  intros NT. unfold good_RModeInAtomicSwcInstanceRef. intros (G_context_port & G_context_mode_declaration_group_prototype & G_target_mode_declaration). unfold write_r_mode_in_atomic_swc_instance_ref.
  destruct (RModeInAtomicSwcInstanceRef_is_empty e) eqn:E.
  { clear - E NT. unfold RModeInAtomicSwcInstanceRef_is_empty in E. apply e_empty; [exact NT|]. destruct e. cbn in E. emptied E. subst. reflexivity. }
  clear E.
  eapply e_node2.
  {
    eapply piece_cons.
    {
      exact (p_child_id "CONTEXT-PORT-REF" _ _ _ (fun a E => k_AbstractRequiredPortPrototypeRef v "CONTEXT-PORT-REF" a eq_refl (opt_in _ _ a G_context_port E))).
    }
    {
      eapply piece_cons.
      {
        exact (p_child_id "CONTEXT-MODE-DECLARATION-GROUP-PROTOTYPE-REF" _ _ _ (fun a E => k_ModeDeclarationGroupPrototypeRef v "CONTEXT-MODE-DECLARATION-GROUP-PROTOTYPE-REF" a eq_refl (opt_in _ _ a G_context_mode_declaration_group_prototype E))).
      }
      {
        eapply piece_cat1.
        exact (p_child_id "TARGET-MODE-DECLARATION-REF" _ _ _ (fun a E => k_ModeDeclarationRef v "TARGET-MODE-DECLARATION-REF" a eq_refl (opt_in _ _ a G_target_mode_declaration E))).
      }
      reflexivity.
    }
    reflexivity.
  }
  { exact NT. }
  { apply attrs_ok_nil. }
  intros t k ktl H N. cbv beta in H. unand H.
  unfold read_r_mode_in_atomic_swc_instance_ref. cbn [x_attrs x_kids].
  use_facts.
  destruct e; reflexivity.
Qed.
Lemma rt_RModeGroupInAtomicSwcInstanceRef v e : good_RModeGroupInAtomicSwcInstanceRef e -> carries "R-MODE-GROUP-IN-ATOMIC-SWC-INSTANCE-REF" (write_r_mode_group_in_atomic_swc_instance_ref v e) (read_r_mode_group_in_atomic_swc_instance_ref v) e.
Proof.
  unfold good_RModeGroupInAtomicSwcInstanceRef. intros (G_context_port & G_target_mode_group). unfold write_r_mode_group_in_atomic_swc_instance_ref.
  destruct (RModeGroupInAtomicSwcInstanceRef_is_empty e) eqn:E.
  { clear - E. unfold RModeGroupInAtomicSwcInstanceRef_is_empty in E. apply e_empty; [exact eq_refl|]. destruct e. cbn in E. emptied E. subst. reflexivity. }
  clear E.
  eapply e_node2.
  {
    eapply piece_cons.
    {
      exact (p_child_id "CONTEXT-R-PORT-REF" _ _ _ (fun a E => k_AbstractRequiredPortPrototypeRef v "CONTEXT-R-PORT-REF" a eq_refl (opt_in _ _ a G_context_port E))).
    }
    {
      eapply piece_cat1.
      exact (p_child_id "TARGET-MODE-GROUP-REF" _ _ _ (fun a E => k_ModeDeclarationGroupPrototypeRef v "TARGET-MODE-GROUP-REF" a eq_refl (opt_in _ _ a G_target_mode_group E))).
    }
    reflexivity.
  }
  { exact eq_refl. }
  { apply attrs_ok_nil. }
  intros t k ktl H N. cbv beta in H. unand H.
  unfold read_r_mode_group_in_atomic_swc_instance_ref. cbn [x_attrs x_kids].
  use_facts.
  destruct e; reflexivity.
Qed.
Lemma rt_ROperationInAtomicSwcInstanceRef v e : good_ROperationInAtomicSwcInstanceRef e -> carries "OPERATION-IREF" (write_r_operation_in_atomic_swc_instance_ref v e) (read_r_operation_in_atomic_swc_instance_ref v) e.
Proof.
  unfold good_ROperationInAtomicSwcInstanceRef. intros (G_context_port & G_target_required_operation). unfold write_r_operation_in_atomic_swc_instance_ref.
  destruct (ROperationInAtomicSwcInstanceRef_is_empty e) eqn:E.
  { clear - E. unfold ROperationInAtomicSwcInstanceRef_is_empty in E. apply e_empty; [exact eq_refl|]. destruct e. cbn in E. emptied E. subst. reflexivity. }
  clear E.
  eapply e_node2.
  {
    eapply piece_cons.
    {
      exact (p_child_id "CONTEXT-R-PORT-REF" _ _ _ (fun a E => k_AbstractRequiredPortPrototypeRef v "CONTEXT-R-PORT-REF" a eq_refl (opt_in _ _ a G_context_port E))).
    }
    {
      eapply piece_cat1.
      exact (p_child_id "TARGET-REQUIRED-OPERATION-REF" _ _ _ (fun a E => k_ClientServerOperationRef v "TARGET-REQUIRED-OPERATION-REF" a eq_refl (opt_in _ _ a G_target_required_operation E))).
    }
    reflexivity.
  }
  { exact eq_refl. }
  { apply attrs_ok_nil. }
  intros t k ktl H N. cbv beta in H. unand H.
  unfold read_r_operation_in_atomic_swc_instance_ref. cbn [x_attrs x_kids].
  use_facts.
  destruct e; reflexivity.
Qed.
Lemma rt_RVariableInAtomicSwcInstanceRef v e : good_RVariableInAtomicSwcInstanceRef e -> carries "DATA-IREF" (write_r_variable_in_atomic_swc_instance_ref v e) (read_r_variable_in_atomic_swc_instance_ref v) e.
Proof.
  unfold good_RVariableInAtomicSwcInstanceRef. intros (G_context_port & G_target_data_element). unfold write_r_variable_in_atomic_swc_instance_ref.
  destruct (RVariableInAtomicSwcInstanceRef_is_empty e) eqn:E.
  { clear - E. unfold RVariableInAtomicSwcInstanceRef_is_empty in E. apply e_empty; [exact eq_refl|]. destruct e. cbn in E. emptied E. subst. reflexivity. }
  clear E.
  eapply e_node2.
  {
    eapply piece_cons.
    {
      exact (p_child_id "CONTEXT-R-PORT-REF" _ _ _ (fun a E => k_AbstractRequiredPortPrototypeRef v "CONTEXT-R-PORT-REF" a eq_refl (opt_in _ _ a G_context_port E))).
    }
    {
      eapply piece_cat1.
      exact (p_child_id "TARGET-DATA-ELEMENT-REF" _ _ _ (fun a E => k_VariableDataPrototypeRef v "TARGET-DATA-ELEMENT-REF" a eq_refl (opt_in _ _ a G_target_data_element E))).
    }
    reflexivity.
  }
  { exact eq_refl. }
  { apply attrs_ok_nil. }
  intros t k ktl H N. cbv beta in H. unand H.
  unfold read_r_variable_in_atomic_swc_instance_ref. cbn [x_attrs x_kids].
  use_facts.
  destruct e; reflexivity.
Qed.
Lemma rt_RTriggerInAtomicSwcInstanceRef v tag e : name_okb tag = true -> good_RTriggerInAtomicSwcInstanceRef e -> carries tag (write_r_trigger_in_atomic_swc_instance_ref v tag e) (read_r_trigger_in_atomic_swc_instance_ref v) e.
Proof.
  intros NT. unfold good_RTriggerInAtomicSwcInstanceRef. intros (G_context_port & G_target_trigger). unfold write_r_trigger_in_atomic_swc_instance_ref.
  destruct (RTriggerInAtomicSwcInstanceRef_is_empty e) eqn:E.
  { clear - E NT. unfold RTriggerInAtomicSwcInstanceRef_is_empty in E. apply e_empty; [exact NT|]. destruct e. cbn in E. emptied E. subst. reflexivity. }
  clear E.
  eapply e_node2.
  {
    eapply piece_cons.
    {
      exact (p_child_id "CONTEXT-R-PORT-REF" _ _ _ (fun a E => k_AbstractRequiredPortPrototypeRef v "CONTEXT-R-PORT-REF" a eq_refl (opt_in _ _ a G_context_port E))).
    }
    {
      eapply piece_cat1.
      exact (p_child_id "TARGET-TRIGGER-REF" _ _ _ (fun a E => k_TriggerRef v "TARGET-TRIGGER-REF" a eq_refl (opt_in _ _ a G_target_trigger E))).
    }
    reflexivity.
  }
  { exact NT. }
  { apply attrs_ok_nil. }
  intros t k ktl H N. cbv beta in H. unand H.
  unfold read_r_trigger_in_atomic_swc_instance_ref. cbn [x_attrs x_kids].
  use_facts.
  destruct e; reflexivity.
Qed.
Lemma rt_ArVariableInImplementationDataInstanceRef v tag e : name_okb tag = true -> good_ArVariableInImplementationDataInstanceRef e -> carries tag (write_variable_in_impl_data_instance_ref v tag e) (read_variable_in_impl_data_instance_ref v) e.
Proof.
  intros NT. unfold good_ArVariableInImplementationDataInstanceRef. intros (G_port_prototype_ref & G_root_variable_data_prototype_ref & G_context_data_prototype_refs & G_target_data_prototype_ref). unfold write_variable_in_impl_data_instance_ref.
  destruct (ArVariableInImplementationDataInstanceRef_is_empty e) eqn:E.
  { clear - E NT. unfold ArVariableInImplementationDataInstanceRef_is_empty in E. apply e_empty; [exact NT|]. destruct e. cbn in E. emptied E. subst. reflexivity. }
  clear E.
  eapply e_node2.
  {
    eapply piece_cons.
    {
      exact (p_child_id "PORT-PROTOTYPE-REF" _ _ _ (fun a E => k_PortPrototypeRef v "PORT-PROTOTYPE-REF" a eq_refl (opt_in _ _ a G_port_prototype_ref E))).
    }
    {
      eapply piece_cons.
      {
        exact (p_child_id "ROOT-VARIABLE-DATA-PROTOTYPE-REF" _ _ _ (fun a E => k_VariableDataPrototypeRef v "ROOT-VARIABLE-DATA-PROTOTYPE-REF" a eq_refl (opt_in _ _ a G_root_variable_data_prototype_ref E))).
      }
      {
        eapply piece_cons.
        {
          exact (p_children_id "CONTEXT-DATA-PROTOTYPE-REFS" "CONTEXT-DATA-PROTOTYPE-REF" _ _ _  eq_refl (fun a I => k_AbstractImplementationDataTypeElementRef v "CONTEXT-DATA-PROTOTYPE-REF" a eq_refl (all_in _ _ a G_context_data_prototype_refs I))).
        }
        {
          eapply piece_cat1.
          exact (p_child_id "TARGET-DATA-PROTOTYPE-REF" _ _ _ (fun a E => k_AbstractImplementationDataTypeElementRef v "TARGET-DATA-PROTOTYPE-REF" a eq_refl (opt_in _ _ a G_target_data_prototype_ref E))).
        }
        reflexivity.
      }
      reflexivity.
    }
    reflexivity.
  }
  { exact NT. }
  { apply attrs_ok_nil. }
  intros t k ktl H N. cbv beta in H. unand H.
  unfold read_variable_in_impl_data_instance_ref, read_variable_in_impl_data_instance_ref_group. cbn [x_attrs x_kids].
  use_facts.
  destruct e; reflexivity.
Qed.
Lemma rt_RunnableEntityArgument v e : good_RunnableEntityArgument e -> carries "RUNNABLE-ENTITY-ARGUMENT" (write_runnable_entity_argument v e) (read_runnable_entity_argument v) e.
Proof.
  unfold good_RunnableEntityArgument. intros G_symbol. unfold write_runnable_entity_argument.
  destruct (RunnableEntityArgument_is_empty e) eqn:E.
  { clear - E. unfold RunnableEntityArgument_is_empty in E. apply e_empty; [exact eq_refl|]. destruct e. cbn in E. emptied E. subst. reflexivity. }
  clear E.
  eapply e_node2.
  {
    eapply piece_cat1.
    exact (p_text "SYMBOL" _ eq_refl G_symbol).
  }
  { exact eq_refl. }
  { apply attrs_ok_nil. }
  intros t k ktl H N. cbv beta in H. unand H.
  unfold read_runnable_entity_argument. cbn [x_attrs x_kids].
  use_facts.
  destruct e; reflexivity.
Qed.
Lemma rt_ExecutableEntityActivationReason v e : good_ExecutableEntityActivationReason e -> carries "EXECUTABLE-ENTITY-ACTIVATION-REASON" (write_executable_entity_activation_reason v e) (read_executable_entity_activation_reason v) e.
Proof.
  unfold good_ExecutableEntityActivationReason. intros (G_name & G_symbol & G_bit_position). unfold write_executable_entity_activation_reason.
  eapply e_node2.
  {
    eapply piece_cons.
    {
      exact (p_name _ G_name).
    }
    {
      eapply piece_cons.
      {
        unfold write_implementation_props.
        eapply piece_cat1.
        exact (p_text "SYMBOL" _ eq_refl G_symbol).
      }
      {
        eapply piece_cat1.
        exact (p_child_id "BIT-POSITION" _ _ _ (fun a E => c_positive "BIT-POSITION" a eq_refl (opt_in _ _ a G_bit_position E))).
      }
      reflexivity.
    }
    reflexivity.
  }
  { exact eq_refl. }
  { apply attrs_ok_nil. }
  intros t k ktl H N. cbv beta in H. unand H.
  unfold read_executable_entity_activation_reason, read_implementation_props. cbn [x_attrs x_kids].
  use_facts.
  cbn [new_referrable fst snd bind].
  destruct e; reflexivity.
Qed.
Lemma rt_ExclusiveAreaRefConditional v e : good_ExclusiveAreaRefConditional e -> carries "EXCLUSIVE-AREA-REF-CONDITIONAL" (write_exclusive_area_ref_conditional v e) (read_exclusive_area_ref_conditional v) e.
Proof.
  unfold good_ExclusiveAreaRefConditional. intros G_exclusive_area. unfold write_exclusive_area_ref_conditional.
  destruct (ExclusiveAreaRefConditional_is_empty e) eqn:E.
  { clear - E. unfold ExclusiveAreaRefConditional_is_empty in E. apply e_empty; [exact eq_refl|]. destruct e. cbn in E. emptied E. subst. reflexivity. }
  clear E.
  eapply e_node2.
  {
    eapply piece_cat1.
    exact (p_child_id "EXCLUSIVE-AREA-REF" _ _ _ (fun a E => k_ExclusiveAreaRef v "EXCLUSIVE-AREA-REF" a eq_refl (opt_in _ _ a G_exclusive_area E))).
  }
  { exact eq_refl. }
  { apply attrs_ok_nil. }
  intros t k ktl H N. cbv beta in H. unand H.
  unfold read_exclusive_area_ref_conditional. cbn [x_attrs x_kids].
  use_facts.
  destruct e; reflexivity.
Qed.
Lemma rt_AsynchronousServerCallPoint v e : good_AsynchronousServerCallPoint e -> carries "ASYNCHRONOUS-SERVER-CALL-POINT" (write_async_server_call_point v e) (read_async_server_call_point v) e.
Proof.
  unfold good_AsynchronousServerCallPoint. intros (G_ident & G_operation & G_timeout). unfold write_async_server_call_point.
  eapply e_node2.
  {
    eapply p_ident; [exact (ident_of _ G_ident)| |].
    {
      eapply piece_cons.
      {
        unfold write_abstract_access_point.
        eapply piece_cat1.
        exact (p_child_id "RETURN-VALUE-PROVISION" _ _ _ (fun a E => c_enum em_RteApiReturnValueProvision "RETURN-VALUE-PROVISION" a ok_RteApiReturnValueProvision eq_refl)).
      }
      {
        eapply piece_cat1.
        unfold write_server_call_point.
        eapply piece_cons.
        {
          exact (p_child_id "OPERATION-IREF" _ _ _ (fun a E => rt_ROperationInAtomicSwcInstanceRef v a (opt_in _ _ a G_operation E))).
        }
        {
          eapply piece_cat1.
          exact (p_child "TIMEOUT" _ _ _ reread (fun a E => c_real "TIMEOUT" a eq_refl (opt_in _ _ a G_timeout E))).
        }
        reflexivity.
      }
      reflexivity.
    }
    reflexivity.
  }
  { exact eq_refl. }
  { apply attrs_ok_nil. }
  intros t k ktl H N. cbv beta in H. unand H.
  unfold read_async_server_call_point, read_abstract_access_point, read_server_call_point. cbn [x_attrs x_kids].
  match goal with H : ident_read _ k |- _ => rewrite (H _ (no_uuid _ G_ident)); clear H end. cbn [bind].
  use_facts.
  rewrite new_ident by (apply ident_of; assumption). cbn [bind].
  rewrite (as_float_opt _ G_timeout).
  destruct e; reflexivity.
Qed.
Lemma rt_SynchronousServerCallPoint v e : good_SynchronousServerCallPoint e -> carries "SYNCHRONOUS-SERVER-CALL-POINT" (write_sync_server_call_point v e) (read_sync_server_call_point v) e.
Proof.
  unfold good_SynchronousServerCallPoint. intros (G_ident & G_operation & G_timeout & G_called_from_within_exclusive_area). unfold write_sync_server_call_point.
  eapply e_node2.
  {
    eapply p_ident; [exact (ident_of _ G_ident)| |].
    {
      eapply piece_cons.
      {
        unfold write_abstract_access_point.
        eapply piece_cat1.
        exact (p_child_id "RETURN-VALUE-PROVISION" _ _ _ (fun a E => c_enum em_RteApiReturnValueProvision "RETURN-VALUE-PROVISION" a ok_RteApiReturnValueProvision eq_refl)).
      }
      {
        eapply piece_cons.
        {
          unfold write_server_call_point.
          eapply piece_cons.
          {
            exact (p_child_id "OPERATION-IREF" _ _ _ (fun a E => rt_ROperationInAtomicSwcInstanceRef v a (opt_in _ _ a G_operation E))).
          }
          {
            eapply piece_cat1.
            exact (p_child "TIMEOUT" _ _ _ reread (fun a E => c_real "TIMEOUT" a eq_refl (opt_in _ _ a G_timeout E))).
          }
          reflexivity.
        }
        {
          eapply piece_cat1.
          exact (p_child_id "CALLED-FROM-WITHIN-EXCLUSIVE-AREA-REF" _ _ _ (fun a E => k_ExclusiveAreaNestingOrderRef v "CALLED-FROM-WITHIN-EXCLUSIVE-AREA-REF" a eq_refl (opt_in _ _ a G_called_from_within_exclusive_area E))).
        }
        reflexivity.
      }
      reflexivity.
    }
    reflexivity.
  }
  { exact eq_refl. }
  { apply attrs_ok_nil. }
  intros t k ktl H N. cbv beta in H. unand H.
  unfold read_sync_server_call_point, read_abstract_access_point, read_server_call_point. cbn [x_attrs x_kids].
  match goal with H : ident_read _ k |- _ => rewrite (H _ (no_uuid _ G_ident)); clear H end. cbn [bind].
  use_facts.
  rewrite new_ident by (apply ident_of; assumption). cbn [bind].
  rewrite (as_float_opt _ G_timeout).
  destruct e; reflexivity.
Qed.
Lemma rt_AsynchronousServerCallResultPoint v e : good_AsynchronousServerCallResultPoint e -> carries "ASYNCHRONOUS-SERVER-CALL-RESULT-POINT" (write_async_server_call_result_point v e) (read_async_server_call_result_point v) e.
Proof.
  unfold good_AsynchronousServerCallResultPoint. intros (G_ident & G_async_server_call_point). unfold write_async_server_call_result_point.
  eapply e_node2.
  {
    eapply p_ident; [exact (ident_of _ G_ident)| |].
    {
      eapply piece_cons.
      {
        unfold write_abstract_access_point.
        eapply piece_cat1.
        exact (p_child_id "RETURN-VALUE-PROVISION" _ _ _ (fun a E => c_enum em_RteApiReturnValueProvision "RETURN-VALUE-PROVISION" a ok_RteApiReturnValueProvision eq_refl)).
      }
      {
        eapply piece_cat1.
        unfold write_async_server_call_result_point_group.
        eapply piece_cat1.
        exact (p_child_id "ASYNCHRONOUS-SERVER-CALL-POINT-REF" _ _ _ (fun a E => k_AsynchronousServerCallPointRef v "ASYNCHRONOUS-SERVER-CALL-POINT-REF" a eq_refl (opt_in _ _ a G_async_server_call_point E))).
      }
      reflexivity.
    }
    reflexivity.
  }
  { exact eq_refl. }
  { apply attrs_ok_nil. }
  intros t k ktl H N. cbv beta in H. unand H.
  unfold read_async_server_call_result_point, read_abstract_access_point, read_async_server_call_result_point_group. cbn [x_attrs x_kids].
  match goal with H : ident_read _ k |- _ => rewrite (H _ (no_uuid _ G_ident)); clear H end. cbn [bind].
  use_facts.
  rewrite new_ident by (apply ident_of; assumption). cbn [bind].
  destruct e; reflexivity.
Qed.
Lemma rt_ExternalTriggeringPointIdent v e : good_ExternalTriggeringPointIdent e -> carries "IDENT" (write_external_triggering_point_ident v e) (read_external_triggering_point_ident v) e.
Proof.
  unfold good_ExternalTriggeringPointIdent. intros G_ident. unfold write_external_triggering_point_ident.
  eapply e_node2.
  {
    eapply p_ident; [exact (ident_of _ G_ident)| |].
    {
      eapply piece_cat1.
      unfold write_abstract_access_point.
      eapply piece_cat1.
      exact (p_child_id "RETURN-VALUE-PROVISION" _ _ _ (fun a E => c_enum em_RteApiReturnValueProvision "RETURN-VALUE-PROVISION" a ok_RteApiReturnValueProvision eq_refl)).
    }
    reflexivity.
  }
  { exact eq_refl. }
  { apply attrs_ok_nil. }
  intros t k ktl H N. cbv beta in H. unand H.
  unfold read_external_triggering_point_ident, read_abstract_access_point. cbn [x_attrs x_kids].
  match goal with H : ident_read _ k |- _ => rewrite (H _ (no_uuid _ G_ident)); clear H end. cbn [bind].
  use_facts.
  rewrite new_ident by (apply ident_of; assumption). cbn [bind].
  destruct e; reflexivity.
Qed.
Lemma rt_ExternalTriggeringPoint v e : good_ExternalTriggeringPoint e -> carries "EXTERNAL-TRIGGERING-POINT" (write_external_triggering_point v e) (read_external_triggering_point v) e.
Proof.
  unfold good_ExternalTriggeringPoint. intros (G_ident & G_trigger). unfold write_external_triggering_point.
  destruct (ExternalTriggeringPoint_is_empty e) eqn:E.
  { clear - E. unfold ExternalTriggeringPoint_is_empty in E. apply e_empty; [exact eq_refl|]. destruct e. cbn in E. emptied E. subst. reflexivity. }
  clear E.
  eapply e_node2.
  {
    eapply piece_cons.
    {
      exact (p_child_id "IDENT" _ _ _ (fun a E => rt_ExternalTriggeringPointIdent v a (opt_in _ _ a G_ident E))).
    }
    {
      eapply piece_cat1.
      exact (p_child_id "TRIGGER-IREF" _ _ _ (fun a E => rt_PTriggerInAtomicSwcTypeInstanceRef v "TRIGGER-IREF" a eq_refl (opt_in _ _ a G_trigger E))).
    }
    reflexivity.
  }
  { exact eq_refl. }
  { apply attrs_ok_nil. }
  intros t k ktl H N. cbv beta in H. unand H.
  unfold read_external_triggering_point. cbn [x_attrs x_kids].
  use_facts.
  destruct e; reflexivity.
Qed.
Lemma rt_InternalTriggeringPoint v e : good_InternalTriggeringPoint e -> carries "INTERNAL-TRIGGERING-POINT" (write_internal_triggering_point v e) (read_internal_triggering_point v) e.
Proof.
  unfold good_InternalTriggeringPoint. intros G_ident. unfold write_internal_triggering_point.
  eapply e_node2.
  {
    eapply p_ident; [exact (ident_of _ G_ident)| |].
    {
      eapply piece_cons.
      {
        unfold write_abstract_access_point.
        eapply piece_cat1.
        exact (p_child_id "RETURN-VALUE-PROVISION" _ _ _ (fun a E => c_enum em_RteApiReturnValueProvision "RETURN-VALUE-PROVISION" a ok_RteApiReturnValueProvision eq_refl)).
      }
      {
        eapply piece_cat1.
        exact (p_child_id "SW-IMPL-POLICY" _ _ _ (fun a E => c_enum em_SwImplPolicy "SW-IMPL-POLICY" a ok_SwImplPolicy eq_refl)).
      }
      reflexivity.
    }
    reflexivity.
  }
  { exact eq_refl. }
  { apply attrs_ok_nil. }
  intros t k ktl H N. cbv beta in H. unand H.
  unfold read_internal_triggering_point, read_abstract_access_point. cbn [x_attrs x_kids].
  match goal with H : ident_read _ k |- _ => rewrite (H _ (no_uuid _ G_ident)); clear H end. cbn [bind].
  use_facts.
  rewrite new_ident by (apply ident_of; assumption). cbn [bind].
  destruct e; reflexivity.
Qed.
Lemma rt_ModeAccessPointIdent v e : good_ModeAccessPointIdent e -> carries "IDENT" (write_mode_access_point_ident v e) (read_mode_access_point_ident v) e.
Proof.
  unfold good_ModeAccessPointIdent. intros G_ident. unfold write_mode_access_point_ident.
  eapply e_node2.
  {
    eapply p_ident; [exact (ident_of _ G_ident)| |].
    {
      eapply piece_cat1.
      unfold write_abstract_access_point.
      eapply piece_cat1.
      exact (p_child_id "RETURN-VALUE-PROVISION" _ _ _ (fun a E => c_enum em_RteApiReturnValueProvision "RETURN-VALUE-PROVISION" a ok_RteApiReturnValueProvision eq_refl)).
    }
    reflexivity.
  }
  { exact eq_refl. }
  { apply attrs_ok_nil. }
  intros t k ktl H N. cbv beta in H. unand H.
  pose proof (child_none "ASYNCHRONOUS-SERVER-CALL-POINT-REF" k (read_ref rc_AsynchronousServerCallPointRef v) (N "ASYNCHRONOUS-SERVER-CALL-POINT-REF" eq_refl)).
  unfold read_mode_access_point_ident, read_abstract_access_point, read_async_server_call_result_point_group. cbn [x_attrs x_kids].
  match goal with H : ident_read _ k |- _ => rewrite (H _ (no_uuid _ G_ident)); clear H end. cbn [bind].
  use_facts.
  rewrite unexpected_none by (repeat constructor; apply N; reflexivity). cbn [bind].
  rewrite new_ident by (apply ident_of; assumption). cbn [bind].
  destruct e; reflexivity.
Qed.
Lemma rt_ModeSwitchPoint v e : good_ModeSwitchPoint e -> carries "MODE-SWITCH-POINT" (write_mode_switch_point v e) (read_mode_switch_point v) e.
Proof.
  unfold good_ModeSwitchPoint. intros (G_ident & G_mode_group). unfold write_mode_switch_point.
  eapply e_node2.
  {
    eapply p_ident; [exact (ident_of _ G_ident)| |].
    {
      eapply piece_cons.
      {
        unfold write_abstract_access_point.
        eapply piece_cat1.
        exact (p_child_id "RETURN-VALUE-PROVISION" _ _ _ (fun a E => c_enum em_RteApiReturnValueProvision "RETURN-VALUE-PROVISION" a ok_RteApiReturnValueProvision eq_refl)).
      }
      {
        eapply piece_cat1.
        exact (p_child_id "MODE-GROUP-IREF" _ _ _ (fun a E => rt_PModeGroupInAtomicSwcInstanceRef v "MODE-GROUP-IREF" a eq_refl (opt_in _ _ a G_mode_group E))).
      }
      reflexivity.
    }
    reflexivity.
  }
  { exact eq_refl. }
  { apply attrs_ok_nil. }
  intros t k ktl H N. cbv beta in H. unand H.
  unfold read_mode_switch_point, read_abstract_access_point. cbn [x_attrs x_kids].
  match goal with H : ident_read _ k |- _ => rewrite (H _ (no_uuid _ G_ident)); clear H end. cbn [bind].
  use_facts.
  rewrite new_ident by (apply ident_of; assumption). cbn [bind].
  destruct e; reflexivity.
Qed.
Lemma rt_ParameterInAtomicSwcTypeInstanceRef v e : good_ParameterInAtomicSwcTypeInstanceRef e -> carries "AUTOSAR-PARAMETER-IREF" (write_parameter_in_atomic_swc_type_instance_ref v e) (read_parameter_in_atomic_swc_type_instance_ref v) e.
Proof.
  unfold good_ParameterInAtomicSwcTypeInstanceRef. intros (G_port_prototype & G_root_parameter_data_prototype & G_context_data_prototype & G_target_data_prototype). unfold write_parameter_in_atomic_swc_type_instance_ref.
  destruct (ParameterInAtomicSwcTypeInstanceRef_is_empty e) eqn:E.
  { clear - E. unfold ParameterInAtomicSwcTypeInstanceRef_is_empty in E. apply e_empty; [exact eq_refl|]. destruct e. cbn in E. emptied E. subst. reflexivity. }
  clear E.
  eapply e_node2.
  {
    eapply piece_cons.
    {
      exact (p_child_id "PORT-PROTOTYPE-REF" _ _ _ (fun a E => k_PortPrototypeRef v "PORT-PROTOTYPE-REF" a eq_refl (opt_in _ _ a G_port_prototype E))).
    }
    {
      eapply piece_cons.
      {
        exact (p_child_id "ROOT-PARAMETER-DATA-PROTOTYPE-REF" _ _ _ (fun a E => k_DataPrototypeRef v "ROOT-PARAMETER-DATA-PROTOTYPE-REF" a eq_refl (opt_in _ _ a G_root_parameter_data_prototype E))).
      }
      {
        eapply piece_cons.
        {
          exact (p_child_id "CONTEXT-DATA-PROTOTYPE-REF" _ _ _ (fun a E => k_ApplicationCompositeElementDataPrototypeRef v "CONTEXT-DATA-PROTOTYPE-REF" a eq_refl (opt_in _ _ a G_context_data_prototype E))).
        }
        {
          eapply piece_cat1.
          exact (p_child_id "TARGET-DATA-PROTOTYPE-REF" _ _ _ (fun a E => k_DataPrototypeRef v "TARGET-DATA-PROTOTYPE-REF" a eq_refl (opt_in _ _ a G_target_data_prototype E))).
        }
        reflexivity.
      }
      reflexivity.
    }
    reflexivity.
  }
  { exact eq_refl. }
  { apply attrs_ok_nil. }
  intros t k ktl H N. cbv beta in H. unand H.
  unfold read_parameter_in_atomic_swc_type_instance_ref. cbn [x_attrs x_kids].
  use_facts.
  destruct e; reflexivity.
Qed.
Lemma rt_AutosarParameterRef v tag e : name_okb tag = true -> good_AutosarParameterRef e -> carries tag (write_autosar_parameter_ref v tag e) (read_autosar_parameter_ref v) e.
Proof.
  intros NT. unfold good_AutosarParameterRef. intros (G_autosar_parameter & G_local_parameter). unfold write_autosar_parameter_ref.
  destruct (AutosarParameterRef_is_empty e) eqn:E.
  { clear - E NT. unfold AutosarParameterRef_is_empty in E. apply e_empty; [exact NT|]. destruct e. cbn in E. emptied E. subst. reflexivity. }
  clear E.
  eapply e_node2.
  {
    eapply piece_cons.
    {
      exact (p_child_id "AUTOSAR-PARAMETER-IREF" _ _ _ (fun a E => rt_ParameterInAtomicSwcTypeInstanceRef v a (opt_in _ _ a G_autosar_parameter E))).
    }
    {
      eapply piece_cat1.
      exact (p_child_id "LOCAL-PARAMETER-REF" _ _ _ (fun a E => k_DataPrototypeRef v "LOCAL-PARAMETER-REF" a eq_refl (opt_in _ _ a G_local_parameter E))).
    }
    reflexivity.
  }
  { exact NT. }
  { apply attrs_ok_nil. }
  intros t k ktl H N. cbv beta in H. unand H.
  unfold read_autosar_parameter_ref. cbn [x_attrs x_kids].
  use_facts.
  destruct e; reflexivity.
Qed.
Lemma rt_WaitPoint v e : good_WaitPoint e -> carries "WAIT-POINT" (write_wait_point v e) (read_wait_point v) e.
Proof.
  unfold good_WaitPoint. intros (G_ident & G_timeout & G_trigger). unfold write_wait_point.
  eapply e_node2.
  {
    eapply p_ident; [exact (ident_of _ G_ident)| |].
    {
      eapply piece_cat1.
      unfold write_wait_point_group.
      eapply piece_cons.
      {
        exact (p_child "TIMEOUT" _ _ _ reread (fun a E => c_real "TIMEOUT" a eq_refl (opt_in _ _ a G_timeout E))).
      }
      {
        eapply piece_cat1.
        exact (p_child_id "TRIGGER-REF" _ _ _ (fun a E => k_RteEventRef v "TRIGGER-REF" a eq_refl (opt_in _ _ a G_trigger E))).
      }
      reflexivity.
    }
    reflexivity.
  }
  { exact eq_refl. }
  { apply attrs_ok_nil. }
  intros t k ktl H N. cbv beta in H. unand H.
  unfold read_wait_point, read_wait_point_group. cbn [x_attrs x_kids].
  match goal with H : ident_read _ k |- _ => rewrite (H _ (no_uuid _ G_ident)); clear H end. cbn [bind].
  use_facts.
  rewrite new_ident by (apply ident_of; assumption). cbn [bind].
  rewrite (as_float_opt _ G_timeout).
  destruct e; reflexivity.
Qed.
Lemma rt_AsynchronousServerCallReturnsEvent v e : good_AsynchronousServerCallReturnsEvent e -> carries "ASYNCHRONOUS-SERVER-CALL-RETURNS-EVENT" (write_async_server_call_returns_event v e) (read_async_server_call_returns_event v) e.
Proof.
  unfold good_AsynchronousServerCallReturnsEvent. intros (G_ident & G_disabled_modes & G_start_on_event & G_event_source). unfold write_async_server_call_returns_event.
  eapply e_node2.
  {
    eapply p_ident; [exact (ident_of _ G_ident)| |].
    {
      eapply piece_cons.
      {
        unfold write_rte_event_group.
        eapply piece_cons.
        {
          exact (p_children_id "DISABLED-MODE-IREFS" "DISABLED-MODE-IREF" _ _ _  eq_refl (fun a I => rt_RModeInAtomicSwcInstanceRef v "DISABLED-MODE-IREF" a eq_refl (all_in _ _ a G_disabled_modes I))).
        }
        {
          eapply piece_cat1.
          exact (p_child_id "START-ON-EVENT-REF" _ _ _ (fun a E => k_RunnableEntityRef v "START-ON-EVENT-REF" a eq_refl (opt_in _ _ a G_start_on_event E))).
        }
        reflexivity.
      }
      {
        eapply piece_cat1.
        exact (p_child_id "EVENT-SOURCE-REF" _ _ _ (fun a E => k_AsynchronousServerCallResultPointRef v "EVENT-SOURCE-REF" a eq_refl (opt_in _ _ a G_event_source E))).
      }
      reflexivity.
    }
    reflexivity.
  }
  { exact eq_refl. }
  { apply attrs_ok_nil. }
  intros t k ktl H N. cbv beta in H. unand H.
  unfold read_async_server_call_returns_event, read_rte_event_group. cbn [x_attrs x_kids].
  match goal with H : ident_read _ k |- _ => rewrite (H _ (no_uuid _ G_ident)); clear H end. cbn [bind].
  use_facts.
  rewrite new_ident by (apply ident_of; assumption). cbn [bind].
  destruct e; reflexivity.
Qed.
Lemma rt_BackgroundEvent v e : good_BackgroundEvent e -> carries "BACKGROUND-EVENT" (write_background_event v e) (read_background_event v) e.
Proof.
  unfold good_BackgroundEvent. intros (G_ident & G_disabled_modes & G_start_on_event). unfold write_background_event.
  eapply e_node2.
  {
    eapply p_ident; [exact (ident_of _ G_ident)| |].
    {
      eapply piece_cat1.
      unfold write_rte_event_group.
      eapply piece_cons.
      {
        exact (p_children_id "DISABLED-MODE-IREFS" "DISABLED-MODE-IREF" _ _ _  eq_refl (fun a I => rt_RModeInAtomicSwcInstanceRef v "DISABLED-MODE-IREF" a eq_refl (all_in _ _ a G_disabled_modes I))).
      }
      {
        eapply piece_cat1.
        exact (p_child_id "START-ON-EVENT-REF" _ _ _ (fun a E => k_RunnableEntityRef v "START-ON-EVENT-REF" a eq_refl (opt_in _ _ a G_start_on_event E))).
      }
      reflexivity.
    }
    reflexivity.
  }
  { exact eq_refl. }
  { apply attrs_ok_nil. }
  intros t k ktl H N. cbv beta in H. unand H.
  unfold read_background_event, read_rte_event_group. cbn [x_attrs x_kids].
  match goal with H : ident_read _ k |- _ => rewrite (H _ (no_uuid _ G_ident)); clear H end. cbn [bind].
  use_facts.
  rewrite new_ident by (apply ident_of; assumption). cbn [bind].
  destruct e; reflexivity.
Qed.
Lemma rt_DataReceiveErrorEvent v e : good_DataReceiveErrorEvent e -> carries "DATA-RECEIVE-ERROR-EVENT" (write_data_receive_error_event v e) (read_data_receive_error_event v) e.
Proof.
  unfold good_DataReceiveErrorEvent. intros (G_ident & G_disabled_modes & G_start_on_event & G_data). unfold write_data_receive_error_event.
  eapply e_node2.
  {
    eapply p_ident; [exact (ident_of _ G_ident)| |].
    {
      eapply piece_cons.
      {
        unfold write_rte_event_group.
        eapply piece_cons.
        {
          exact (p_children_id "DISABLED-MODE-IREFS" "DISABLED-MODE-IREF" _ _ _  eq_refl (fun a I => rt_RModeInAtomicSwcInstanceRef v "DISABLED-MODE-IREF" a eq_refl (all_in _ _ a G_disabled_modes I))).
        }
        {
          eapply piece_cat1.
          exact (p_child_id "START-ON-EVENT-REF" _ _ _ (fun a E => k_RunnableEntityRef v "START-ON-EVENT-REF" a eq_refl (opt_in _ _ a G_start_on_event E))).
        }
        reflexivity.
      }
      {
        eapply piece_cat1.
        exact (p_child_id "DATA-IREF" _ _ _ (fun a E => rt_RVariableInAtomicSwcInstanceRef v a (opt_in _ _ a G_data E))).
      }
      reflexivity.
    }
    reflexivity.
  }
  { exact eq_refl. }
  { apply attrs_ok_nil. }
  intros t k ktl H N. cbv beta in H. unand H.
  unfold read_data_receive_error_event, read_rte_event_group. cbn [x_attrs x_kids].
  match goal with H : ident_read _ k |- _ => rewrite (H _ (no_uuid _ G_ident)); clear H end. cbn [bind].
  use_facts.
  rewrite new_ident by (apply ident_of; assumption). cbn [bind].
  destruct e; reflexivity.
Qed.
Lemma rt_DataReceivedEvent v e : good_DataReceivedEvent e -> carries "DATA-RECEIVED-EVENT" (write_data_received_event v e) (read_data_received_event v) e.
Proof.
  unfold good_DataReceivedEvent. intros (G_ident & G_disabled_modes & G_start_on_event & G_data). unfold write_data_received_event.
  eapply e_node2.
  {
    eapply p_ident; [exact (ident_of _ G_ident)| |].
    {
      eapply piece_cons.
      {
        unfold write_rte_event_group.
        eapply piece_cons.
        {
          exact (p_children_id "DISABLED-MODE-IREFS" "DISABLED-MODE-IREF" _ _ _  eq_refl (fun a I => rt_RModeInAtomicSwcInstanceRef v "DISABLED-MODE-IREF" a eq_refl (all_in _ _ a G_disabled_modes I))).
        }
        {
          eapply piece_cat1.
          exact (p_child_id "START-ON-EVENT-REF" _ _ _ (fun a E => k_RunnableEntityRef v "START-ON-EVENT-REF" a eq_refl (opt_in _ _ a G_start_on_event E))).
        }
        reflexivity.
      }
      {
        eapply piece_cat1.
        exact (p_child_id "DATA-IREF" _ _ _ (fun a E => rt_RVariableInAtomicSwcInstanceRef v a (opt_in _ _ a G_data E))).
      }
      reflexivity.
    }
    reflexivity.
  }
  { exact eq_refl. }
  { apply attrs_ok_nil. }
  intros t k ktl H N. cbv beta in H. unand H.
  unfold read_data_received_event, read_rte_event_group. cbn [x_attrs x_kids].
  match goal with H : ident_read _ k |- _ => rewrite (H _ (no_uuid _ G_ident)); clear H end. cbn [bind].
  use_facts.
  rewrite new_ident by (apply ident_of; assumption). cbn [bind].
  destruct e; reflexivity.
Qed.
Lemma rt_DataSendCompletedEvent v e : good_DataSendCompletedEvent e -> carries "DATA-SEND-COMPLETED-EVENT" (write_data_send_completed_event v e) (read_data_send_completed_event v) e.
Proof.
  unfold good_DataSendCompletedEvent. intros (G_ident & G_disabled_modes & G_start_on_event & G_event_source). unfold write_data_send_completed_event.
  eapply e_node2.
  {
    eapply p_ident; [exact (ident_of _ G_ident)| |].
    {
      eapply piece_cons.
      {
        unfold write_rte_event_group.
        eapply piece_cons.
        {
          exact (p_children_id "DISABLED-MODE-IREFS" "DISABLED-MODE-IREF" _ _ _  eq_refl (fun a I => rt_RModeInAtomicSwcInstanceRef v "DISABLED-MODE-IREF" a eq_refl (all_in _ _ a G_disabled_modes I))).
        }
        {
          eapply piece_cat1.
          exact (p_child_id "START-ON-EVENT-REF" _ _ _ (fun a E => k_RunnableEntityRef v "START-ON-EVENT-REF" a eq_refl (opt_in _ _ a G_start_on_event E))).
        }
        reflexivity.
      }
      {
        eapply piece_cat1.
        exact (p_child_id "EVENT-SOURCE-REF" _ _ _ (fun a E => k_VariableAccessRef v "EVENT-SOURCE-REF" a eq_refl (opt_in _ _ a G_event_source E))).
      }
      reflexivity.
    }
    reflexivity.
  }
  { exact eq_refl. }
  { apply attrs_ok_nil. }
  intros t k ktl H N. cbv beta in H. unand H.
  unfold read_data_send_completed_event, read_rte_event_group. cbn [x_attrs x_kids].
  match goal with H : ident_read _ k |- _ => rewrite (H _ (no_uuid _ G_ident)); clear H end. cbn [bind].
  use_facts.
  rewrite new_ident by (apply ident_of; assumption). cbn [bind].
  destruct e; reflexivity.
Qed.
Lemma rt_DataWriteCompletedEvent v e : good_DataWriteCompletedEvent e -> carries "DATA-WRITE-COMPLETED-EVENT" (write_data_write_completed_event v e) (read_data_write_completed_event v) e.
Proof.
  unfold good_DataWriteCompletedEvent. intros (G_ident & G_disabled_modes & G_start_on_event & G_event_source). unfold write_data_write_completed_event.
  eapply e_node2.
  {
    eapply p_ident; [exact (ident_of _ G_ident)| |].
    {
      eapply piece_cons.
      {
        unfold write_rte_event_group.
        eapply piece_cons.
        {
          exact (p_children_id "DISABLED-MODE-IREFS" "DISABLED-MODE-IREF" _ _ _  eq_refl (fun a I => rt_RModeInAtomicSwcInstanceRef v "DISABLED-MODE-IREF" a eq_refl (all_in _ _ a G_disabled_modes I))).
        }
        {
          eapply piece_cat1.
          exact (p_child_id "START-ON-EVENT-REF" _ _ _ (fun a E => k_RunnableEntityRef v "START-ON-EVENT-REF" a eq_refl (opt_in _ _ a G_start_on_event E))).
        }
        reflexivity.
      }
      {
        eapply piece_cat1.
        exact (p_child_id "EVENT-SOURCE-REF" _ _ _ (fun a E => k_VariableAccessRef v "EVENT-SOURCE-REF" a eq_refl (opt_in _ _ a G_event_source E))).
      }
      reflexivity.
    }
    reflexivity.
  }
  { exact eq_refl. }
  { apply attrs_ok_nil. }
  intros t k ktl H N. cbv beta in H. unand H.
  unfold read_data_write_completed_event, read_rte_event_group. cbn [x_attrs x_kids].
  match goal with H : ident_read _ k |- _ => rewrite (H _ (no_uuid _ G_ident)); clear H end. cbn [bind].
  use_facts.
  rewrite new_ident by (apply ident_of; assumption). cbn [bind].
  destruct e; reflexivity.
Qed.
Lemma rt_ExternalTriggerOccurredEvent v e : good_ExternalTriggerOccurredEvent e -> carries "EXTERNAL-TRIGGER-OCCURRED-EVENT" (write_external_trigger_occured_event v e) (read_external_trigger_occured_event v) e.
Proof.
  unfold good_ExternalTriggerOccurredEvent. intros (G_ident & G_disabled_modes & G_start_on_event & G_trigger). unfold write_external_trigger_occured_event.
  eapply e_node2.
  {
    eapply p_ident; [exact (ident_of _ G_ident)| |].
    {
      eapply piece_cons.
      {
        unfold write_rte_event_group.
        eapply piece_cons.
        {
          exact (p_children_id "DISABLED-MODE-IREFS" "DISABLED-MODE-IREF" _ _ _  eq_refl (fun a I => rt_RModeInAtomicSwcInstanceRef v "DISABLED-MODE-IREF" a eq_refl (all_in _ _ a G_disabled_modes I))).
        }
        {
          eapply piece_cat1.
          exact (p_child_id "START-ON-EVENT-REF" _ _ _ (fun a E => k_RunnableEntityRef v "START-ON-EVENT-REF" a eq_refl (opt_in _ _ a G_start_on_event E))).
        }
        reflexivity.
      }
      {
        eapply piece_cat1.
        exact (p_child_id "TRIGGER-IREF" _ _ _ (fun a E => rt_RTriggerInAtomicSwcInstanceRef v "TRIGGER-IREF" a eq_refl (opt_in _ _ a G_trigger E))).
      }
      reflexivity.
    }
    reflexivity.
  }
  { exact eq_refl. }
  { apply attrs_ok_nil. }
  intros t k ktl H N. cbv beta in H. unand H.
  unfold read_external_trigger_occured_event, read_rte_event_group. cbn [x_attrs x_kids].
  match goal with H : ident_read _ k |- _ => rewrite (H _ (no_uuid _ G_ident)); clear H end. cbn [bind].
  use_facts.
  rewrite new_ident by (apply ident_of; assumption). cbn [bind].
  destruct e; reflexivity.
Qed.
Lemma rt_InitEvent v e : good_InitEvent e -> carries "INIT-EVENT" (write_init_event v e) (read_init_event v) e.
Proof.
  unfold good_InitEvent. intros (G_ident & G_disabled_modes & G_start_on_event). unfold write_init_event.
  eapply e_node2.
  {
    eapply p_ident; [exact (ident_of _ G_ident)| |].
    {
      eapply piece_cat1.
      unfold write_rte_event_group.
      eapply piece_cons.
      {
        exact (p_children_id "DISABLED-MODE-IREFS" "DISABLED-MODE-IREF" _ _ _  eq_refl (fun a I => rt_RModeInAtomicSwcInstanceRef v "DISABLED-MODE-IREF" a eq_refl (all_in _ _ a G_disabled_modes I))).
      }
      {
        eapply piece_cat1.
        exact (p_child_id "START-ON-EVENT-REF" _ _ _ (fun a E => k_RunnableEntityRef v "START-ON-EVENT-REF" a eq_refl (opt_in _ _ a G_start_on_event E))).
      }
      reflexivity.
    }
    reflexivity.
  }
  { exact eq_refl. }
  { apply attrs_ok_nil. }
  intros t k ktl H N. cbv beta in H. unand H.
  unfold read_init_event, read_rte_event_group. cbn [x_attrs x_kids].
  match goal with H : ident_read _ k |- _ => rewrite (H _ (no_uuid _ G_ident)); clear H end. cbn [bind].
  use_facts.
  rewrite new_ident by (apply ident_of; assumption). cbn [bind].
  destruct e; reflexivity.
Qed.
Lemma rt_InternalTriggerOccurredEvent v e : good_InternalTriggerOccurredEvent e -> carries "INTERNAL-TRIGGER-OCCURRED-EVENT" (write_internal_trigger_occured_event v e) (read_internal_trigger_occured_event v) e.
Proof.
  unfold good_InternalTriggerOccurredEvent. intros (G_ident & G_disabled_modes & G_start_on_event & G_event_source). unfold write_internal_trigger_occured_event.
  eapply e_node2.
  {
    eapply p_ident; [exact (ident_of _ G_ident)| |].
    {
      eapply piece_cons.
      {
        unfold write_rte_event_group.
        eapply piece_cons.
        {
          exact (p_children_id "DISABLED-MODE-IREFS" "DISABLED-MODE-IREF" _ _ _  eq_refl (fun a I => rt_RModeInAtomicSwcInstanceRef v "DISABLED-MODE-IREF" a eq_refl (all_in _ _ a G_disabled_modes I))).
        }
        {
          eapply piece_cat1.
          exact (p_child_id "START-ON-EVENT-REF" _ _ _ (fun a E => k_RunnableEntityRef v "START-ON-EVENT-REF" a eq_refl (opt_in _ _ a G_start_on_event E))).
        }
        reflexivity.
      }
      {
        eapply piece_cat1.
        exact (p_child_id "EVENT-SOURCE-REF" _ _ _ (fun a E => k_InternalTriggeringPointRef v "EVENT-SOURCE-REF" a eq_refl (opt_in _ _ a G_event_source E))).
      }
      reflexivity.
    }
    reflexivity.
  }
  { exact eq_refl. }
  { apply attrs_ok_nil. }
  intros t k ktl H N. cbv beta in H. unand H.
  unfold read_internal_trigger_occured_event, read_rte_event_group. cbn [x_attrs x_kids].
  match goal with H : ident_read _ k |- _ => rewrite (H _ (no_uuid _ G_ident)); clear H end. cbn [bind].
  use_facts.
  rewrite new_ident by (apply ident_of; assumption). cbn [bind].
  destruct e; reflexivity.
Qed.
Lemma rt_ModeSwitchedAckEvent v e : good_ModeSwitchedAckEvent e -> carries "MODE-SWITCHED-ACK-EVENT" (write_mode_switched_ack_event v e) (read_mode_switched_ack_event v) e.
Proof.
  unfold good_ModeSwitchedAckEvent. intros (G_ident & G_disabled_modes & G_start_on_event & G_event_source). unfold write_mode_switched_ack_event.
  eapply e_node2.
  {
    eapply p_ident; [exact (ident_of _ G_ident)| |].
    {
      eapply piece_cons.
      {
        unfold write_rte_event_group.
        eapply piece_cons.
        {
          exact (p_children_id "DISABLED-MODE-IREFS" "DISABLED-MODE-IREF" _ _ _  eq_refl (fun a I => rt_RModeInAtomicSwcInstanceRef v "DISABLED-MODE-IREF" a eq_refl (all_in _ _ a G_disabled_modes I))).
        }
        {
          eapply piece_cat1.
          exact (p_child_id "START-ON-EVENT-REF" _ _ _ (fun a E => k_RunnableEntityRef v "START-ON-EVENT-REF" a eq_refl (opt_in _ _ a G_start_on_event E))).
        }
        reflexivity.
      }
      {
        eapply piece_cat1.
        exact (p_child_id "EVENT-SOURCE-REF" _ _ _ (fun a E => k_ModeSwitchPointRef v "EVENT-SOURCE-REF" a eq_refl (opt_in _ _ a G_event_source E))).
      }
      reflexivity.
    }
    reflexivity.
  }
  { exact eq_refl. }
  { apply attrs_ok_nil. }
  intros t k ktl H N. cbv beta in H. unand H.
  unfold read_mode_switched_ack_event, read_rte_event_group. cbn [x_attrs x_kids].
  match goal with H : ident_read _ k |- _ => rewrite (H _ (no_uuid _ G_ident)); clear H end. cbn [bind].
  use_facts.
  rewrite new_ident by (apply ident_of; assumption). cbn [bind].
  destruct e; reflexivity.
Qed.
Lemma rt_OperationInvokedEvent v e : good_OperationInvokedEvent e -> carries "OPERATION-INVOKED-EVENT" (write_operation_invoked_event v e) (read_operation_invoked_event v) e.
Proof.
  unfold good_OperationInvokedEvent. intros (G_ident & G_disabled_modes & G_start_on_event & G_operation). unfold write_operation_invoked_event.
  eapply e_node2.
  {
    eapply p_ident; [exact (ident_of _ G_ident)| |].
    {
      eapply piece_cons.
      {
        unfold write_rte_event_group.
        eapply piece_cons.
        {
          exact (p_children_id "DISABLED-MODE-IREFS" "DISABLED-MODE-IREF" _ _ _  eq_refl (fun a I => rt_RModeInAtomicSwcInstanceRef v "DISABLED-MODE-IREF" a eq_refl (all_in _ _ a G_disabled_modes I))).
        }
        {
          eapply piece_cat1.
          exact (p_child_id "START-ON-EVENT-REF" _ _ _ (fun a E => k_RunnableEntityRef v "START-ON-EVENT-REF" a eq_refl (opt_in _ _ a G_start_on_event E))).
        }
        reflexivity.
      }
      {
        eapply piece_cat1.
        exact (p_child_id "OPERATION-IREF" _ _ _ (fun a E => rt_POperationInAtomicSwcInstanceRef v a (opt_in _ _ a G_operation E))).
      }
      reflexivity.
    }
    reflexivity.
  }
  { exact eq_refl. }
  { apply attrs_ok_nil. }
  intros t k ktl H N. cbv beta in H. unand H.
  unfold read_operation_invoked_event, read_rte_event_group. cbn [x_attrs x_kids].
  match goal with H : ident_read _ k |- _ => rewrite (H _ (no_uuid _ G_ident)); clear H end. cbn [bind].
  use_facts.
  rewrite new_ident by (apply ident_of; assumption). cbn [bind].
  destruct e; reflexivity.
Qed.
Lemma rt_SwcModeManagerErrorEvent v e : good_SwcModeManagerErrorEvent e -> carries "SWC-MODE-MANAGER-ERROR-EVENT" (write_swc_mode_manager_error_event v e) (read_swc_mode_manager_error_event v) e.
Proof.
  unfold good_SwcModeManagerErrorEvent. intros (G_ident & G_disabled_modes & G_start_on_event & G_mode_group). unfold write_swc_mode_manager_error_event.
  eapply e_node2.
  {
    eapply p_ident; [exact (ident_of _ G_ident)| |].
    {
      eapply piece_cons.
      {
        unfold write_rte_event_group.
        eapply piece_cons.
        {
          exact (p_children_id "DISABLED-MODE-IREFS" "DISABLED-MODE-IREF" _ _ _  eq_refl (fun a I => rt_RModeInAtomicSwcInstanceRef v "DISABLED-MODE-IREF" a eq_refl (all_in _ _ a G_disabled_modes I))).
        }
        {
          eapply piece_cat1.
          exact (p_child_id "START-ON-EVENT-REF" _ _ _ (fun a E => k_RunnableEntityRef v "START-ON-EVENT-REF" a eq_refl (opt_in _ _ a G_start_on_event E))).
        }
        reflexivity.
      }
      {
        eapply piece_cat1.
        exact (p_child_id "MODE-GROUP-IREF" _ _ _ (fun a E => rt_PModeGroupInAtomicSwcInstanceRef v "MODE-GROUP-IREF" a eq_refl (opt_in _ _ a G_mode_group E))).
      }
      reflexivity.
    }
    reflexivity.
  }
  { exact eq_refl. }
  { apply attrs_ok_nil. }
  intros t k ktl H N. cbv beta in H. unand H.
  unfold read_swc_mode_manager_error_event, read_rte_event_group. cbn [x_attrs x_kids].
  match goal with H : ident_read _ k |- _ => rewrite (H _ (no_uuid _ G_ident)); clear H end. cbn [bind].
  use_facts.
  rewrite new_ident by (apply ident_of; assumption). cbn [bind].
  destruct e; reflexivity.
Qed.
Lemma rt_TimingEvent v e : good_TimingEvent e -> carries "TIMING-EVENT" (write_timing_event v e) (read_timing_event v) e.
Proof.
  unfold good_TimingEvent. intros (G_ident & G_disabled_modes & G_start_on_event & G_offset & G_period). unfold write_timing_event.
  eapply e_node2.
  {
    eapply p_ident; [exact (ident_of _ G_ident)| |].
    {
      eapply piece_cons.
      {
        unfold write_rte_event_group.
        eapply piece_cons.
        {
          exact (p_children_id "DISABLED-MODE-IREFS" "DISABLED-MODE-IREF" _ _ _  eq_refl (fun a I => rt_RModeInAtomicSwcInstanceRef v "DISABLED-MODE-IREF" a eq_refl (all_in _ _ a G_disabled_modes I))).
        }
        {
          eapply piece_cat1.
          exact (p_child_id "START-ON-EVENT-REF" _ _ _ (fun a E => k_RunnableEntityRef v "START-ON-EVENT-REF" a eq_refl (opt_in _ _ a G_start_on_event E))).
        }
        reflexivity.
      }
      {
        eapply piece_cons.
        {
          exact (p_child "OFFSET" _ _ _ reread (fun a E => c_real "OFFSET" a eq_refl (opt_in _ _ a G_offset E))).
        }
        {
          eapply piece_cat1.
          exact (p_child "PERIOD" _ _ _ reread (fun a E => c_real "PERIOD" a eq_refl (opt_in _ _ a G_period E))).
        }
        reflexivity.
      }
      reflexivity.
    }
    reflexivity.
  }
  { exact eq_refl. }
  { apply attrs_ok_nil. }
  intros t k ktl H N. cbv beta in H. unand H.
  unfold read_timing_event, read_rte_event_group. cbn [x_attrs x_kids].
  match goal with H : ident_read _ k |- _ => rewrite (H _ (no_uuid _ G_ident)); clear H end. cbn [bind].
  use_facts.
  rewrite new_ident by (apply ident_of; assumption). cbn [bind].
  rewrite (as_float_opt _ G_offset).
  rewrite (as_float_opt _ G_period).
  destruct e; reflexivity.
Qed.
Lemma rt_TransformerHardErrorEvent v e : good_TransformerHardErrorEvent e -> carries "TRANSFORMER-HARD-ERROR-EVENT" (write_transformer_hard_error_event v e) (read_transformer_hard_error_event v) e.
Proof.
  unfold good_TransformerHardErrorEvent. intros (G_ident & G_disabled_modes & G_start_on_event & G_operation & G_required_trigger & G_trigger). unfold write_transformer_hard_error_event.
  eapply e_node2.
  {
    eapply p_ident; [exact (ident_of _ G_ident)| |].
    {
      eapply piece_cons.
      {
        unfold write_rte_event_group.
        eapply piece_cons.
        {
          exact (p_children_id "DISABLED-MODE-IREFS" "DISABLED-MODE-IREF" _ _ _  eq_refl (fun a I => rt_RModeInAtomicSwcInstanceRef v "DISABLED-MODE-IREF" a eq_refl (all_in _ _ a G_disabled_modes I))).
        }
        {
          eapply piece_cat1.
          exact (p_child_id "START-ON-EVENT-REF" _ _ _ (fun a E => k_RunnableEntityRef v "START-ON-EVENT-REF" a eq_refl (opt_in _ _ a G_start_on_event E))).
        }
        reflexivity.
      }
      {
        eapply piece_cat1.
        unfold write_transformer_hard_error_event_group.
        eapply piece_cons.
        {
          exact (p_child_id "OPERATION-IREF" _ _ _ (fun a E => rt_POperationInAtomicSwcInstanceRef v a (opt_in _ _ a G_operation E))).
        }
        {
          eapply piece_cons.
          {
            exact (p_child_id "REQUIRED-TRIGGER-IREF" _ _ _ (fun a E => rt_RTriggerInAtomicSwcInstanceRef v "REQUIRED-TRIGGER-IREF" a eq_refl (opt_in _ _ a G_required_trigger E))).
          }
          {
            eapply piece_cat1.
            exact (p_child_id "TRIGGER-IREF" _ _ _ (fun a E => rt_PTriggerInAtomicSwcTypeInstanceRef v "TRIGGER-IREF" a eq_refl (opt_in _ _ a G_trigger E))).
          }
          reflexivity.
        }
        reflexivity.
      }
      reflexivity.
    }
    reflexivity.
  }
  { exact eq_refl. }
  { apply attrs_ok_nil. }
  intros t k ktl H N. cbv beta in H. unand H.
  unfold read_transformer_hard_error_event, read_rte_event_group, read_transformer_hard_error_event_group. cbn [x_attrs x_kids].
  match goal with H : ident_read _ k |- _ => rewrite (H _ (no_uuid _ G_ident)); clear H end. cbn [bind].
  use_facts.
  rewrite new_ident by (apply ident_of; assumption). cbn [bind].
  destruct e; reflexivity.
Qed.
Lemma rt_CommunicationBufferLocking v e : good_CommunicationBufferLocking e -> carries "COMMUNICATION-BUFFER-LOCKING" (write_communication_buffer_locking v e) (read_communication_buffer_locking v) e.
Proof.
  unfold good_CommunicationBufferLocking. intros _. unfold write_communication_buffer_locking.
  destruct (CommunicationBufferLocking_is_empty e) eqn:E.
  { clear - E. unfold CommunicationBufferLocking_is_empty in E. apply e_empty; [exact eq_refl|]. destruct e. cbn in E. emptied E. subst. reflexivity. }
  clear E.
  eapply e_node2.
  {
    eapply piece_cat1.
    exact (p_child_id "SUPPORT-BUFFER-LOCKING" _ _ _ (fun a E => c_enum em_SupportBufferLocking "SUPPORT-BUFFER-LOCKING" a ok_SupportBufferLocking eq_refl)).
  }
  { exact eq_refl. }
  { apply attrs_ok_nil. }
  intros t k ktl H N. cbv beta in H. unand H.
  unfold read_communication_buffer_locking. cbn [x_attrs x_kids].
  use_facts.
  destruct e; reflexivity.
Qed.
Lemma rt_ExclusiveArea v e : good_ExclusiveArea e -> carries "EXCLUSIVE-AREA" (write_exclusive_area v e) (read_exclusive_area v) e.
Proof.
  unfold good_ExclusiveArea. intros G_ident. unfold write_exclusive_area.
  eapply e_node2.
  {
    exact (p_ident0 _ (ident_of _ G_ident)).
  }
  { exact eq_refl. }
  { apply attrs_ok_nil. }
  intros t k ktl H N. cbv beta in H. unand H.
  unfold read_exclusive_area. cbn [x_attrs x_kids].
  match goal with H : ident_read _ k |- _ => rewrite (H _ (no_uuid _ G_ident)); clear H end. cbn [bind].
  use_facts.
  rewrite new_ident by (apply ident_of; assumption). cbn [bind].
  destruct e; reflexivity.
Qed.
