(** C25-C29 and C41: single elements, written and read as texts. *)
From Verif Require Import Base PBase MNames PNames MNum SNum PNum PNum3 MXml SXml PXml PXml2 MEnum PEnum MRefTab MRef SEnum PRef MCodec SCodec PCodec PPiece PIdent MElem0 PElem0 PElemRef MElem1 MElemA MElemB MElemC MElem2 MElemD MElem3 MElem4 MElemE MElem5 MElemF SElem1 SElemA SElemB SElemC SElem2 SElemD SElem3 SElem4 SElemE SElem5 SElemF PElem1 PElemA PElemB PElemC PElem2 PElemD PElem3 PElem4 PElemE PElem5 PElemF MArxml SArxml PArxml PropsArxml PStable MStr SElem PSame.
Open Scope list_scope.

(** ** C25: value specifications *)

(** Every value specification, nested to any depth, is read back as the same tree of the same values. *)
Theorem C25_value_specification v e : good_ValueSpecificationElement e -> exists e', reloads_as (write_value_specification_element v) (read_value_specification_element v) e e' /\ same_value_spec e e'.
Proof. intros G. destruct (rt_ValueSpecificationElement v e G) as [tag C]. exists (norm_ValueSpecificationElement e). split; [exact (carries_reloads _ _ _ _ _ C)|apply same_norm_spec]. Qed.
Lemma ex_float : good_number (NFloat (FFin false 25 (-1))).
Proof. exists (FFin false 25 (-1)). split; [reflexivity|]. split; [repeat split; discriminate|split; reflexivity]. Qed.
Example C25_example : good_ValueSpecificationElement (RecordValueSpecification (Some "Init") [NumericalValueSpecification (Some "x") (Some (Bare (NInt (-5))));
  ArrayValueSpecification None [TextValueSpecification None (Some "a b"); NotAvailableValueSpecification None (Some 255%Z);
    ConstantReference None (Some (mkRef "/Constants/Zero" IdentifiableSubTypes_CONSTANT_SPECIFICATION));
    ApplicationValueSpecification (Some "m") (Some "MAP") [mkSwAxisCont None None (Some [PText "km"; PText "/h"]) (Some (IInt 1)) (Some (mkValueList [Bare (NInt 2)]))
       (Some (mkSwValues [SwGroup None [SwNumber (Bare (NInt 1)); SwNumber (Bare (NFloat (FFin false 25 (-1)))); SwText (Some "on")]]))] None]]).
Proof.
  repeat match goal with |- @ex pyfloat _ => exact ex_float | |- good_number _ => exact ex_float | |- good_float _ => exact ex_float | |- _ => progress (try exact I; try reflexivity; splits) | |- good_text _ => good | |- safe_text _ => good | |- good_ref _ _ => good | |- good_names _ => good
    | |- _ => progress cbn [good_ValueSpecificationElement all_ok opt_ok good_plain good_number good_SwAxisCont good_ValueList good_SwValues good_sw_value good_value good_index
       SwAxisCont_unit_ref SwAxisCont_unit_display_name SwAxisCont_sw_axis_index SwAxisCont_sw_array_size SwAxisCont_sw_values_phys ValueList_values SwValues_values]
    | |- _ => progress unfold good_SwAxisCont, good_ValueList, good_SwValues
    | |- _ => discriminate end.
Qed.
(** A number in hexadecimal format, which the class accepts, is written in a form the reader rejects. *)
Theorem C25_hexadecimal_refuted : exists e, e = NumericalValueSpecification None (Some (Wrapped (mkNum (NInt 31) FMT_HEXADECIMAL))) /\
  (exists text, element_text (write_value_specification_element 51 e) = Ok text) /\
  (let* text := element_text (write_value_specification_element 51 e) in read_element (read_value_specification_element 51) text) = Err ParseError.
Proof.
  exists (NumericalValueSpecification None (Some (Wrapped (mkNum (NInt 31) FMT_HEXADECIMAL)))). split; [reflexivity|]. split.
  - destruct (element_text _) as [t|e] eqn:E; [now exists t|]. exfalso. revert E. vm_compute. discriminate.
  - vm_compute. reflexivity.
Qed.

(** ** C26: data types *)

(** Implementation data types with elements nested to any depth, and with data definition properties nested through pointers, come back the same, apart from annotations after the first of one properties object. *)
Theorem C26_implementation_data_type v e : good_ImplementationDataType e -> exists e', reloads_as (write_implementation_data_type v) (read_implementation_data_type v) e e' /\ same_ImplementationDataType e e'.
Proof. intros G. exists (norm_ImplementationDataType e). split; [exact (carries_reloads _ _ _ _ _ (rt_ImplementationDataType v e G))|apply same_norm_type]. Qed.
(** Application data types. *)
Theorem C26_application_primitive_data_type v e : good_ApplicationPrimitiveDataType e -> reloads_as (write_application_primitive_data_type v) (read_application_primitive_data_type v) e (norm_ApplicationPrimitiveDataType e).
Proof. intros G. exact (carries_reloads _ _ _ _ _ (rt_ApplicationPrimitiveDataType v e G)). Qed.
Theorem C26_application_array_data_type v e : good_ApplicationArrayDataType e -> reloads_as (write_application_array_data_type v) (read_application_array_data_type v) e (norm_ApplicationArrayDataType e).
Proof. intros G. exact (carries_reloads _ _ _ _ _ (rt_ApplicationArrayDataType v e G)). Qed.
Theorem C26_application_record_data_type v e : good_ApplicationRecordDataType e -> reloads_as (write_application_record_data_type v) (read_application_record_data_type v) e (norm_ApplicationRecordDataType e).
Proof. intros G. exact (carries_reloads _ _ _ _ _ (rt_ApplicationRecordDataType v e G)). Qed.
Theorem C26_data_type_mapping_set v e : good_DataTypeMappingSet e -> reloads_as (write_data_type_mapping_set v) (read_data_type_mapping_set v) e e.
Proof. intros G. exact (carries_reloads _ _ _ _ _ (rt_DataTypeMappingSet v e G)). Qed.
Definition ex_props : SwDataDefProps := mkSwDataDefProps [mkSwDataDefPropsConditional None None [] None None
  (Some (mkRef "/Types/uint8" IdentifiableSubTypes_SW_BASE_TYPE)) None None None None None (Some "%d") None None None (Some (NInt 1)) None (Some true)
  (Some (mkSwPointerTargetProps (Some "VALUE") (Some (mkSwDataDefProps [])) None)) None].
Definition ex_type_element (n : string) (sub : list ImplementationDataTypeElement) : ImplementationDataTypeElement :=
  mkImplementationDataTypeElement (name_only n) (Some ex_props) (Some 4%Z) None (Some ArraySizeHandling_ALL_INDICES_SAME_ARRAY_SIZE) None sub (Some false).
Example C26_example : good_ImplementationDataType (mkImplementationDataType (name_only "T") (Some ex_props) None None
  [ex_type_element "a" [ex_type_element "b" []; ex_type_element "c" []]] None (Some "emit")).
Proof. good. Qed.
(** Of several annotations only the first is kept, for every list of annotations. *)
Theorem C26_annotations_refuted v a b l ann : all_ok good_annotation (a :: b :: l) ->
  ann = mkSwDataDefProps [mkSwDataDefPropsConditional None None (a :: b :: l) None None None None None None None None None None None None None None None None None] ->
  reloads_as (write_sw_data_def_props v "SW-DATA-DEF-PROPS") (read_sw_data_def_props v) ann
    (mkSwDataDefProps [mkSwDataDefPropsConditional None None [a] None None None None None None None None None None None None None None None None None]).
Proof.
  intros G ->. refine (carries_reloads _ _ _ _ _ (rt_SwDataDefProps v "SW-DATA-DEF-PROPS" _ eq_refl _)).
  cbn. unfold good_SwDataDefPropsConditional_. cbn. cbn in G. tauto.
Qed.

(** ** C27: computation methods and constraints *)

(** Computation methods come back with the same scales, limits, coefficients and texts. *)
Theorem C27_compu_method v e : good_CompuMethod e -> exists e', reloads_as (write_compu_method v) (read_compu_method v) e e' /\ same_CompuMethod e e'.
Proof. intros G. exists (norm_CompuMethod e). split; [exact (carries_reloads _ _ _ _ _ (rt_CompuMethod v e G))|apply same_norm_method]. Qed.
(** Data constraints come back with the same rules, limits and scales, apart from the validity of scales (C29). *)
Theorem C27_data_constraint v e : good_DataConstraint e -> exists e', reloads_as (write_data_constraint v) (read_data_constraint v) e e' /\ same_DataConstraint e e'.
Proof. intros G. exists (norm_DataConstraint e). split; [exact (carries_reloads _ _ _ _ _ (rt_DataConstraint v e G))|apply same_norm_constraint]. Qed.
Example C27_example : good_CompuMethod (mkCompuMethod (name_only "Speed")
  (Some (mkComputation (Some [mkCompuScale (Some (ScaleRational (mkCompuRational (Some [NInt 0; NInt 1]) (Some [NInt 10])))) (Some (SNum (NInt 0)))
      (Some (SNum (NInt 100))) (Some "range") None None (Some 255%Z) None IntervalType_CLOSED IntervalType_OPEN;
    mkCompuScale (Some (ScaleConst (mkCompuConst (Some (SText "invalid"))))) (Some (SNum (NInt 255))) (Some (SNum (NInt 255))) None None None None None
      IntervalType_CLOSED IntervalType_CLOSED]) (Some (mkCompuConst (Some (SNum (NInt 7))))))) None (Some (mkRef "/Units/Speed" IdentifiableSubTypes_UNIT)) (Some "%d")) /\
  good_DataConstraint (mkDataConstraint (name_only "Range") [mkDataConstraintRule (Some (mkInternalConstraint (mkConstraintBase (Some (NInt (-3))) (Some (NInt 9))
    IntervalType_OPEN IntervalType_CLOSED [mkScaleConstraint (Some (NInt 1)) None IntervalType_CLOSED IntervalType_CLOSED (Some "low") None None]
    (Some (NInt 2)) None (Some Monotony_INCREASING)))) None (Some 0%Z)]).
Proof. split; good. Qed.

(** ** C28: base types, units, mode groups, port interfaces *)

(** Base types come back equal. *)
Theorem C28_base_type v e : good_SwBaseType e -> reloads_as (write_sw_base_type v) (read_sw_base_type v) e e.
Proof. intros G. exact (carries_reloads _ _ _ _ _ (rt_SwBaseType v e G)). Qed.
(** Units come back equal, apart from the division of the display name into parts. *)
Theorem C28_unit v e : good_Unit e -> exists e', reloads_as (write_unit v) (read_unit v) e e' /\
  Unit_ident e = Unit_ident e' /\ opt_rel same_names (Unit_display_name e) (Unit_display_name e') /\
  Unit_physical_dimension_ref e = Unit_physical_dimension_ref e' /\ Unit_factor e = Unit_factor e' /\ Unit_offset e = Unit_offset e'.
Proof.
  intros G. exists (norm_Unit e). split; [exact (carries_reloads _ _ _ _ _ (rt_Unit v e G))|].
  splits; auto. apply opt_rel_map, same_merged.
Qed.
(** Mode declaration groups come back equal. *)
Theorem C28_mode_declaration_group v e : good_ModeDeclarationGroup e -> reloads_as (write_mode_declaration_group v) (read_mode_declaration_group v) e e.
Proof. intros G. exact (carries_reloads _ _ _ _ _ (rt_ModeDeclarationGroup v e G)). Qed.
(** Port interfaces without service kind come back equal, apart from what C25 and C26 say of the initial values and data properties of their members. *)
Theorem C28_mode_switch_interface v e : good_ModeSwitchInterface e -> reloads_as (write_mode_switch_interface v) (read_mode_switch_interface v) e e.
Proof. intros G. exact (carries_reloads _ _ _ _ _ (rt_ModeSwitchInterface v e G)). Qed.
Theorem C28_nv_data_interface v e : good_NvDataInterface e -> reloads_as (write_nv_data_interface v) (read_nv_data_interface v) e (norm_NvDataInterface e).
Proof. intros G. exact (carries_reloads _ _ _ _ _ (rt_NvDataInterface v e G)). Qed.
Theorem C28_parameter_interface v e : good_ParameterInterface e -> reloads_as (write_parameter_interface v) (read_parameter_interface v) e (norm_ParameterInterface e).
Proof. intros G. exact (carries_reloads _ _ _ _ _ (rt_ParameterInterface v e G)). Qed.
Theorem C28_sender_receiver_interface v e : good_SenderReceiverInterface e -> reloads_as (write_sender_receiver_interface v) (read_sender_receiver_interface v) e (norm_SenderReceiverInterface e).
Proof. intros G. exact (carries_reloads _ _ _ _ _ (rt_SenderReceiverInterface v e G)). Qed.
Theorem C28_client_server_interface v e : good_ClientServerInterface e -> reloads_as (write_client_server_interface v) (read_client_server_interface v) e (norm_ClientServerInterface e).
Proof. intros G. exact (carries_reloads _ _ _ _ _ (rt_ClientServerInterface v e G)). Qed.
Example C28_example : good_SwBaseType (mkSwBaseType (name_only "uint8") (Some 8%Z) None (Some "NONE") None None (Some "unsigned char")) /\
  good_SenderReceiverInterface (mkSenderReceiverInterface (name_only "Speed_I") (Some false) None
    [mkVariableDataPrototype (mkIdent "Speed" None None None None None None (Some "1-2")) (Some ex_props) (Some (mkRef "/Types/T" IdentifiableSubTypes_IMPLEMENTATION_DATA_TYPE))
       (Some (NumericalValueSpecification None (Some (Bare (NInt 3)))))]
    [mkInvalidationPolicy (Some (mkRef "/I/Speed_I/Speed" IdentifiableSubTypes_VARIABLE_DATA_PROTOTYPE)) (Some HandleInvalid_KEEP)]).
Proof. split; good. Qed.

(** ** C41: components, ports, behaviors *)

Theorem C41_provide_port_prototype v e : good_ProvidePortPrototype e -> reloads_as (write_provide_port_prototype v) (read_provide_port_prototype v) e (norm_ProvidePortPrototype e).
Proof. intros G. exact (carries_reloads _ _ _ _ _ (rt_ProvidePortPrototype v e G)). Qed.
Theorem C41_require_port_prototype v e : good_RequirePortPrototype e -> reloads_as (write_require_port_prototype v) (read_require_port_prototype v) e (norm_RequirePortPrototype e).
Proof. intros G. exact (carries_reloads _ _ _ _ _ (rt_RequirePortPrototype v e G)). Qed.
Theorem C41_pr_port_prototype v e : good_PRPortPrototype e -> reloads_as (write_pr_port_prototype v) (read_pr_port_prototype v) e (norm_PRPortPrototype e).
Proof. intros G. exact (carries_reloads _ _ _ _ _ (rt_PRPortPrototype v e G)). Qed.
Theorem C41_composition_sw_component_type v e : good_CompositionSwComponentType e -> reloads_as (write_composition_sw_component_type v) (read_composition_sw_component_type v) e (norm_CompositionSwComponentType e).
Proof. intros G. exact (carries_reloads _ _ _ _ _ (rt_CompositionSwComponentType v e G)). Qed.
Theorem C41_application_software_component_type v e : good_ApplicationSoftwareComponentType v e -> reloads_as (write_application_software_component_type v) (read_application_sw_component_type v) e (norm_ApplicationSoftwareComponentType e).
Proof. intros G. exact (carries_reloads _ _ _ _ _ (rt_ApplicationSoftwareComponentType v e G)). Qed.
Theorem C41_swc_internal_behavior v e : good_SwcInternalBehavior v e -> reloads_as (write_swc_internal_behavior v) (read_swc_internal_behavior v) e (norm_SwcInternalBehavior e).
Proof. intros G. exact (carries_reloads _ _ _ _ _ (rt_SwcInternalBehavior v e G)). Qed.
Theorem C41_runnable_entity v e : good_RunnableEntity v e -> reloads_as (write_runnable_entity v) (read_runnable_entity v) e (norm_RunnableEntity e).
Proof. intros G. exact (carries_reloads _ _ _ _ _ (rt_RunnableEntity v e G)). Qed.
(** Access points of one kind that have the same name come back with other names. *)
Theorem C41_access_names_refuted : exists a e e',
  good_VariableAccess a /\ RunnableEntity_data_read_access e = [a; a] /\ reloads_as (write_runnable_entity 51) (read_runnable_entity 51) e e' /\
  map (fun x => id_name (VariableAccess_ident x)) (RunnableEntity_data_read_access e) = ["A"; "A"] /\
  map (fun x => id_name (VariableAccess_ident x)) (RunnableEntity_data_read_access e') = ["A_0"; "A"].
Proof.
  pose (i := fun n => mkIdent n None None None None None None None). pose (a := fun n => mkVariableAccess (i n) None None).
  pose (r := fun l => mkRunnableEntity (i "Run") [] [] [] None None [] None [] [] None l [] [] [] [] [] [] [] [] [] [] [] None [] []).
  exists (a "A"), (r [a "A"; a "A"]), (r [a "A_0"; a "A"]). split.
  { unfold good_VariableAccess, a, i. good. }
  split; [reflexivity|]. split; [|split; reflexivity]. unfold reloads_as. eexists. split; [vm_compute; reflexivity|vm_compute; reflexivity].
Qed.
Theorem C41_assembly_sw_connector v e : good_AssemblySwConnector e -> reloads_as (write_assembly_sw_connector v) (read_assembly_sw_connector v) e e.
Proof. intros G. exact (carries_reloads _ _ _ _ _ (rt_AssemblySwConnector v e G)). Qed.
Theorem C41_delegation_sw_connector v e : good_DelegationSwConnector e -> reloads_as (write_delegation_sw_connector v) (read_delegation_sw_connector v) e e.
Proof. intros G. exact (carries_reloads _ _ _ _ _ (rt_DelegationSwConnector v e G)). Qed.
Theorem C41_swc_implementation v e : good_SwcImplementation e -> reloads_as (write_swc_implementation v) (read_swc_implementation v) e e.
Proof. intros G. exact (carries_reloads _ _ _ _ _ (rt_SwcImplementation v e G)). Qed.
Theorem C41_event v e : good_RteEvent e -> reloads_as (write_rte_event_element v) (read_rte_event_element v) e e.
Proof. intros G. destruct (rt_RteEvent v e G) as [tag C]. exact (carries_reloads _ _ _ _ _ C). Qed.
Theorem C41_provided_com_spec v e : good_ProvidePortComSpec e -> reloads_as (write_provided_com_spec v) (read_provided_com_spec v) e (norm_ProvidePortComSpec e).
Proof. intros G. destruct (rt_ProvidePortComSpec v e G) as [tag C]. exact (carries_reloads _ _ _ _ _ C). Qed.
Theorem C41_required_com_spec v e : good_RequirePortComSpec e -> reloads_as (write_required_com_spec v) (read_required_com_spec v) e (norm_RequirePortComSpec e).
Proof. intros G. destruct (rt_RequirePortComSpec v e G) as [tag C]. exact (carries_reloads _ _ _ _ _ C). Qed.
Example C41_example : good_CompositionSwComponentType (mkCompositionSwComponentType (name_only "Top")
    [PortPrototypeElement_P (mkProvidePortPrototype (name_only "Out") [ProvidePortComSpec_NonqueuedSenderComSpec
        (mkNonqueuedSenderComSpec (Some (mkRef "/I/Speed_I/Speed" IdentifiableSubTypes_VARIABLE_DATA_PROTOTYPE)) None None None None None None
           (Some (NumericalValueSpecification None (Some (Bare (NInt 3))))))] (Some (mkRef "/I/Speed_I" IdentifiableSubTypes_SENDER_RECEIVER_INTERFACE)))]
    [mkSwComponentPrototype (name_only "inst") (Some (mkRef "/C/App" IdentifiableSubTypes_APPLICATION_SW_COMPONENT_TYPE))] []).
Proof. good. Qed.

(** ** C29: what is kept and what is lost *)

(** What is kept: two documents that are saved as the same text are the same document up to the
    representation changes described by [norm_document]. *)
Theorem C29_text_determines_document_partial d d' text : good_document d -> good_document d' ->
  write_file d = Ok text -> write_file d' = Ok text -> norm_document d = norm_document d'.
Proof.
  intros G G' W W'. destruct (C24_document_round_trip d G) as (t & E & R). destruct (C24_document_round_trip d' G') as (t' & E' & R').
  assert (t = text) by congruence. assert (t' = text) by congruence. subst. specialize (R 51%N true). specialize (R' 51%N true). congruence.
Qed.
Definition with_uuid (u : option string) (i : identifiable) : identifiable :=
  mkIdent (id_name i) (id_long_name i) (id_desc i) (id_category i) (id_admin_data i) (id_introduction i) (id_annotations i) u.
Definition with_admin_data (a : option AdminData) (i : identifiable) : identifiable :=
  mkIdent (id_name i) (id_long_name i) (id_desc i) (id_category i) a (id_introduction i) (id_annotations i) (id_uuid i).
(** The UUID of these elements leaves no trace in the text, whatever it is. *)
Theorem C29_uuid_refuted v u i :
  (forall a b c d e f, write_implementation_data_type v (mkImplementationDataType (with_uuid u i) a b c d e f) = write_implementation_data_type v (mkImplementationDataType (with_uuid None i) a b c d e f)) /\
  (forall a, write_application_primitive_data_type v (mkApplicationPrimitiveDataType (with_uuid u i) a) = write_application_primitive_data_type v (mkApplicationPrimitiveDataType (with_uuid None i) a)) /\
  (forall a b c, write_application_array_data_type v (mkApplicationArrayDataType (with_uuid u i) a b c) = write_application_array_data_type v (mkApplicationArrayDataType (with_uuid None i) a b c)) /\
  (forall a b, write_application_record_data_type v (mkApplicationRecordDataType (with_uuid u i) a b) = write_application_record_data_type v (mkApplicationRecordDataType (with_uuid None i) a b)) /\
  (forall a b c d, write_sender_receiver_interface v (mkSenderReceiverInterface (with_uuid u i) a b c d) = write_sender_receiver_interface v (mkSenderReceiverInterface (with_uuid None i) a b c d)) /\
  (forall a b c d, write_client_server_interface v (mkClientServerInterface (with_uuid u i) a b c d) = write_client_server_interface v (mkClientServerInterface (with_uuid None i) a b c d)) /\
  (forall a b c, write_composition_sw_component_type v (mkCompositionSwComponentType (with_uuid u i) a b c) = write_composition_sw_component_type v (mkCompositionSwComponentType (with_uuid None i) a b c)) /\
  (forall a b c, write_application_software_component_type v (mkApplicationSoftwareComponentType (with_uuid u i) a b c) = write_application_software_component_type v (mkApplicationSoftwareComponentType (with_uuid None i) a b c)).
Proof. splits; reflexivity. Qed.
(** Base types, units, computation methods and packages keep it. *)
Theorem C29_uuid_kept v e : good_SwBaseType e -> exists e', reloads_as (write_sw_base_type v) (read_sw_base_type v) e e' /\
  id_uuid (SwBaseType_ident e') = id_uuid (SwBaseType_ident e).
Proof. intros G. exists e. split; [exact (C28_base_type v e G)|reflexivity]. Qed.
(** Administrative data is written nowhere. *)
Theorem C29_admin_data_refuted a i : write_identifiable (with_admin_data a i) = write_identifiable (with_admin_data None i).
Proof. unfold write_identifiable, with_admin_data. cbn [id_desc id_category id_admin_data id_introduction id_annotations]. destruct a; reflexivity. Qed.
(** The validity of a scale constraint is never read back. *)
Theorem C29_validity_refuted v e : good_ScaleConstraint e ->
  exists e', reloads_as (write_scale_constraint v) (read_scale_constraint v) e e' /\ ScaleConstraint_validity e' = None /\ same_ScaleConstraint e e'.
Proof.
  intros G. exists (norm_ScaleConstraint e). splits; [exact (carries_reloads _ _ _ _ _ (rt_ScaleConstraint v e G))|reflexivity|apply same_norm_scale_constraint].
Qed.
Example C29_validity_example : good_ScaleConstraint (mkScaleConstraint (Some (NInt 1)) (Some (NInt 2)) IntervalType_CLOSED IntervalType_CLOSED None None (Some ScaleConstraintValidity_VALID)).
Proof. good. Qed.
(** A port interface with a service kind cannot be written. *)
Theorem C29_service_kind_refuted v s k : write_port_interface v s (Some k) = Err KeyError.
Proof. destruct s as [[]|]; reflexivity. Qed.

Print Assumptions C25_value_specification.
Print Assumptions C25_hexadecimal_refuted.
Print Assumptions C26_implementation_data_type.
Print Assumptions C26_application_primitive_data_type.
Print Assumptions C26_application_array_data_type.
Print Assumptions C26_application_record_data_type.
Print Assumptions C26_data_type_mapping_set.
Print Assumptions C26_annotations_refuted.
Print Assumptions C27_compu_method.
Print Assumptions C27_data_constraint.
Print Assumptions C28_base_type.
Print Assumptions C28_unit.
Print Assumptions C28_mode_declaration_group.
Print Assumptions C28_mode_switch_interface.
Print Assumptions C28_nv_data_interface.
Print Assumptions C28_parameter_interface.
Print Assumptions C28_sender_receiver_interface.
Print Assumptions C28_client_server_interface.
Print Assumptions C41_provide_port_prototype.
Print Assumptions C41_require_port_prototype.
Print Assumptions C41_pr_port_prototype.
Print Assumptions C41_composition_sw_component_type.
Print Assumptions C41_application_software_component_type.
Print Assumptions C41_swc_internal_behavior.
Print Assumptions C41_runnable_entity.
Print Assumptions C41_assembly_sw_connector.
Print Assumptions C41_delegation_sw_connector.
Print Assumptions C41_swc_implementation.
Print Assumptions C41_event.
Print Assumptions C41_provided_com_spec.
Print Assumptions C41_required_com_spec.
Print Assumptions C29_text_determines_document_partial.
Print Assumptions C41_access_names_refuted.
Print Assumptions C29_uuid_refuted.
Print Assumptions C29_uuid_kept.
Print Assumptions C29_admin_data_refuted.
Print Assumptions C29_validity_refuted.
Print Assumptions C29_service_kind_refuted.
