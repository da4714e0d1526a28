(** Saving raises exceptions of a few kinds only. *)
From Verif Require Import Base MNum SNum MXml SXml MEnum MRefTab MRef SEnum MCodec SCodec MElem0 MElem1 MElemA MElemB MElemC MElem2 MElemD MElem3 MElem4 MElemE MElem5 MElemF MArxml PEnum PPiece PElemA PElemB PRef PElemC PArxml PFind SSave0 PSave0 SSave PSave MDispatch SRaise.
Open Scope list_scope.
Open Scope string_scope.
Create HintDb sorts.

Lemma w_ok {A} (a : A) : foreseen (Ok a).
Proof. intros e E. discriminate. Qed.
Lemma w_err {A} e : In e writing_kinds -> foreseen (A := A) (Err e).
Proof. intros I x [= <-]. exact I. Qed.
Lemma w_bind {A B} (r : result A) (f : A -> result B) : foreseen r -> (forall a, foreseen (f a)) -> foreseen (bind r f).
Proof. intros R F. destruct r as [a|e]; cbn; [apply F|]. intros x [= <-]. now apply R. Qed.
Lemma w_mapM {A B} (f : A -> result B) l : (forall a, foreseen (f a)) -> foreseen (mapM f l).
Proof. intros F. induction l as [|a l IH]; cbn [mapM]; [apply w_ok|]. apply w_bind; [apply F|]. intros b. apply w_bind; [exact IH|]. intros. apply w_ok. Qed.
Lemma w_nil : foreseen (cat []).
Proof. apply w_ok. Qed.
Lemma w_cons o l : foreseen o -> foreseen (cat l) -> foreseen (cat (o :: l)).
Proof. intros O L. cbn [cat]. unfold andthen. apply w_bind; [exact O|]. intro. apply w_bind; [exact L|]. intro. apply w_ok. Qed.
Lemma w_node tag a o : foreseen o -> foreseen (node tag a o).
Proof. intros O. unfold node. apply w_bind; [exact O|]. intro. apply w_ok. Qed.
Lemma w_each_in {A} (l : list A) f : (forall a, In a l -> foreseen (f a)) -> foreseen (for_each l f).
Proof. unfold for_each. induction l as [|a l IH]; intros F; cbn [map]; [apply w_nil|]. apply w_cons; [apply F; now left|]. apply IH. intros. apply F. now right. Qed.
Lemma w_some {A} (l : list A) o : foreseen o -> foreseen (if_some l o).
Proof. intros O. destruct l; [apply w_ok|exact O]. Qed.
Lemma w_each {A} (l : list A) f : (forall a, foreseen (f a)) -> foreseen (for_each l f).
Proof. intros F. apply w_each_in. auto. Qed.
Lemma w_enum {A} (m : enum_map A) a : enum_ok m -> foreseen (enum_text m a).
Proof. intros M. destruct (W_enum m a M) as [x E]. rewrite E. apply w_ok. Qed.
Lemma w_service_kind a : foreseen (enum_text em_ServiceKind a).
Proof. apply w_err. cbn. tauto. Qed.
Ltac head t := match t with ?f _ => head f | _ => t end.
Ltac sorts_step := cbv beta zeta; match goal with
  | |- forall _, _ => intro
  | |- foreseen (Ok _) => apply w_ok
  | |- foreseen (Err _) => apply w_err; cbn; tauto
  | |- foreseen (bind _ _) => apply w_bind; [|intro]
  | |- foreseen (mapM _ _) => apply w_mapM; intro
  | |- foreseen (cat []) => apply w_nil
  | |- foreseen (cat (_ :: _)) => apply w_cons
  | |- foreseen (node _ _ _) => apply w_node
  | IH : (forall a, In a ?l -> foreseen (?f a)) |- foreseen (for_each ?l ?f) => apply w_each_in; exact IH
  | |- foreseen (for_each _ _) => apply w_each; intro
  | |- foreseen (if_some _ _) => apply w_some
  | |- foreseen (enum_text em_ServiceKind _) => apply w_service_kind
  | |- foreseen (enum_text _ _) => apply w_enum; solve [auto with enums]
  | |- foreseen (enum_to_xml ?m ?a 51) => change (foreseen (enum_text m a))
  | |- foreseen (match ?x with _ => _ end) => destruct x
  | |- _ => solve [eauto with sorts nocore]
  | |- foreseen ?t => let h := head t in unfold h
  end.
Ltac sorts := repeat sorts_step.
Lemma w_attr_cat l : Forall foreseen l -> foreseen (attr_cat l).
Proof. intros F. unfold attr_cat. apply w_bind; [|intro; apply w_ok]. induction F as [|r l R _ IH]; cbn [mapM]; [apply w_ok|]. apply w_bind; [exact R|]. intro. apply w_bind; [exact IH|]. intro. apply w_ok. Qed.
Lemma w_attr_text n o : foreseen (attr_text n o).
Proof. apply w_ok. Qed.
Lemma w_attr_enum {A} n (m : enum_map A) o : enum_ok m -> foreseen (attr_enum n m o).
Proof. intros M. unfold attr_enum. destruct o as [a|]; [|apply w_ok]. apply w_bind; [now apply w_enum|]. intro. apply w_ok. Qed.
#[global] Hint Resolve w_attr_text w_attr_enum : sorts.
Ltac attrs_step := match goal with |- foreseen (attr_cat _) => apply w_attr_cat; unfold pag_attrs; cbn [app]; repeat apply Forall_cons; try apply Forall_nil;
  first [apply w_attr_text | apply w_attr_enum; solve [auto with enums]] end.
Ltac sorts ::= repeat first [attrs_step | sorts_step].
Lemma w_parts ok l : foreseen (write_parts ok l).
Proof. induction l as [|[s|i] l IH]; cbn [write_parts]; sorts. Qed.
#[global] Hint Resolve w_parts : sorts.
Lemma w_write_inline (i : inline_elem) : foreseen (write_inline i).
Proof. unfold write_inline. sorts. Qed.
#[global] Hint Resolve w_write_inline : sorts.
Lemma w_write_lang (tag : string) (t : lang_text) : foreseen (write_lang tag t).
Proof. unfold write_lang. sorts. Qed.
#[global] Hint Resolve w_write_lang : sorts.
Lemma w_write_langs (tag line : string) (l : list lang_text) : foreseen (write_langs tag line l).
Proof. unfold write_langs. sorts. Qed.
#[global] Hint Resolve w_write_langs : sorts.
Lemma w_write_unit_names (tag : string) (parts : SingleLanguageUnitNames) : foreseen (write_unit_names tag parts).
Proof. unfold write_unit_names. sorts. Qed.
#[global] Hint Resolve w_write_unit_names : sorts.
Lemma w_write_doc_item (i : doc_item) : foreseen (write_doc_item i).
Proof. unfold write_doc_item. sorts. Qed.
#[global] Hint Resolve w_write_doc_item : sorts.
Lemma w_write_doc (tag : string) (d : DocumentationBlock) : foreseen (write_doc tag d).
Proof. unfold write_doc. sorts. Qed.
#[global] Hint Resolve w_write_doc : sorts.
Lemma w_write_annotation (e : Annotation) : foreseen (write_annotation e).
Proof. unfold write_annotation. sorts. Qed.
#[global] Hint Resolve w_write_annotation : sorts.
Lemma w_write_annotations (l : list Annotation) : foreseen (write_annotations l).
Proof. unfold write_annotations. sorts. Qed.
#[global] Hint Resolve w_write_annotations : sorts.
Lemma w_write_admin_data (d : AdminData) : foreseen (write_admin_data d).
Proof. unfold write_admin_data. sorts. Qed.
#[global] Hint Resolve w_write_admin_data : sorts.
Lemma w_write_referrable (e : identifiable) : foreseen (write_referrable e).
Proof. unfold write_referrable. sorts. Qed.
#[global] Hint Resolve w_write_referrable : sorts.
Lemma w_write_multilanguage_referrable (e : identifiable) : foreseen (write_multilanguage_referrable e).
Proof. unfold write_multilanguage_referrable. sorts. Qed.
#[global] Hint Resolve w_write_multilanguage_referrable : sorts.
Lemma w_write_identifiable (e : identifiable) : foreseen (write_identifiable e).
Proof. unfold write_identifiable. sorts. Qed.
#[global] Hint Resolve w_write_identifiable : sorts.
Lemma w_write_unit_group (v : N) (f_display_name : option SingleLanguageUnitNames) (f_factor : option pynum) (f_offset : option pynum) (f_physical_dimension_ref : option ref) : foreseen (write_unit_group v f_display_name f_factor f_offset f_physical_dimension_ref).
Proof. unfold write_unit_group. sorts. Qed.
#[global] Hint Resolve w_write_unit_group : sorts.
Lemma w_write_unit (v : N) (e : Unit) : foreseen (write_unit v e).
Proof. unfold write_unit. sorts. Qed.
#[global] Hint Resolve w_write_unit : sorts.
Lemma w_write_data_filter_group (v : N) (f_data_filter_type : option DataFilterType) (f_mask : option Z) (f_max_val : option Z) (f_min_val : option Z) (f_offset : option Z) (f_period : option Z) (f_x : option Z) : foreseen (write_data_filter_group v f_data_filter_type f_mask f_max_val f_min_val f_offset f_period f_x).
Proof. unfold write_data_filter_group. sorts. Qed.
#[global] Hint Resolve w_write_data_filter_group : sorts.
Lemma w_write_data_filter (v : N) (tag : string) (e : DataFilter) : foreseen (write_data_filter v tag e).
Proof. unfold write_data_filter. sorts. Qed.
#[global] Hint Resolve w_write_data_filter : sorts.
Lemma w_write_engineering_object (v : N) (f_label : option string) (f_category : option string) : foreseen (write_engineering_object v f_label f_category).
Proof. unfold write_engineering_object. sorts. Qed.
#[global] Hint Resolve w_write_engineering_object : sorts.
Lemma w_write_autosar_engineering_object (v : N) (tag : string) (e : AutosarEngineeringObject) : foreseen (write_autosar_engineering_object v tag e).
Proof. unfold write_autosar_engineering_object. sorts. Qed.
#[global] Hint Resolve w_write_autosar_engineering_object : sorts.
Lemma w_write_code (v : N) (e : Code) : foreseen (write_code v e).
Proof. unfold write_code. sorts. Qed.
#[global] Hint Resolve w_write_code : sorts.
Lemma w_write_base_type (v : N) (f_size : option Z) (f_max_size : option Z) (f_encoding : option string) (f_alignment : option Z) (f_byte_order : option ByteOrder) (f_native_declaration : option string) : foreseen (write_base_type v f_size f_max_size f_encoding f_alignment f_byte_order f_native_declaration).
Proof. unfold write_base_type. sorts. Qed.
#[global] Hint Resolve w_write_base_type : sorts.
Lemma w_write_sw_base_type (v : N) (e : SwBaseType) : foreseen (write_sw_base_type v e).
Proof. unfold write_sw_base_type. sorts. Qed.
#[global] Hint Resolve w_write_sw_base_type : sorts.
Lemma w_write_sw_bit_represenation (v : N) (e : SwBitRepresentation) : foreseen (write_sw_bit_represenation v e).
Proof. unfold write_sw_bit_represenation. sorts. Qed.
#[global] Hint Resolve w_write_sw_bit_represenation : sorts.
Lemma w_write_sw_text_props (v : N) (e : SwTextProps) : foreseen (write_sw_text_props v e).
Proof. unfold write_sw_text_props. sorts. Qed.
#[global] Hint Resolve w_write_sw_text_props : sorts.
Lemma w_write_implementation_props (v : N) (f_symbol : option string) : foreseen (write_implementation_props v f_symbol).
Proof. unfold write_implementation_props. sorts. Qed.
#[global] Hint Resolve w_write_implementation_props : sorts.
Lemma w_write_symbol_props (v : N) (tag : string) (e : SymbolProps) : foreseen (write_symbol_props v tag e).
Proof. unfold write_symbol_props. sorts. Qed.
#[global] Hint Resolve w_write_symbol_props : sorts.
Lemma w_write_data_type_map (v : N) (e : DataTypeMap) : foreseen (write_data_type_map v e).
Proof. unfold write_data_type_map. sorts. Qed.
#[global] Hint Resolve w_write_data_type_map : sorts.
Lemma w_write_data_type_mapping_set (v : N) (e : DataTypeMappingSet) : foreseen (write_data_type_mapping_set v e).
Proof. unfold write_data_type_mapping_set. sorts. Qed.
#[global] Hint Resolve w_write_data_type_mapping_set : sorts.
Lemma w_write_mode_request_type_map (v : N) (e : ModeRequestTypeMap) : foreseen (write_mode_request_type_map v e).
Proof. unfold write_mode_request_type_map. sorts. Qed.
#[global] Hint Resolve w_write_mode_request_type_map : sorts.
Lemma w_write_mode_declaration (v : N) (e : ModeDeclaration) : foreseen (write_mode_declaration v e).
Proof. unfold write_mode_declaration. sorts. Qed.
#[global] Hint Resolve w_write_mode_declaration : sorts.
Lemma w_write_mode_error_behavior (v : N) (tag : string) (e : ModeErrorBehavior) : foreseen (write_mode_error_behavior v tag e).
Proof. unfold write_mode_error_behavior. sorts. Qed.
#[global] Hint Resolve w_write_mode_error_behavior : sorts.
Lemma w_write_mode_transition_group (v : N) (f_entered_mode_ref : option ref) (f_exited_mode_ref : option ref) : foreseen (write_mode_transition_group v f_entered_mode_ref f_exited_mode_ref).
Proof. unfold write_mode_transition_group. sorts. Qed.
#[global] Hint Resolve w_write_mode_transition_group : sorts.
Lemma w_write_mode_transition (v : N) (e : ModeTransition) : foreseen (write_mode_transition v e).
Proof. unfold write_mode_transition. sorts. Qed.
#[global] Hint Resolve w_write_mode_transition : sorts.
Lemma w_write_mode_declaration_group_prototype_data (v : N) (f_calibration_access : option SwCalibrationAccess) (f_type_ref : option ref) : foreseen (write_mode_declaration_group_prototype_data v f_calibration_access f_type_ref).
Proof. unfold write_mode_declaration_group_prototype_data. sorts. Qed.
#[global] Hint Resolve w_write_mode_declaration_group_prototype_data : sorts.
Lemma w_write_mode_declaration_group_prototype (v : N) (tag : string) (e : ModeDeclarationGroupPrototype) : foreseen (write_mode_declaration_group_prototype v tag e).
Proof. unfold write_mode_declaration_group_prototype. sorts. Qed.
#[global] Hint Resolve w_write_mode_declaration_group_prototype : sorts.
Lemma w_write_invalidation_policy_group (v : N) (f_data_element_ref : option ref) (f_handle_invalid : option HandleInvalid) : foreseen (write_invalidation_policy_group v f_data_element_ref f_handle_invalid).
Proof. unfold write_invalidation_policy_group. sorts. Qed.
#[global] Hint Resolve w_write_invalidation_policy_group : sorts.
Lemma w_write_invalidation_policy (v : N) (e : InvalidationPolicy) : foreseen (write_invalidation_policy v e).
Proof. unfold write_invalidation_policy. sorts. Qed.
#[global] Hint Resolve w_write_invalidation_policy : sorts.
Lemma w_write_application_error_group (v : N) (f_error_code : option Z) : foreseen (write_application_error_group v f_error_code).
Proof. unfold write_application_error_group. sorts. Qed.
#[global] Hint Resolve w_write_application_error_group : sorts.
Lemma w_write_application_error (v : N) (e : ApplicationError) : foreseen (write_application_error v e).
Proof. unfold write_application_error. sorts. Qed.
#[global] Hint Resolve w_write_application_error : sorts.
Lemma w_write_port_interface (v : N) (f_is_service : option bool) (f_service_kind : option ServiceKind) : foreseen (write_port_interface v f_is_service f_service_kind).
Proof. unfold write_port_interface. sorts. Qed.
#[global] Hint Resolve w_write_port_interface : sorts.
Lemma w_write_mode_switch_interface (v : N) (e : ModeSwitchInterface) : foreseen (write_mode_switch_interface v e).
Proof. unfold write_mode_switch_interface. sorts. Qed.
#[global] Hint Resolve w_write_mode_switch_interface : sorts.
Lemma w_write_describable (v : N) (f_desc : option (list lang_text)) (f_category : option string) (f_introduction : option DocumentationBlock) (f_admin_data : option AdminData) : foreseen (write_describable v f_desc f_category f_introduction f_admin_data).
Proof. unfold write_describable. sorts. Qed.
#[global] Hint Resolve w_write_describable : sorts.
Lemma w_write_e2e_transformation_com_spec_props_group (v : N) (f_clear_from_valid_to_invalid : option bool) (f_disable_e2e_check : option bool) (f_disable_e2e_state_machine : option bool) (f_e2e_profile_compatibility_props_ref : option ref) (f_max_delta_counter : option Z) (f_max_error_state_init : option Z) (f_max_error_state_invalid : option Z) (f_max_error_state_valid : option Z) (f_max_no_new_repeated_data : option Z) (f_min_ok_state_init : option Z) (f_min_ok_state_invalid : option Z) (f_min_ok_state_valid : option Z) (f_sync_counter_init : option Z) (f_window_size : option Z) (f_window_size_init : option Z) (f_window_size_invalid : option Z) (f_window_size_valid : option Z) : foreseen (write_e2e_transformation_com_spec_props_group v f_clear_from_valid_to_invalid f_disable_e2e_check f_disable_e2e_state_machine f_e2e_profile_compatibility_props_ref f_max_delta_counter f_max_error_state_init f_max_error_state_invalid f_max_error_state_valid f_max_no_new_repeated_data f_min_ok_state_init f_min_ok_state_invalid f_min_ok_state_valid f_sync_counter_init f_window_size f_window_size_init f_window_size_invalid f_window_size_valid).
Proof. unfold write_e2e_transformation_com_spec_props_group. sorts. Qed.
#[global] Hint Resolve w_write_e2e_transformation_com_spec_props_group : sorts.
Lemma w_write_e2e_transformation_com_spec_props (v : N) (e : EndToEndTransformationComSpecProps) : foreseen (write_e2e_transformation_com_spec_props v e).
Proof. unfold write_e2e_transformation_com_spec_props. sorts. Qed.
#[global] Hint Resolve w_write_e2e_transformation_com_spec_props : sorts.
Lemma w_write_e2e_profile_compatibility_props (v : N) (e : E2EProfileCompatibilityProps) : foreseen (write_e2e_profile_compatibility_props v e).
Proof. unfold write_e2e_profile_compatibility_props. sorts. Qed.
#[global] Hint Resolve w_write_e2e_profile_compatibility_props : sorts.
Lemma w_write_mode_switched_ack_request (v : N) (e : ModeSwitchedAckRequest) : foreseen (write_mode_switched_ack_request v e).
Proof. unfold write_mode_switched_ack_request. sorts. Qed.
#[global] Hint Resolve w_write_mode_switched_ack_request : sorts.
Lemma w_write_mode_switch_sender_com_spec_group (v : N) (f_enhanced_mode_api : option bool) (f_mode_group_ref : option ref) (f_mode_switched_ack : option ModeSwitchedAckRequest) (f_queue_length : option Z) : foreseen (write_mode_switch_sender_com_spec_group v f_enhanced_mode_api f_mode_group_ref f_mode_switched_ack f_queue_length).
Proof. unfold write_mode_switch_sender_com_spec_group. sorts. Qed.
#[global] Hint Resolve w_write_mode_switch_sender_com_spec_group : sorts.
Lemma w_write_mode_switch_sender_com_spec (v : N) (e : ModeSwitchSenderComSpec) : foreseen (write_mode_switch_sender_com_spec v e).
Proof. unfold write_mode_switch_sender_com_spec. sorts. Qed.
#[global] Hint Resolve w_write_mode_switch_sender_com_spec : sorts.
Lemma w_write_transmission_acknowledgement_request (v : N) (e : TransmissionAcknowledgementRequest) : foreseen (write_transmission_acknowledgement_request v e).
Proof. unfold write_transmission_acknowledgement_request. sorts. Qed.
#[global] Hint Resolve w_write_transmission_acknowledgement_request : sorts.
Lemma w_write_tranmsission_com_spec_props (v : N) (e : TransmissionComSpecProps) : foreseen (write_tranmsission_com_spec_props v e).
Proof. unfold write_tranmsission_com_spec_props. sorts. Qed.
#[global] Hint Resolve w_write_tranmsission_com_spec_props : sorts.
Lemma w_write_server_com_spec (v : N) (e : ServerComSpec) : foreseen (write_server_com_spec v e).
Proof. unfold write_server_com_spec. sorts. Qed.
#[global] Hint Resolve w_write_server_com_spec : sorts.
Lemma w_write_mode_switch_receiver_com_spec (v : N) (e : ModeSwitchReceiverComSpec) : foreseen (write_mode_switch_receiver_com_spec v e).
Proof. unfold write_mode_switch_receiver_com_spec. sorts. Qed.
#[global] Hint Resolve w_write_mode_switch_receiver_com_spec : sorts.
Lemma w_write_client_com_spec (v : N) (e : ClientComSpec) : foreseen (write_client_com_spec v e).
Proof. unfold write_client_com_spec. sorts. Qed.
#[global] Hint Resolve w_write_client_com_spec : sorts.
Lemma w_write_passthrough_sw_connector (v : N) (e : PassThroughSwConnector) : foreseen (write_passthrough_sw_connector v e).
Proof. unfold write_passthrough_sw_connector. sorts. Qed.
#[global] Hint Resolve w_write_passthrough_sw_connector : sorts.
Lemma w_write_implementtion (v : N) (f_code_descriptors : list Code) : foreseen (write_implementtion v f_code_descriptors).
Proof. unfold write_implementtion. sorts. Qed.
#[global] Hint Resolve w_write_implementtion : sorts.
Lemma w_write_swc_implementation_group (v : N) (f_behavior_ref : option ref) (f_required_rte_vendor : option string) : foreseen (write_swc_implementation_group v f_behavior_ref f_required_rte_vendor).
Proof. unfold write_swc_implementation_group. sorts. Qed.
#[global] Hint Resolve w_write_swc_implementation_group : sorts.
Lemma w_write_swc_implementation (v : N) (e : SwcImplementation) : foreseen (write_swc_implementation v e).
Proof. unfold write_swc_implementation. sorts. Qed.
#[global] Hint Resolve w_write_swc_implementation : sorts.
Lemma w_write_p_mode_group_in_atomic_swc_instance_ref (v : N) (tag : string) (e : PModeGroupInAtomicSwcInstanceRef) : foreseen (write_p_mode_group_in_atomic_swc_instance_ref v tag e).
Proof. unfold write_p_mode_group_in_atomic_swc_instance_ref. sorts. Qed.
#[global] Hint Resolve w_write_p_mode_group_in_atomic_swc_instance_ref : sorts.
Lemma w_write_p_operation_in_atomic_swc_instance_ref (v : N) (e : POperationInAtomicSwcInstanceRef) : foreseen (write_p_operation_in_atomic_swc_instance_ref v e).
Proof. unfold write_p_operation_in_atomic_swc_instance_ref. sorts. Qed.
#[global] Hint Resolve w_write_p_operation_in_atomic_swc_instance_ref : sorts.
Lemma w_write_p_trigger_in_atomic_swc_instance_ref (v : N) (tag : string) (e : PTriggerInAtomicSwcTypeInstanceRef) : foreseen (write_p_trigger_in_atomic_swc_instance_ref v tag e).
Proof. unfold write_p_trigger_in_atomic_swc_instance_ref. sorts. Qed.
#[global] Hint Resolve w_write_p_trigger_in_atomic_swc_instance_ref : sorts.
Lemma w_write_r_mode_in_atomic_swc_instance_ref (v : N) (tag : string) (e : RModeInAtomicSwcInstanceRef) : foreseen (write_r_mode_in_atomic_swc_instance_ref v tag e).
Proof. unfold write_r_mode_in_atomic_swc_instance_ref. sorts. Qed.
#[global] Hint Resolve w_write_r_mode_in_atomic_swc_instance_ref : sorts.
Lemma w_write_r_mode_group_in_atomic_swc_instance_ref (v : N) (e : RModeGroupInAtomicSwcInstanceRef) : foreseen (write_r_mode_group_in_atomic_swc_instance_ref v e).
Proof. unfold write_r_mode_group_in_atomic_swc_instance_ref. sorts. Qed.
#[global] Hint Resolve w_write_r_mode_group_in_atomic_swc_instance_ref : sorts.
Lemma w_write_r_operation_in_atomic_swc_instance_ref (v : N) (e : ROperationInAtomicSwcInstanceRef) : foreseen (write_r_operation_in_atomic_swc_instance_ref v e).
Proof. unfold write_r_operation_in_atomic_swc_instance_ref. sorts. Qed.
#[global] Hint Resolve w_write_r_operation_in_atomic_swc_instance_ref : sorts.
Lemma w_write_r_variable_in_atomic_swc_instance_ref (v : N) (e : RVariableInAtomicSwcInstanceRef) : foreseen (write_r_variable_in_atomic_swc_instance_ref v e).
Proof. unfold write_r_variable_in_atomic_swc_instance_ref. sorts. Qed.
#[global] Hint Resolve w_write_r_variable_in_atomic_swc_instance_ref : sorts.
Lemma w_write_r_trigger_in_atomic_swc_instance_ref (v : N) (tag : string) (e : RTriggerInAtomicSwcInstanceRef) : foreseen (write_r_trigger_in_atomic_swc_instance_ref v tag e).
Proof. unfold write_r_trigger_in_atomic_swc_instance_ref. sorts. Qed.
#[global] Hint Resolve w_write_r_trigger_in_atomic_swc_instance_ref : sorts.
Lemma w_write_variable_in_impl_data_instance_ref (v : N) (tag : string) (e : ArVariableInImplementationDataInstanceRef) : foreseen (write_variable_in_impl_data_instance_ref v tag e).
Proof. unfold write_variable_in_impl_data_instance_ref. sorts. Qed.
#[global] Hint Resolve w_write_variable_in_impl_data_instance_ref : sorts.
Lemma w_write_runnable_entity_argument (v : N) (e : RunnableEntityArgument) : foreseen (write_runnable_entity_argument v e).
Proof. unfold write_runnable_entity_argument. sorts. Qed.
#[global] Hint Resolve w_write_runnable_entity_argument : sorts.
Lemma w_write_executable_entity_activation_reason (v : N) (e : ExecutableEntityActivationReason) : foreseen (write_executable_entity_activation_reason v e).
Proof. unfold write_executable_entity_activation_reason. sorts. Qed.
#[global] Hint Resolve w_write_executable_entity_activation_reason : sorts.
Lemma w_write_exclusive_area_ref_conditional (v : N) (e : ExclusiveAreaRefConditional) : foreseen (write_exclusive_area_ref_conditional v e).
Proof. unfold write_exclusive_area_ref_conditional. sorts. Qed.
#[global] Hint Resolve w_write_exclusive_area_ref_conditional : sorts.
Lemma w_write_abstract_access_point (v : N) (f_return_value_provision : option RteApiReturnValueProvision) : foreseen (write_abstract_access_point v f_return_value_provision).
Proof. unfold write_abstract_access_point. sorts. Qed.
#[global] Hint Resolve w_write_abstract_access_point : sorts.
Lemma w_MElem1_write_server_call_point (v : N) (f_operation : option ROperationInAtomicSwcInstanceRef) (f_timeout : option pynum) : foreseen (MElem1.write_server_call_point v f_operation f_timeout).
Proof. unfold MElem1.write_server_call_point. sorts. Qed.
#[global] Hint Resolve w_MElem1_write_server_call_point : sorts.
Lemma w_write_async_server_call_point (v : N) (e : AsynchronousServerCallPoint) : foreseen (write_async_server_call_point v e).
Proof. unfold write_async_server_call_point. sorts. Qed.
#[global] Hint Resolve w_write_async_server_call_point : sorts.
Lemma w_write_sync_server_call_point (v : N) (e : SynchronousServerCallPoint) : foreseen (write_sync_server_call_point v e).
Proof. unfold write_sync_server_call_point. sorts. Qed.
#[global] Hint Resolve w_write_sync_server_call_point : sorts.
Lemma w_write_async_server_call_result_point_group (v : N) (f_async_server_call_point : option ref) : foreseen (write_async_server_call_result_point_group v f_async_server_call_point).
Proof. unfold write_async_server_call_result_point_group. sorts. Qed.
#[global] Hint Resolve w_write_async_server_call_result_point_group : sorts.
Lemma w_write_async_server_call_result_point (v : N) (e : AsynchronousServerCallResultPoint) : foreseen (write_async_server_call_result_point v e).
Proof. unfold write_async_server_call_result_point. sorts. Qed.
#[global] Hint Resolve w_write_async_server_call_result_point : sorts.
Lemma w_write_external_triggering_point_ident (v : N) (e : ExternalTriggeringPointIdent) : foreseen (write_external_triggering_point_ident v e).
Proof. unfold write_external_triggering_point_ident. sorts. Qed.
#[global] Hint Resolve w_write_external_triggering_point_ident : sorts.
Lemma w_write_external_triggering_point (v : N) (e : ExternalTriggeringPoint) : foreseen (write_external_triggering_point v e).
Proof. unfold write_external_triggering_point. sorts. Qed.
#[global] Hint Resolve w_write_external_triggering_point : sorts.
Lemma w_write_internal_triggering_point (v : N) (e : InternalTriggeringPoint) : foreseen (write_internal_triggering_point v e).
Proof. unfold write_internal_triggering_point. sorts. Qed.
#[global] Hint Resolve w_write_internal_triggering_point : sorts.
Lemma w_write_mode_access_point_ident (v : N) (e : ModeAccessPointIdent) : foreseen (write_mode_access_point_ident v e).
Proof. unfold write_mode_access_point_ident. sorts. Qed.
#[global] Hint Resolve w_write_mode_access_point_ident : sorts.
Lemma w_write_mode_switch_point (v : N) (e : ModeSwitchPoint) : foreseen (write_mode_switch_point v e).
Proof. unfold write_mode_switch_point. sorts. Qed.
#[global] Hint Resolve w_write_mode_switch_point : sorts.
Lemma w_write_parameter_in_atomic_swc_type_instance_ref (v : N) (e : ParameterInAtomicSwcTypeInstanceRef) : foreseen (write_parameter_in_atomic_swc_type_instance_ref v e).
Proof. unfold write_parameter_in_atomic_swc_type_instance_ref. sorts. Qed.
#[global] Hint Resolve w_write_parameter_in_atomic_swc_type_instance_ref : sorts.
Lemma w_write_autosar_parameter_ref (v : N) (tag : string) (e : AutosarParameterRef) : foreseen (write_autosar_parameter_ref v tag e).
Proof. unfold write_autosar_parameter_ref. sorts. Qed.
#[global] Hint Resolve w_write_autosar_parameter_ref : sorts.
Lemma w_write_wait_point_group (v : N) (f_timeout : option pynum) (f_trigger : option ref) : foreseen (write_wait_point_group v f_timeout f_trigger).
Proof. unfold write_wait_point_group. sorts. Qed.
#[global] Hint Resolve w_write_wait_point_group : sorts.
Lemma w_write_wait_point (v : N) (e : WaitPoint) : foreseen (write_wait_point v e).
Proof. unfold write_wait_point. sorts. Qed.
#[global] Hint Resolve w_write_wait_point : sorts.
Lemma w_write_rte_event_group (v : N) (f_disabled_modes : list RModeInAtomicSwcInstanceRef) (f_start_on_event : option ref) : foreseen (write_rte_event_group v f_disabled_modes f_start_on_event).
Proof. unfold write_rte_event_group. sorts. Qed.
#[global] Hint Resolve w_write_rte_event_group : sorts.
Lemma w_write_async_server_call_returns_event (v : N) (e : AsynchronousServerCallReturnsEvent) : foreseen (write_async_server_call_returns_event v e).
Proof. unfold write_async_server_call_returns_event. sorts. Qed.
#[global] Hint Resolve w_write_async_server_call_returns_event : sorts.
Lemma w_write_background_event (v : N) (e : BackgroundEvent) : foreseen (write_background_event v e).
Proof. unfold write_background_event. sorts. Qed.
#[global] Hint Resolve w_write_background_event : sorts.
Lemma w_write_data_receive_error_event (v : N) (e : DataReceiveErrorEvent) : foreseen (write_data_receive_error_event v e).
Proof. unfold write_data_receive_error_event. sorts. Qed.
#[global] Hint Resolve w_write_data_receive_error_event : sorts.
Lemma w_write_data_received_event (v : N) (e : DataReceivedEvent) : foreseen (write_data_received_event v e).
Proof. unfold write_data_received_event. sorts. Qed.
#[global] Hint Resolve w_write_data_received_event : sorts.
Lemma w_write_data_send_completed_event (v : N) (e : DataSendCompletedEvent) : foreseen (write_data_send_completed_event v e).
Proof. unfold write_data_send_completed_event. sorts. Qed.
#[global] Hint Resolve w_write_data_send_completed_event : sorts.
Lemma w_write_data_write_completed_event (v : N) (e : DataWriteCompletedEvent) : foreseen (write_data_write_completed_event v e).
Proof. unfold write_data_write_completed_event. sorts. Qed.
#[global] Hint Resolve w_write_data_write_completed_event : sorts.
Lemma w_write_external_trigger_occured_event (v : N) (e : ExternalTriggerOccurredEvent) : foreseen (write_external_trigger_occured_event v e).
Proof. unfold write_external_trigger_occured_event. sorts. Qed.
#[global] Hint Resolve w_write_external_trigger_occured_event : sorts.
Lemma w_write_init_event (v : N) (e : InitEvent) : foreseen (write_init_event v e).
Proof. unfold write_init_event. sorts. Qed.
#[global] Hint Resolve w_write_init_event : sorts.
Lemma w_write_internal_trigger_occured_event (v : N) (e : InternalTriggerOccurredEvent) : foreseen (write_internal_trigger_occured_event v e).
Proof. unfold write_internal_trigger_occured_event. sorts. Qed.
#[global] Hint Resolve w_write_internal_trigger_occured_event : sorts.
Lemma w_write_mode_switched_ack_event (v : N) (e : ModeSwitchedAckEvent) : foreseen (write_mode_switched_ack_event v e).
Proof. unfold write_mode_switched_ack_event. sorts. Qed.
#[global] Hint Resolve w_write_mode_switched_ack_event : sorts.
Lemma w_write_operation_invoked_event (v : N) (e : OperationInvokedEvent) : foreseen (write_operation_invoked_event v e).
Proof. unfold write_operation_invoked_event. sorts. Qed.
#[global] Hint Resolve w_write_operation_invoked_event : sorts.
Lemma w_write_swc_mode_manager_error_event (v : N) (e : SwcModeManagerErrorEvent) : foreseen (write_swc_mode_manager_error_event v e).
Proof. unfold write_swc_mode_manager_error_event. sorts. Qed.
#[global] Hint Resolve w_write_swc_mode_manager_error_event : sorts.
Lemma w_write_timing_event (v : N) (e : TimingEvent) : foreseen (write_timing_event v e).
Proof. unfold write_timing_event. sorts. Qed.
#[global] Hint Resolve w_write_timing_event : sorts.
Lemma w_write_transformer_hard_error_event_group (v : N) (f_operation : option POperationInAtomicSwcInstanceRef) (f_required_trigger : option RTriggerInAtomicSwcInstanceRef) (f_trigger : option PTriggerInAtomicSwcTypeInstanceRef) : foreseen (write_transformer_hard_error_event_group v f_operation f_required_trigger f_trigger).
Proof. unfold write_transformer_hard_error_event_group. sorts. Qed.
#[global] Hint Resolve w_write_transformer_hard_error_event_group : sorts.
Lemma w_write_transformer_hard_error_event (v : N) (e : TransformerHardErrorEvent) : foreseen (write_transformer_hard_error_event v e).
Proof. unfold write_transformer_hard_error_event. sorts. Qed.
#[global] Hint Resolve w_write_transformer_hard_error_event : sorts.
Lemma w_write_communication_buffer_locking (v : N) (e : CommunicationBufferLocking) : foreseen (write_communication_buffer_locking v e).
Proof. unfold write_communication_buffer_locking. sorts. Qed.
#[global] Hint Resolve w_write_communication_buffer_locking : sorts.
Lemma w_write_exclusive_area (v : N) (e : ExclusiveArea) : foreseen (write_exclusive_area v e).
Proof. unfold write_exclusive_area. sorts. Qed.
#[global] Hint Resolve w_write_exclusive_area : sorts.
Lemma w_write_limit (tag : string) (limit : scalar) (ty : IntervalType) : foreseen (write_limit tag limit ty).
Proof. unfold write_limit. sorts. Qed.
#[global] Hint Resolve w_write_limit : sorts.
Lemma w_write_compu_const (v : N) (tag : string) (e : CompuConst) : foreseen (write_compu_const v tag e).
Proof. unfold write_compu_const. sorts. Qed.
#[global] Hint Resolve w_write_compu_const : sorts.
Lemma w_write_numerator_denominator_values (l : list pynum) : foreseen (write_numerator_denominator_values l).
Proof. unfold write_numerator_denominator_values. sorts. Qed.
#[global] Hint Resolve w_write_numerator_denominator_values : sorts.
Lemma w_write_compu_rational (v : N) (e : CompuRational) : foreseen (write_compu_rational v e).
Proof. unfold write_compu_rational. sorts. Qed.
#[global] Hint Resolve w_write_compu_rational : sorts.
Lemma w_write_compu_scale (v : N) (e : CompuScale) : foreseen (write_compu_scale v e).
Proof. unfold write_compu_scale. sorts. Qed.
#[global] Hint Resolve w_write_compu_scale : sorts.
Lemma w_write_computation (v : N) (tag : string) (e : Computation) : foreseen (write_computation v tag e).
Proof. unfold write_computation. sorts. Qed.
#[global] Hint Resolve w_write_computation : sorts.
Lemma w_write_scale_constraint (v : N) (e : ScaleConstraint) : foreseen (write_scale_constraint v e).
Proof. unfold write_scale_constraint. sorts. Qed.
#[global] Hint Resolve w_write_scale_constraint : sorts.
Lemma w_write_constraint_base (v : N) (e : ConstraintBase) : foreseen (write_constraint_base v e).
Proof. unfold write_constraint_base. sorts. Qed.
#[global] Hint Resolve w_write_constraint_base : sorts.
Lemma w_write_internal_constraint (v : N) (e : InternalConstraint) : foreseen (write_internal_constraint v e).
Proof. unfold write_internal_constraint. sorts. Qed.
#[global] Hint Resolve w_write_internal_constraint : sorts.
Lemma w_write_physical_constraint (v : N) (e : PhysicalConstraint) : foreseen (write_physical_constraint v e).
Proof. unfold write_physical_constraint. sorts. Qed.
#[global] Hint Resolve w_write_physical_constraint : sorts.
Lemma w_write_data_constraint_rule (v : N) (e : DataConstraintRule) : foreseen (write_data_constraint_rule v e).
Proof. unfold write_data_constraint_rule. sorts. Qed.
#[global] Hint Resolve w_write_data_constraint_rule : sorts.
Lemma w_write_data_constraint (v : N) (e : DataConstraint) : foreseen (write_data_constraint v e).
Proof. unfold write_data_constraint. sorts. Qed.
#[global] Hint Resolve w_write_data_constraint : sorts.
Lemma w_write_compu_method (v : N) (e : CompuMethod) : foreseen (write_compu_method v e).
Proof. unfold write_compu_method. sorts. Qed.
#[global] Hint Resolve w_write_compu_method : sorts.
Lemma w_write_value_list (v : N) (e : ValueList) : foreseen (write_value_list v e).
Proof. unfold write_value_list. sorts. Qed.
#[global] Hint Resolve w_write_value_list : sorts.
Lemma w_write_sw_value e : foreseen (write_sw_value e).
Proof. induction e as [[s|]|n|l vs IH] using sw_value_ind2; cbn [write_sw_value]; sorts. Qed.
#[global] Hint Resolve w_write_sw_value : sorts.

Lemma w_write_sw_values (v : N) (e : SwValues) : foreseen (write_sw_values v e).
Proof. unfold write_sw_values. sorts. Qed.
#[global] Hint Resolve w_write_sw_values : sorts.
Lemma w_write_sw_axis_cont (v : N) (e : SwAxisCont) : foreseen (write_sw_axis_cont v e).
Proof. unfold write_sw_axis_cont. sorts. Qed.
#[global] Hint Resolve w_write_sw_axis_cont : sorts.
Lemma w_write_sw_addr_method (v : N) (e : SwAddrMethod) : foreseen (write_sw_addr_method v e).
Proof. unfold write_sw_addr_method. sorts. Qed.
#[global] Hint Resolve w_write_sw_addr_method : sorts.
Lemma w_set_in {A} (o : option A) f : (forall a, o = Some a -> foreseen (f a)) -> foreseen (if_set o f).
Proof. intros F. destruct o; [now apply F|apply w_ok]. Qed.
Lemma w_pointer {R} (self : R -> out) e : (forall r, SwPointerTargetProps_sw_data_def_props e = Some r -> foreseen (self r)) -> foreseen (write_sw_pointer_target_props_ self e).
Proof.
  intros H. unfold write_sw_pointer_target_props_. destruct (SwPointerTargetProps_is_empty e); [sorts|]. apply w_node.
  repeat match goal with |- foreseen (cat (if_set (SwPointerTargetProps_sw_data_def_props e) self :: _)) => apply w_cons; [apply w_set_in, H|] | |- foreseen (cat (_ :: _)) => apply w_cons; [solve [sorts]|] end. apply w_nil.
Qed.

Lemma w_conditional {P} v (self : P -> out) e : (forall p, dd_ptr_target_props e = Some p -> foreseen (self p)) -> foreseen (write_sw_data_def_props_conditional_ v self e).
Proof.
  intros H. unfold write_sw_data_def_props_conditional_. destruct (SwDataDefPropsConditional_is_empty e); [sorts|]. apply w_node.
  repeat match goal with |- foreseen (cat (if_set (dd_ptr_target_props e) _ :: _)) => apply w_cons; [apply w_set_in, H|] | |- foreseen (cat (_ :: _)) => apply w_cons; [solve [sorts]|] end. apply w_nil.
Qed.

Lemma w_write_sw_data_def_props v tag e : foreseen (write_sw_data_def_props v tag e).
Proof.
  revert tag. induction e as [l IH] using SwDataDefProps_ind2. intros tag. cbn [write_sw_data_def_props]. destruct (no_items l); [sorts|]. apply w_node. apply w_some, w_node, w_each_in. intros c Ic. apply w_conditional. intros p Ep. apply w_pointer. intros r Er. eapply IH; eassumption.
Qed.
#[global] Hint Resolve w_write_sw_data_def_props : sorts.
Lemma w_ptr v e : foreseen (write_sw_pointer_target_props v e).
Proof. unfold write_sw_pointer_target_props. apply w_pointer. intros r _. apply w_write_sw_data_def_props. Qed.
Lemma w_cond v e : foreseen (write_sw_data_def_props_conditional v e).
Proof. unfold write_sw_data_def_props_conditional. apply w_conditional. intros p _. apply w_ptr. Qed.
#[global] Hint Resolve w_ptr w_cond : sorts.

Lemma w_write_sw_pointer_target_props (v : N) (e : SwPointerTargetProps) : foreseen (write_sw_pointer_target_props v e).
Proof. apply w_ptr. Qed.
#[global] Hint Resolve w_write_sw_pointer_target_props : sorts.
Lemma w_write_sw_data_def_props_conditional (v : N) (e : SwDataDefPropsConditional) : foreseen (write_sw_data_def_props_conditional v e).
Proof. apply w_cond. Qed.
#[global] Hint Resolve w_write_sw_data_def_props_conditional : sorts.
Lemma w_write_implementation_data_type_element v e : foreseen (write_implementation_data_type_element v e).
Proof.
  induction e as [e IH] using ImplementationDataTypeElement_ind2. destruct e as [ident props size policy handling semantics sub optional].
  cbn [write_implementation_data_type_element ImplementationDataTypeElement_sub_elements] in *. apply w_node.
  repeat match goal with |- foreseen (cat (if_some sub _ :: _)) => apply w_cons; [apply w_some, w_node, w_each_in, IH|] | |- foreseen (cat (_ :: _)) => apply w_cons; [solve [sorts]|] end. apply w_nil.
Qed.
#[global] Hint Resolve w_write_implementation_data_type_element : sorts.

Lemma w_write_sw_value_cont (v : N) (e : SwValueCont) : foreseen (write_sw_value_cont v e).
Proof. unfold write_sw_value_cont. sorts. Qed.
#[global] Hint Resolve w_write_sw_value_cont : sorts.
Lemma w_write_value_specification_group (label : option string) : foreseen (write_value_specification_group label).
Proof. unfold write_value_specification_group. sorts. Qed.
#[global] Hint Resolve w_write_value_specification_group : sorts.
Lemma w_write_value_specification_element v e : foreseen (write_value_specification_element v e).
Proof.
  induction e as [e B|label l IH|label l IH] using ValueSpecificationElement_ind2.
  - destruct e; try contradiction; cbn [write_value_specification_element]; sorts.
  - cbn [write_value_specification_element]. destruct (_ && _); [sorts|]. apply w_node, w_cons; [sorts|]. apply w_cons; [|apply w_nil]. apply w_some, w_node, w_each_in, IH.
  - cbn [write_value_specification_element]. destruct (_ && _); [sorts|]. apply w_node, w_cons; [sorts|]. apply w_cons; [|apply w_nil]. apply w_some, w_node, w_each_in, IH.
Qed.
#[global] Hint Resolve w_write_value_specification_element : sorts.

Lemma w_write_variable_in_atomic_swc_type_instance_ref (v : N) (e : VariableInAtomicSWCTypeInstanceRef) : foreseen (write_variable_in_atomic_swc_type_instance_ref v e).
Proof. unfold write_variable_in_atomic_swc_type_instance_ref. sorts. Qed.
#[global] Hint Resolve w_write_variable_in_atomic_swc_type_instance_ref : sorts.
Lemma w_write_port_in_composition_type_instance_ref (v : N) (tag : string) (e : PortInCompositionTypeInstanceRef) : foreseen (write_port_in_composition_type_instance_ref v tag e).
Proof. unfold write_port_in_composition_type_instance_ref. sorts. Qed.
#[global] Hint Resolve w_write_port_in_composition_type_instance_ref : sorts.
Lemma w_write_assembly_sw_connector (v : N) (e : AssemblySwConnector) : foreseen (write_assembly_sw_connector v e).
Proof. unfold write_assembly_sw_connector. sorts. Qed.
#[global] Hint Resolve w_write_assembly_sw_connector : sorts.
Lemma w_write_delegation_sw_connector (v : N) (e : DelegationSwConnector) : foreseen (write_delegation_sw_connector v e).
Proof. unfold write_delegation_sw_connector. sorts. Qed.
#[global] Hint Resolve w_write_delegation_sw_connector : sorts.
Lemma w_write_sw_connector_element (v : N) (c : SwConnectorElement) : foreseen (write_sw_connector_element v c).
Proof. unfold write_sw_connector_element. sorts. Qed.
#[global] Hint Resolve w_write_sw_connector_element : sorts.
Lemma w_write_mode_group_iref (v : N) (g : ModeGroupInAtomicSwcInstanceRef) : foreseen (write_mode_group_iref v g).
Proof. unfold write_mode_group_iref. sorts. Qed.
#[global] Hint Resolve w_write_mode_group_iref : sorts.
Lemma w_write_mode_access_point (v : N) (e : ModeAccessPoint) : foreseen (write_mode_access_point v e).
Proof. unfold write_mode_access_point. sorts. Qed.
#[global] Hint Resolve w_write_mode_access_point : sorts.
Lemma w_write_autosar_data_type (v : N) (f_sw_data_def_props : option SwDataDefProps) : foreseen (write_autosar_data_type v f_sw_data_def_props).
Proof. unfold write_autosar_data_type. sorts. Qed.
#[global] Hint Resolve w_write_autosar_data_type : sorts.
Lemma w_write_implementation_data_type_group (v : N) (f_dynamic_array_size_profile : option string) (f_is_struct_with_optional_element : option bool) (f_sub_elements : list ImplementationDataTypeElement) (f_symbol_props : option SymbolProps) (f_type_emitter : option string) : foreseen (write_implementation_data_type_group v f_dynamic_array_size_profile f_is_struct_with_optional_element f_sub_elements f_symbol_props f_type_emitter).
Proof. unfold write_implementation_data_type_group. sorts. Qed.
#[global] Hint Resolve w_write_implementation_data_type_group : sorts.
Lemma w_write_implementation_data_type (v : N) (e : ImplementationDataType) : foreseen (write_implementation_data_type v e).
Proof. unfold write_implementation_data_type. sorts. Qed.
#[global] Hint Resolve w_write_implementation_data_type : sorts.
Lemma w_write_application_primitive_data_type (v : N) (e : ApplicationPrimitiveDataType) : foreseen (write_application_primitive_data_type v e).
Proof. unfold write_application_primitive_data_type. sorts. Qed.
#[global] Hint Resolve w_write_application_primitive_data_type : sorts.
Lemma w_write_data_prototype (v : N) (f_sw_data_def_props : option SwDataDefProps) : foreseen (write_data_prototype v f_sw_data_def_props).
Proof. unfold write_data_prototype. sorts. Qed.
#[global] Hint Resolve w_write_data_prototype : sorts.
Lemma w_write_application_composite_element_data_prototype (v : N) (f_type_ref : option ref) : foreseen (write_application_composite_element_data_prototype v f_type_ref).
Proof. unfold write_application_composite_element_data_prototype. sorts. Qed.
#[global] Hint Resolve w_write_application_composite_element_data_prototype : sorts.
Lemma w_write_application_array_element_group (v : N) (f_array_size_handling : option ArraySizeHandling) (f_array_size_semantics : option ArraySizeSemantics) (f_index_data_type_ref : option ref) (f_max_number_of_elements : option Z) : foreseen (write_application_array_element_group v f_array_size_handling f_array_size_semantics f_index_data_type_ref f_max_number_of_elements).
Proof. unfold write_application_array_element_group. sorts. Qed.
#[global] Hint Resolve w_write_application_array_element_group : sorts.
Lemma w_write_application_array_element (v : N) (e : ApplicationArrayElement) : foreseen (write_application_array_element v e).
Proof. unfold write_application_array_element. sorts. Qed.
#[global] Hint Resolve w_write_application_array_element : sorts.
Lemma w_write_application_record_element_group (v : N) (f_is_optional : option bool) : foreseen (write_application_record_element_group v f_is_optional).
Proof. unfold write_application_record_element_group. sorts. Qed.
#[global] Hint Resolve w_write_application_record_element_group : sorts.
Lemma w_write_application_record_element (v : N) (e : ApplicationRecordElement) : foreseen (write_application_record_element v e).
Proof. unfold write_application_record_element. sorts. Qed.
#[global] Hint Resolve w_write_application_record_element : sorts.
Lemma w_write_application_array_data_type_group (v : N) (f_dynamic_array_size_profile : option string) (f_element : option ApplicationArrayElement) : foreseen (write_application_array_data_type_group v f_dynamic_array_size_profile f_element).
Proof. unfold write_application_array_data_type_group. sorts. Qed.
#[global] Hint Resolve w_write_application_array_data_type_group : sorts.
Lemma w_write_application_array_data_type (v : N) (e : ApplicationArrayDataType) : foreseen (write_application_array_data_type v e).
Proof. unfold write_application_array_data_type. sorts. Qed.
#[global] Hint Resolve w_write_application_array_data_type : sorts.
Lemma w_write_application_record_data_type_group (v : N) (f_elements : list ApplicationRecordElement) : foreseen (write_application_record_data_type_group v f_elements).
Proof. unfold write_application_record_data_type_group. sorts. Qed.
#[global] Hint Resolve w_write_application_record_data_type_group : sorts.
Lemma w_write_application_record_data_type (v : N) (e : ApplicationRecordDataType) : foreseen (write_application_record_data_type v e).
Proof. unfold write_application_record_data_type. sorts. Qed.
#[global] Hint Resolve w_write_application_record_data_type : sorts.
Lemma w_write_autosar_data_prototype (v : N) (f_type_ref : option ref) : foreseen (write_autosar_data_prototype v f_type_ref).
Proof. unfold write_autosar_data_prototype. sorts. Qed.
#[global] Hint Resolve w_write_autosar_data_prototype : sorts.
Lemma w_write_variable_data_prototype_group (v : N) (f_init_value : option ValueSpecificationElement) : foreseen (write_variable_data_prototype_group v f_init_value).
Proof. unfold write_variable_data_prototype_group. sorts. Qed.
#[global] Hint Resolve w_write_variable_data_prototype_group : sorts.
Lemma w_write_variable_data_prototype (v : N) (tag : string) (e : VariableDataPrototype) : foreseen (write_variable_data_prototype v tag e).
Proof. unfold write_variable_data_prototype. sorts. Qed.
#[global] Hint Resolve w_write_variable_data_prototype : sorts.
Lemma w_write_parameter_data_prototype (v : N) (tag : string) (e : ParameterDataPrototype) : foreseen (write_parameter_data_prototype v tag e).
Proof. unfold write_parameter_data_prototype. sorts. Qed.
#[global] Hint Resolve w_write_parameter_data_prototype : sorts.
Lemma w_write_argument_data_prototype_group (v : N) (f_direction : option ArgumentDirection) (f_server_arg_impl_policy : option ServerArgImplPolicy) : foreseen (write_argument_data_prototype_group v f_direction f_server_arg_impl_policy).
Proof. unfold write_argument_data_prototype_group. sorts. Qed.
#[global] Hint Resolve w_write_argument_data_prototype_group : sorts.
Lemma w_write_argument_data_prototype (v : N) (e : ArgumentDataPrototype) : foreseen (write_argument_data_prototype v e).
Proof. unfold write_argument_data_prototype. sorts. Qed.
#[global] Hint Resolve w_write_argument_data_prototype : sorts.
Lemma w_write_constant_specification_group (v : N) (f_value : option ValueSpecificationElement) : foreseen (write_constant_specification_group v f_value).
Proof. unfold write_constant_specification_group. sorts. Qed.
#[global] Hint Resolve w_write_constant_specification_group : sorts.
Lemma w_write_constant_specification (v : N) (e : ConstantSpecification) : foreseen (write_constant_specification v e).
Proof. unfold write_constant_specification. sorts. Qed.
#[global] Hint Resolve w_write_constant_specification : sorts.
Lemma w_write_nv_data_interface_group (v : N) (f_data_elements : list VariableDataPrototype) : foreseen (write_nv_data_interface_group v f_data_elements).
Proof. unfold write_nv_data_interface_group. sorts. Qed.
#[global] Hint Resolve w_write_nv_data_interface_group : sorts.
Lemma w_write_nv_data_interface (v : N) (e : NvDataInterface) : foreseen (write_nv_data_interface v e).
Proof. unfold write_nv_data_interface. sorts. Qed.
#[global] Hint Resolve w_write_nv_data_interface : sorts.
Lemma w_write_parameter_interface_group (v : N) (f_parameters : list ParameterDataPrototype) : foreseen (write_parameter_interface_group v f_parameters).
Proof. unfold write_parameter_interface_group. sorts. Qed.
#[global] Hint Resolve w_write_parameter_interface_group : sorts.
Lemma w_write_parameter_interface (v : N) (e : ParameterInterface) : foreseen (write_parameter_interface v e).
Proof. unfold write_parameter_interface. sorts. Qed.
#[global] Hint Resolve w_write_parameter_interface : sorts.
Lemma w_write_sender_receiver_interface_group (v : N) (f_data_elements : list VariableDataPrototype) (f_invalidation_policies : list InvalidationPolicy) : foreseen (write_sender_receiver_interface_group v f_data_elements f_invalidation_policies).
Proof. unfold write_sender_receiver_interface_group. sorts. Qed.
#[global] Hint Resolve w_write_sender_receiver_interface_group : sorts.
Lemma w_write_sender_receiver_interface (v : N) (e : SenderReceiverInterface) : foreseen (write_sender_receiver_interface v e).
Proof. unfold write_sender_receiver_interface. sorts. Qed.
#[global] Hint Resolve w_write_sender_receiver_interface : sorts.
Lemma w_write_client_server_operation_group (v : N) (f_arguments : list ArgumentDataPrototype) (f_diag_arg_integrity : option bool) (f_fire_and_forget : option bool) (f_possible_error_refs : list ref) : foreseen (write_client_server_operation_group v f_arguments f_diag_arg_integrity f_fire_and_forget f_possible_error_refs).
Proof. unfold write_client_server_operation_group. sorts. Qed.
#[global] Hint Resolve w_write_client_server_operation_group : sorts.
Lemma w_write_client_server_operation (v : N) (e : ClientServerOperation) : foreseen (write_client_server_operation v e).
Proof. unfold write_client_server_operation. sorts. Qed.
#[global] Hint Resolve w_write_client_server_operation : sorts.
Lemma w_write_client_server_interface_group (v : N) (f_operations : list ClientServerOperation) (f_possible_errors : list ApplicationError) : foreseen (write_client_server_interface_group v f_operations f_possible_errors).
Proof. unfold write_client_server_interface_group. sorts. Qed.
#[global] Hint Resolve w_write_client_server_interface_group : sorts.
Lemma w_write_client_server_interface (v : N) (e : ClientServerInterface) : foreseen (write_client_server_interface v e).
Proof. unfold write_client_server_interface. sorts. Qed.
#[global] Hint Resolve w_write_client_server_interface : sorts.
Lemma w_write_sender_com_spec_group (v : N) (f_data_element_ref : option ref) (f_handle_out_of_range : option HandleOutOfRange) (f_network_representation : option SwDataDefProps) (f_transmission_acknowledge : option TransmissionAcknowledgementRequest) (f_tranmsission_props : option TransmissionComSpecProps) (f_uses_end_to_end_protection : option bool) : foreseen (write_sender_com_spec_group v f_data_element_ref f_handle_out_of_range f_network_representation f_transmission_acknowledge f_tranmsission_props f_uses_end_to_end_protection).
Proof. unfold write_sender_com_spec_group. sorts. Qed.
#[global] Hint Resolve w_write_sender_com_spec_group : sorts.
Lemma w_write_queued_sender_com_spec (v : N) (e : QueuedSenderComSpec) : foreseen (write_queued_sender_com_spec v e).
Proof. unfold write_queued_sender_com_spec. sorts. Qed.
#[global] Hint Resolve w_write_queued_sender_com_spec : sorts.
Lemma w_write_non_queued_sender_com_spec_group (v : N) (f_data_filter : option DataFilter) (f_init_value : option ValueSpecificationElement) : foreseen (write_non_queued_sender_com_spec_group v f_data_filter f_init_value).
Proof. unfold write_non_queued_sender_com_spec_group. sorts. Qed.
#[global] Hint Resolve w_write_non_queued_sender_com_spec_group : sorts.
Lemma w_write_non_queued_sender_com_spec (v : N) (e : NonqueuedSenderComSpec) : foreseen (write_non_queued_sender_com_spec v e).
Proof. unfold write_non_queued_sender_com_spec. sorts. Qed.
#[global] Hint Resolve w_write_non_queued_sender_com_spec : sorts.
Lemma w_write_nv_provide_com_spec (v : N) (e : NvProvideComSpec) : foreseen (write_nv_provide_com_spec v e).
Proof. unfold write_nv_provide_com_spec. sorts. Qed.
#[global] Hint Resolve w_write_nv_provide_com_spec : sorts.
Lemma w_write_parameter_provide_com_spec (v : N) (e : ParameterProvideComSpec) : foreseen (write_parameter_provide_com_spec v e).
Proof. unfold write_parameter_provide_com_spec. sorts. Qed.
#[global] Hint Resolve w_write_parameter_provide_com_spec : sorts.
Lemma w_write_nv_require_com_spec (v : N) (e : NvRequireComSpec) : foreseen (write_nv_require_com_spec v e).
Proof. unfold write_nv_require_com_spec. sorts. Qed.
#[global] Hint Resolve w_write_nv_require_com_spec : sorts.
Lemma w_write_parameter_require_com_spec (v : N) (e : ParameterRequireComSpec) : foreseen (write_parameter_require_com_spec v e).
Proof. unfold write_parameter_require_com_spec. sorts. Qed.
#[global] Hint Resolve w_write_parameter_require_com_spec : sorts.
Lemma w_write_autosar_variable_ref (v : N) (tag : string) (e : AutosarVariableRef) : foreseen (write_autosar_variable_ref v tag e).
Proof. unfold write_autosar_variable_ref. sorts. Qed.
#[global] Hint Resolve w_write_autosar_variable_ref : sorts.
Lemma w_write_variable_access (v : N) (tag : string) (e : VariableAccess) : foreseen (write_variable_access v tag e).
Proof. unfold write_variable_access. sorts. Qed.
#[global] Hint Resolve w_write_variable_access : sorts.
Lemma w_write_parameter_access_group (v : N) (f_accessed_parameter : option AutosarParameterRef) (f_sw_data_def_props : option SwDataDefProps) : foreseen (write_parameter_access_group v f_accessed_parameter f_sw_data_def_props).
Proof. unfold write_parameter_access_group. sorts. Qed.
#[global] Hint Resolve w_write_parameter_access_group : sorts.
Lemma w_write_parameter_access (v : N) (e : ParameterAccess) : foreseen (write_parameter_access v e).
Proof. unfold write_parameter_access. sorts. Qed.
#[global] Hint Resolve w_write_parameter_access : sorts.
Lemma w_write_port_defined_argument_value (v : N) (e : PortDefinedArgumentValue) : foreseen (write_port_defined_argument_value v e).
Proof. unfold write_port_defined_argument_value. sorts. Qed.
#[global] Hint Resolve w_write_port_defined_argument_value : sorts.
Lemma w_write_port_api_option_group (v : N) (f_enable_take_address : option bool) (f_error_handling : option DataTransformationErrorHandling) (f_indirect_api : option bool) (f_port_arg_values : list PortDefinedArgumentValue) (f_port : option ref) (f_supported_features : list CommunicationBufferLocking) (f_transformer_status_forwarding : option DataTransformationStatusForwarding) : foreseen (write_port_api_option_group v f_enable_take_address f_error_handling f_indirect_api f_port_arg_values f_port f_supported_features f_transformer_status_forwarding).
Proof. unfold write_port_api_option_group. sorts. Qed.
#[global] Hint Resolve w_write_port_api_option_group : sorts.
Lemma w_write_port_api_option (v : N) (e : PortApiOption) : foreseen (write_port_api_option v e).
Proof. unfold write_port_api_option. sorts. Qed.
#[global] Hint Resolve w_write_port_api_option : sorts.
Lemma w_write_reception_com_spec_props (v : N) (e : ReceptionComSpecProps) : foreseen (write_reception_com_spec_props v e).
Proof. unfold write_reception_com_spec_props. sorts. Qed.
#[global] Hint Resolve w_write_reception_com_spec_props : sorts.
Lemma w_write_receiver_com_spec_group (v : N) (f_data_element_ref : option ref) (f_handle_out_of_range : option HandleOutOfRange) (f_handle_out_of_range_status : option HandleOutOfRangeStatus) (f_max_delta_counter_init : option Z) (f_max_no_new_repeated_data : option Z) (f_network_representation : option SwDataDefProps) (f_reception_props : option ReceptionComSpecProps) (f_replace_with : option VariableAccess) (f_sync_counter_init : option Z) (f_transformation_com_spec_props : list EndToEndTransformationComSpecProps) (f_uses_end_to_end_protection : option bool) : foreseen (write_receiver_com_spec_group v f_data_element_ref f_handle_out_of_range f_handle_out_of_range_status f_max_delta_counter_init f_max_no_new_repeated_data f_network_representation f_reception_props f_replace_with f_sync_counter_init f_transformation_com_spec_props f_uses_end_to_end_protection).
Proof. unfold write_receiver_com_spec_group. sorts. Qed.
#[global] Hint Resolve w_write_receiver_com_spec_group : sorts.
Lemma w_write_queued_receiver_com_spec (v : N) (e : QueuedReceiverComSpec) : foreseen (write_queued_receiver_com_spec v e).
Proof. unfold write_queued_receiver_com_spec. sorts. Qed.
#[global] Hint Resolve w_write_queued_receiver_com_spec : sorts.
Lemma w_write_nonqueued_receiver_com_spec_group (v : N) (f_alive_timeout : option pynum) (f_enable_update : option bool) (f_data_filter : option DataFilter) (f_handle_data_status : option bool) (f_handle_never_received : option bool) (f_handle_timeout_type : option HandleTimeout) (f_init_value : option ValueSpecificationElement) (f_timeout_substitution_value : option ValueSpecificationElement) : foreseen (write_nonqueued_receiver_com_spec_group v f_alive_timeout f_enable_update f_data_filter f_handle_data_status f_handle_never_received f_handle_timeout_type f_init_value f_timeout_substitution_value).
Proof. unfold write_nonqueued_receiver_com_spec_group. sorts. Qed.
#[global] Hint Resolve w_write_nonqueued_receiver_com_spec_group : sorts.
Lemma w_write_nonqueued_receiver_com_spec (v : N) (e : NonqueuedReceiverComSpec) : foreseen (write_nonqueued_receiver_com_spec v e).
Proof. unfold write_nonqueued_receiver_com_spec. sorts. Qed.
#[global] Hint Resolve w_write_nonqueued_receiver_com_spec : sorts.
Lemma w_write_provided_com_spec (v : N) (s : ProvidePortComSpec) : foreseen (write_provided_com_spec v s).
Proof. unfold write_provided_com_spec. sorts. Qed.
#[global] Hint Resolve w_write_provided_com_spec : sorts.
Lemma w_write_required_com_spec (v : N) (s : RequirePortComSpec) : foreseen (write_required_com_spec v s).
Proof. unfold write_required_com_spec. sorts. Qed.
#[global] Hint Resolve w_write_required_com_spec : sorts.
Lemma w_write_provide_port_prototype_group (v : N) (f_com_spec : list ProvidePortComSpec) (f_port_interface_ref : option ref) : foreseen (write_provide_port_prototype_group v f_com_spec f_port_interface_ref).
Proof. unfold write_provide_port_prototype_group. sorts. Qed.
#[global] Hint Resolve w_write_provide_port_prototype_group : sorts.
Lemma w_write_provide_port_prototype (v : N) (e : ProvidePortPrototype) : foreseen (write_provide_port_prototype v e).
Proof. unfold write_provide_port_prototype. sorts. Qed.
#[global] Hint Resolve w_write_provide_port_prototype : sorts.
Lemma w_write_require_port_prototype_group (v : N) (f_allow_unconnected : option bool) (f_com_spec : list RequirePortComSpec) (f_port_interface_ref : option ref) : foreseen (write_require_port_prototype_group v f_allow_unconnected f_com_spec f_port_interface_ref).
Proof. unfold write_require_port_prototype_group. sorts. Qed.
#[global] Hint Resolve w_write_require_port_prototype_group : sorts.
Lemma w_write_require_port_prototype (v : N) (e : RequirePortPrototype) : foreseen (write_require_port_prototype v e).
Proof. unfold write_require_port_prototype. sorts. Qed.
#[global] Hint Resolve w_write_require_port_prototype : sorts.
Lemma w_write_pr_port_prototype (v : N) (e : PRPortPrototype) : foreseen (write_pr_port_prototype v e).
Proof. unfold write_pr_port_prototype. sorts. Qed.
#[global] Hint Resolve w_write_pr_port_prototype : sorts.
Lemma w_write_port_prototype (v : N) (p : PortPrototypeElement) : foreseen (write_port_prototype v p).
Proof. unfold write_port_prototype. sorts. Qed.
#[global] Hint Resolve w_write_port_prototype : sorts.
Lemma w_write_sw_component_type (v : N) (f_ports : list PortPrototypeElement) : foreseen (write_sw_component_type v f_ports).
Proof. unfold write_sw_component_type. sorts. Qed.
#[global] Hint Resolve w_write_sw_component_type : sorts.
Lemma w_write_sw_component_prototype (v : N) (e : SwComponentPrototype) : foreseen (write_sw_component_prototype v e).
Proof. unfold write_sw_component_prototype. sorts. Qed.
#[global] Hint Resolve w_write_sw_component_prototype : sorts.
Lemma w_write_composition_sw_component_type (v : N) (e : CompositionSwComponentType) : foreseen (write_composition_sw_component_type v e).
Proof. unfold write_composition_sw_component_type. sorts. Qed.
#[global] Hint Resolve w_write_composition_sw_component_type : sorts.
Lemma w_write_swc_mode_switch_event_group (v : N) (f_activation : option ModeActivationKind) (f_mode : option SwitchMode) : foreseen (write_swc_mode_switch_event_group v f_activation f_mode).
Proof. unfold write_swc_mode_switch_event_group. sorts. Qed.
#[global] Hint Resolve w_write_swc_mode_switch_event_group : sorts.
Lemma w_write_swc_mode_switch_event (v : N) (e : SwcModeSwitchEvent) : foreseen (write_swc_mode_switch_event v e).
Proof. unfold write_swc_mode_switch_event. sorts. Qed.
#[global] Hint Resolve w_write_swc_mode_switch_event : sorts.
Lemma w_MElemE_write_server_call_point (v : N) (p : ServerCallPointElement) : foreseen (MElemE.write_server_call_point v p).
Proof. unfold MElemE.write_server_call_point. sorts. Qed.
#[global] Hint Resolve w_MElemE_write_server_call_point : sorts.
Lemma w_write_exclusive_areas (v : N) (old_container old_tag container : string) (l : list ExclusiveAreaRefConditional) : foreseen (write_exclusive_areas v old_container old_tag container l).
Proof. unfold write_exclusive_areas. sorts. Qed.
#[global] Hint Resolve w_write_exclusive_areas : sorts.
Lemma w_write_executable_entity (v : N) (e : RunnableEntity) : foreseen (write_executable_entity v e).
Proof. unfold write_executable_entity. sorts. Qed.
#[global] Hint Resolve w_write_executable_entity : sorts.
Lemma w_write_accesses (v : N) (container : string) (l : list VariableAccess) : foreseen (write_accesses v container l).
Proof. unfold write_accesses. sorts. Qed.
#[global] Hint Resolve w_write_accesses : sorts.
Lemma w_write_runnable_entity_group (v : N) (e : RunnableEntity) : foreseen (write_runnable_entity_group v e).
Proof. unfold write_runnable_entity_group. sorts. Qed.
#[global] Hint Resolve w_write_runnable_entity_group : sorts.
Lemma w_write_runnable_entity (v : N) (e : RunnableEntity) : foreseen (write_runnable_entity v e).
Proof. unfold write_runnable_entity. sorts. Qed.
#[global] Hint Resolve w_write_runnable_entity : sorts.
Lemma w_write_rte_event_element (v : N) (s : RteEvent) : foreseen (write_rte_event_element v s).
Proof. unfold write_rte_event_element. sorts. Qed.
#[global] Hint Resolve w_write_rte_event_element : sorts.
Lemma w_write_mode_declaration_group (v : N) (e : ModeDeclarationGroup) : foreseen (write_mode_declaration_group v e).
Proof. unfold write_mode_declaration_group. sorts. Qed.
#[global] Hint Resolve w_write_mode_declaration_group : sorts.
Lemma w_write_internal_behavior_group (v : N) (e : SwcInternalBehavior) : foreseen (write_internal_behavior_group v e).
Proof. unfold write_internal_behavior_group. sorts. Qed.
#[global] Hint Resolve w_write_internal_behavior_group : sorts.
Lemma w_write_swc_internal_behavior_group (v : N) (e : SwcInternalBehavior) : foreseen (write_swc_internal_behavior_group v e).
Proof. unfold write_swc_internal_behavior_group. sorts. Qed.
#[global] Hint Resolve w_write_swc_internal_behavior_group : sorts.
Lemma w_write_swc_internal_behavior (v : N) (e : SwcInternalBehavior) : foreseen (write_swc_internal_behavior v e).
Proof. unfold write_swc_internal_behavior. sorts. Qed.
#[global] Hint Resolve w_write_swc_internal_behavior : sorts.
Lemma w_write_atomic_sw_component_type (v : N) (e : ApplicationSoftwareComponentType) : foreseen (write_atomic_sw_component_type v e).
Proof. unfold write_atomic_sw_component_type. sorts. Qed.
#[global] Hint Resolve w_write_atomic_sw_component_type : sorts.
Lemma w_write_application_software_component_type (v : N) (e : ApplicationSoftwareComponentType) : foreseen (write_application_software_component_type v e).
Proof. unfold write_application_software_component_type. sorts. Qed.
#[global] Hint Resolve w_write_application_software_component_type : sorts.
Lemma w_write_collectable (v : N) (e : ARElement) : foreseen (write_collectable v e).
Proof. unfold write_collectable. sorts. Qed.
#[global] Hint Resolve w_write_collectable : sorts.
Lemma w_write_package v p : foreseen (write_package v p).
Proof.
  induction p as [i es ps IH] using package_ind2. rewrite Forall_forall in IH. cbn [write_package]. apply w_node. do 3 (apply w_cons; [solve [sorts]|]). apply w_cons; [sorts|]. apply w_cons; [|apply w_nil].
  apply w_some, w_node, w_each_in, IH.
Qed.
#[global] Hint Resolve w_write_package : sorts.
