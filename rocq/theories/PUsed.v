(** Every name a reading method asks for makes a difference. *)
From Verif Require Import Base PBase MNum MXml MEnum MRefTab MRef MCodec MElem0 MElem1 MElemA MElemB MElemC MElem2 MElemD MElem3 MElem4 MElemE MElem5 MElemF MArxml PElemB PElemD PArxml MReport MLook SLook PLook.
Open Scope list_scope.
Open Scope string_scope.
Open Scope N_scope.

(** Names of elements inside containers *)
Definition inner_names : list (string * list string) :=
  [("ACTIVATION-REASONS", ["EXECUTABLE-ENTITY-ACTIVATION-REASON"]);
   ("ANNOTATIONS", ["ANNOTATION"]);
   ("AR-PACKAGES", ["AR-PACKAGE"]);
   ("ARGUMENTS", ["ARGUMENT-DATA-PROTOTYPE"; "RUNNABLE-ENTITY-ARGUMENT"]);
   ("ARTIFACT-DESCRIPTORS", ["AUTOSAR-ENGINEERING-OBJECT"]);
   ("ASYNCHRONOUS-SERVER-CALL-RESULT-POINTS", ["ASYNCHRONOUS-SERVER-CALL-RESULT-POINT"]);
   ("CAN-ENTER-EXCLUSIVE-AREA-REFS", ["CAN-ENTER-EXCLUSIVE-AREA-REF"]);
   ("CAN-ENTERS", ["EXCLUSIVE-AREA-REF-CONDITIONAL"]);
   ("CODE-DESCRIPTORS", ["CODE"]);
   ("CONNECTORS", ["ASSEMBLY-SW-CONNECTOR"]);
   ("CONTEXT-DATA-PROTOTYPE-REFS", ["CONTEXT-DATA-PROTOTYPE-REF"]);
   ("DATA-CONSTR-RULES", ["DATA-CONSTR-RULE"]);
   ("DATA-ELEMENTS", ["VARIABLE-DATA-PROTOTYPE"]);
   ("DATA-READ-ACCESSS", ["VARIABLE-ACCESS"]);
   ("DATA-RECEIVE-POINT-BY-ARGUMENTS", ["VARIABLE-ACCESS"]);
   ("DATA-RECEIVE-POINT-BY-VALUES", ["VARIABLE-ACCESS"]);
   ("DATA-SEND-POINTS", ["VARIABLE-ACCESS"]);
   ("DATA-TYPE-MAPPING-REFS", ["DATA-TYPE-MAPPING-REF"]);
   ("DATA-TYPE-MAPS", ["DATA-TYPE-MAP"]);
   ("DATA-WRITE-ACCESSS", ["VARIABLE-ACCESS"]);
   ("DISABLED-MODE-IREFS", ["DISABLED-MODE-IREF"]);
   ("ELEMENTS", ["APPLICATION-RECORD-ELEMENT"; "TEXT-VALUE-SPECIFICATION"; "UNIT"]);
   ("EXCLUSIVE-AREA-NESTING-ORDER-REFS", ["EXCLUSIVE-AREA-NESTING-ORDER-REF"]);
   ("EXCLUSIVE-AREAS", ["EXCLUSIVE-AREA"]);
   ("EXTERNAL-TRIGGERING-POINTS", ["EXTERNAL-TRIGGERING-POINT"]);
   ("INIT-VALUE", ["TEXT-VALUE-SPECIFICATION"]);
   ("INTERNAL-BEHAVIORS", ["SWC-INTERNAL-BEHAVIOR"]);
   ("INTERNAL-TRIGGERING-POINTS", ["INTERNAL-TRIGGERING-POINT"]);
   ("INVALIDATION-POLICYS", ["INVALIDATION-POLICY"]);
   ("MODE-ACCESS-POINTS", ["MODE-ACCESS-POINT"]);
   ("MODE-DECLARATIONS", ["MODE-DECLARATION"]);
   ("MODE-GROUP-IREF", ["P-MODE-GROUP-IN-ATOMIC-SWC-INSTANCE-REF"]);
   ("MODE-IREFS", ["MODE-IREF"]);
   ("MODE-SWITCH-POINTS", ["MODE-SWITCH-POINT"]);
   ("MODE-TRANSITIONS", ["MODE-TRANSITION"]);
   ("NV-DATAS", ["VARIABLE-DATA-PROTOTYPE"]);
   ("OPERATIONS", ["CLIENT-SERVER-OPERATION"]);
   ("PARAMETER-ACCESSS", ["PARAMETER-ACCESS"]);
   ("PARAMETERS", ["PARAMETER-DATA-PROTOTYPE"]);
   ("PORT-API-OPTIONS", ["PORT-API-OPTION"]);
   ("PORT-ARG-VALUES", ["PORT-DEFINED-ARGUMENT-VALUE"]);
   ("PORTS", ["P-PORT-PROTOTYPE"]);
   ("POSSIBLE-ERROR-REFS", ["POSSIBLE-ERROR-REF"]);
   ("POSSIBLE-ERRORS", ["APPLICATION-ERROR"]);
   ("RAM-BLOCK-INIT-VALUE", ["TEXT-VALUE-SPECIFICATION"]);
   ("READ-LOCAL-VARIABLES", ["VARIABLE-ACCESS"]);
   ("ROM-BLOCK-INIT-VALUE", ["TEXT-VALUE-SPECIFICATION"]);
   ("RUNNABLES", ["RUNNABLE-ENTITY"]);
   ("RUNS-INSIDE-EXCLUSIVE-AREA-REFS", ["RUNS-INSIDE-EXCLUSIVE-AREA-REF"]);
   ("RUNS-INSIDES", ["EXCLUSIVE-AREA-REF-CONDITIONAL"]);
   ("SCALE-CONSTRS", ["SCALE-CONSTR"]);
   ("SERVER-CALL-POINTS", ["SYNCHRONOUS-SERVER-CALL-POINT"]);
   ("SUB-ELEMENTS", ["IMPLEMENTATION-DATA-TYPE-ELEMENT"]);
   ("SUPPORTED-FEATURES", ["COMMUNICATION-BUFFER-LOCKING"]);
   ("SW-AXIS-CONTS", ["SW-AXIS-CONT"]);
   ("SW-DATA-DEF-PROPS-VARIANTS", ["SW-DATA-DEF-PROPS-CONDITIONAL"]);
   ("TIMEOUT-SUBSTITUTION-VALUE", ["TEXT-VALUE-SPECIFICATION"]);
   ("TRANSFORMATION-COM-SPEC-PROPSS", ["END-TO-END-TRANSFORMATION-COM-SPEC-PROPS"]);
   ("VALUE", ["TEXT-VALUE-SPECIFICATION"]);
   ("WAIT-POINTS", ["WAIT-POINT"]);
   ("WRITTEN-LOCAL-VARIABLES", ["VARIABLE-ACCESS"])].
(** An element that should make a difference: with a text that is no number and no literal, or with something inside *)
Definition named : list xml := [Elem "SHORT-NAME" [] "A" [] []].
Definition candidates (t : string) : list xml :=
  Elem t [] "?" [] [] :: Elem t [] "" [Elem "?" [] "?" [] []] [] ::
  match assoc t inner_names with Some l => map (fun i => Elem t [] "" [Elem i [] "?" [] []] []) l ++ map (fun i => Elem t [] "" [Elem i [] "" named []] []) l ++
    map (fun i => Elem t [] "" [Elem i [] "" [Elem "PORT-REF" [] "?" [] []] []] []) l | None => [] end.
Lemma matters_by m v tag base c : m_read m v (Elem tag [] "" (base ++ [c]) []) <> m_read m v (Elem tag [] "" base []) -> matters m v tag (x_tag c).
Proof.
  intros H. exists (base ++ [c])%list, base. split; [|exact H]. intros t N. unfold findall. rewrite filter_app. cbn [filter].
  destruct (String.eqb_spec t (x_tag c)); [contradiction|apply app_nil_r].
Qed.
Ltac try_one base c := apply (matters_by _ _ _ base c); cbn [m_read]; let E := fresh "E" in intros E; vm_compute in E; discriminate E.
Ltac try_list base l := match l with ?c :: ?r => first [solve [try_one base c] | try_list base r] end.
Ltac use := match goal with |- matters ?m ?v ?tag ?t => let l := eval vm_compute in (candidates t) in let b := eval vm_compute in named in
  first [try_list b l | try_list (@nil xml) l | try_list [Elem "COMPU-NUMERATOR" [] "" [] []] l] end.
Ltac try_one_with V base c := apply (matters_by _ _ _ base c); cbn [m_read method_read_runnable_entity]; let E := fresh "E" in intros E; unfold read_runnable_entity, read_exclusive_areas in E; rewrite V in E; vm_compute in E; discriminate E.
Ltac try_list_with V base l := match l with ?c :: ?r => first [solve [try_one_with V base c] | try_list_with V base r] end.
Ltac use_with V := match goal with |- matters ?m ?v ?tag ?t => let l := eval vm_compute in (candidates t) in let b := eval vm_compute in named in
  first [try_list_with V b l | try_list_with V (@nil xml) l] end.
Ltac each T := match type of T with In ?x ?l => let k := eval vm_compute in l in change (In x k) in T end; cbn [In] in T;
  repeat match type of T with _ \/ _ => destruct T as [T|T] end; try contradiction T; try discriminate T; injection T as <-.
Lemma use_read_admin_data : uses_all method_read_admin_data.
Proof. intros v tag t T. cbn [m_steps method_read_admin_data] in T. each T; use. Qed.
Lemma use_read_package : uses_all method_read_package.
Proof. intros v tag t T. cbn [m_steps method_read_package] in T. each T; use. Qed.
Lemma use_read_compu_method : uses_all method_read_compu_method.
Proof. intros v tag t T. cbn [m_steps method_read_compu_method] in T. each T; use. Qed.
Lemma use_read_computation : uses_all method_read_computation.
Proof. intros v tag t T. cbn [m_steps method_read_computation] in T. each T; use. Qed.
Lemma use_read_compu_scale : uses_all method_read_compu_scale.
Proof. intros v tag t T. cbn [m_steps method_read_compu_scale] in T. each T; use. Qed.
Lemma use_read_compu_rational : uses_all method_read_compu_rational.
Proof. intros v tag t T. cbn [m_steps method_read_compu_rational] in T. each T; use. Qed.
Lemma use_read_data_constraint : uses_all method_read_data_constraint.
Proof. intros v tag t T. cbn [m_steps method_read_data_constraint] in T. each T; use. Qed.
Lemma use_read_data_constraint_rule : uses_all method_read_data_constraint_rule.
Proof. intros v tag t T. cbn [m_steps method_read_data_constraint_rule] in T. each T; use. Qed.
Lemma use_read_internal_constraint : uses_all method_read_internal_constraint.
Proof. intros v tag t T. cbn [m_steps method_read_internal_constraint] in T. each T; use. Qed.
Lemma use_read_physical_constraint : uses_all method_read_physical_constraint.
Proof. intros v tag t T. cbn [m_steps method_read_physical_constraint] in T. each T; use. Qed.
Lemma use_read_scale_constraint : uses_all method_read_scale_constraint.
Proof. intros v tag t T. cbn [m_steps method_read_scale_constraint] in T. each T; use. Qed.
Lemma use_read_unit : uses_all method_read_unit.
Proof. intros v tag t T. cbn [m_steps method_read_unit] in T. each T; use. Qed.
Lemma use_read_data_filter : uses_all method_read_data_filter.
Proof. intros v tag t T. cbn [m_steps method_read_data_filter] in T. each T; use. Qed.
Lemma use_read_autosar_engineering_object : uses_all method_read_autosar_engineering_object.
Proof. intros v tag t T. cbn [m_steps method_read_autosar_engineering_object] in T. each T; use. Qed.
Lemma use_read_code : uses_all method_read_code.
Proof. intros v tag t T. cbn [m_steps method_read_code] in T. each T; use. Qed.
Lemma use_read_sw_addr_method : uses_all method_read_sw_addr_method.
Proof. intros v tag t T. cbn [m_steps method_read_sw_addr_method] in T. each T; use. Qed.
Lemma use_read_sw_base_type : uses_all method_read_sw_base_type.
Proof. intros v tag t T. cbn [m_steps method_read_sw_base_type] in T. each T; use. Qed.
Lemma use_read_sw_bit_representation : uses_all method_read_sw_bit_representation.
Proof. intros v tag t T. cbn [m_steps method_read_sw_bit_representation] in T. each T; use. Qed.
Lemma use_read_sw_data_def_props : uses_all method_read_sw_data_def_props.
Proof. intros v tag t T. cbn [m_steps method_read_sw_data_def_props] in T. each T; use. Qed.
Lemma use_read_sw_data_def_props_conditional : uses_all method_read_sw_data_def_props_conditional.
Proof. intros v tag t T. cbn [m_steps method_read_sw_data_def_props_conditional] in T. each T; use. Qed.
Lemma use_read_sw_text_props : uses_all method_read_sw_text_props.
Proof. intros v tag t T. cbn [m_steps method_read_sw_text_props] in T. each T; use. Qed.
Lemma use_read_sw_pointer_target_props : uses_all method_read_sw_pointer_target_props.
Proof. intros v tag t T. cbn [m_steps method_read_sw_pointer_target_props] in T. each T; use. Qed.
Lemma use_read_symbol_props : uses_all method_read_symbol_props.
Proof. intros v tag t T. cbn [m_steps method_read_symbol_props] in T. each T; use. Qed.
Lemma use_read_implementation_data_type_element : uses_all method_read_implementation_data_type_element.
Proof. intros v tag t T. cbn [m_steps method_read_implementation_data_type_element] in T. each T; use. Qed.
Lemma use_read_implementation_data_type : uses_all method_read_implementation_data_type.
Proof. intros v tag t T. cbn [m_steps method_read_implementation_data_type] in T. each T; use. Qed.
Lemma use_read_application_primitive_data_type : uses_all method_read_application_primitive_data_type.
Proof. intros v tag t T. cbn [m_steps method_read_application_primitive_data_type] in T. each T; use. Qed.
Lemma use_read_application_array_element : uses_all method_read_application_array_element.
Proof. intros v tag t T. cbn [m_steps method_read_application_array_element] in T. each T; use. Qed.
Lemma use_read_application_record_element : uses_all method_read_application_record_element.
Proof. intros v tag t T. cbn [m_steps method_read_application_record_element] in T. each T; use. Qed.
Lemma use_read_application_array_data_type : uses_all method_read_application_array_data_type.
Proof. intros v tag t T. cbn [m_steps method_read_application_array_data_type] in T. each T; use. Qed.
Lemma use_read_application_record_data_type : uses_all method_read_application_record_data_type.
Proof. intros v tag t T. cbn [m_steps method_read_application_record_data_type] in T. each T; use. Qed.
Lemma use_read_data_type_map : uses_all method_read_data_type_map.
Proof. intros v tag t T. cbn [m_steps method_read_data_type_map] in T. each T; use. Qed.
Lemma use_read_data_type_mapping_set : uses_all method_read_data_type_mapping_set.
Proof. intros v tag t T. cbn [m_steps method_read_data_type_mapping_set] in T. each T; use. Qed.
Lemma use_read_parameter_data_prototype : uses_all method_read_parameter_data_prototype.
Proof. intros v tag t T. cbn [m_steps method_read_parameter_data_prototype] in T. each T; use. Qed.
Lemma use_read_variable_data_prototype : uses_all method_read_variable_data_prototype.
Proof. intros v tag t T. cbn [m_steps method_read_variable_data_prototype] in T. each T; use. Qed.
Lemma use_read_argument_data_prototype : uses_all method_read_argument_data_prototype.
Proof. intros v tag t T. cbn [m_steps method_read_argument_data_prototype] in T. each T; use. Qed.
Lemma use_read_mode_request_type_map : uses_all method_read_mode_request_type_map.
Proof. intros v tag t T. cbn [m_steps method_read_mode_request_type_map] in T. each T; use. Qed.
Lemma use_read_constant_specification : uses_all method_read_constant_specification.
Proof. intros v tag t T. cbn [m_steps method_read_constant_specification] in T. each T; use. Qed.
Lemma use_read_sw_axis_cont : uses_all method_read_sw_axis_cont.
Proof. intros v tag t T. cbn [m_steps method_read_sw_axis_cont] in T. each T; use. Qed.
Lemma use_read_sw_value_cont : uses_all method_read_sw_value_cont.
Proof. intros v tag t T. cbn [m_steps method_read_sw_value_cont] in T. each T; use. Qed.
Lemma use_read_mode_declaration : uses_all method_read_mode_declaration.
Proof. intros v tag t T. cbn [m_steps method_read_mode_declaration] in T. each T; use. Qed.
Lemma use_read_mode_error_behavior : uses_all method_read_mode_error_behavior.
Proof. intros v tag t T. cbn [m_steps method_read_mode_error_behavior] in T. each T; use. Qed.
Lemma use_read_mode_transition : uses_all method_read_mode_transition.
Proof. intros v tag t T. cbn [m_steps method_read_mode_transition] in T. each T; use. Qed.
Lemma use_read_mode_declaration_group : uses_all method_read_mode_declaration_group.
Proof. intros v tag t T. cbn [m_steps method_read_mode_declaration_group] in T. each T; use. Qed.
Lemma use_read_mode_declaration_group_prototype : uses_all method_read_mode_declaration_group_prototype.
Proof. intros v tag t T. cbn [m_steps method_read_mode_declaration_group_prototype] in T. each T; use. Qed.
Lemma use_read_nv_data_interface : uses_all method_read_nv_data_interface.
Proof. intros v tag t T. cbn [m_steps method_read_nv_data_interface] in T. each T; use. Qed.
Lemma use_read_parameter_interface : uses_all method_read_parameter_interface.
Proof. intros v tag t T. cbn [m_steps method_read_parameter_interface] in T. each T; use. Qed.
Lemma use_read_sender_receiver_interface : uses_all method_read_sender_receiver_interface.
Proof. intros v tag t T. cbn [m_steps method_read_sender_receiver_interface] in T. each T; use. Qed.
Lemma use_read_invalidation_policy : uses_all method_read_invalidation_policy.
Proof. intros v tag t T. cbn [m_steps method_read_invalidation_policy] in T. each T; use. Qed.
Lemma use_read_application_error : uses_all method_read_application_error.
Proof. intros v tag t T. cbn [m_steps method_read_application_error] in T. each T; use. Qed.
Lemma use_read_client_server_operation : uses_all method_read_client_server_operation.
Proof. intros v tag t T. cbn [m_steps method_read_client_server_operation] in T. each T; use. Qed.
Lemma use_read_client_server_interface : uses_all method_read_client_server_interface.
Proof. intros v tag t T. cbn [m_steps method_read_client_server_interface] in T. each T; use. Qed.
Lemma use_read_mode_switch_interface : uses_all method_read_mode_switch_interface.
Proof. intros v tag t T. cbn [m_steps method_read_mode_switch_interface] in T. each T; use. Qed.
Lemma use_read_e2e_transformation_com_spec_props : uses_all method_read_e2e_transformation_com_spec_props.
Proof. intros v tag t T. cbn [m_steps method_read_e2e_transformation_com_spec_props] in T. each T; use. Qed.
Lemma use_read_e2e_profile_compatibility_props : uses_all method_read_e2e_profile_compatibility_props.
Proof. intros v tag t T. cbn [m_steps method_read_e2e_profile_compatibility_props] in T. each T; use. Qed.
Lemma use_read_mode_switched_ack_request : uses_all method_read_mode_switched_ack_request.
Proof. intros v tag t T. cbn [m_steps method_read_mode_switched_ack_request] in T. each T; use. Qed.
Lemma use_read_mode_switch_sender_com_spec : uses_all method_read_mode_switch_sender_com_spec.
Proof. intros v tag t T. cbn [m_steps method_read_mode_switch_sender_com_spec] in T. each T; use. Qed.
Lemma use_read_transmission_acknowledgement_request : uses_all method_read_transmission_acknowledgement_request.
Proof. intros v tag t T. cbn [m_steps method_read_transmission_acknowledgement_request] in T. each T; use. Qed.
Lemma use_read_tranmsission_com_spec_props : uses_all method_read_tranmsission_com_spec_props.
Proof. intros v tag t T. cbn [m_steps method_read_tranmsission_com_spec_props] in T. each T; use. Qed.
Lemma use_read_queued_sender_com_spec : uses_all method_read_queued_sender_com_spec.
Proof. intros v tag t T. cbn [m_steps method_read_queued_sender_com_spec] in T. each T; use. Qed.
Lemma use_read_nonqueued_sender_com_spec : uses_all method_read_nonqueued_sender_com_spec.
Proof. intros v tag t T. cbn [m_steps method_read_nonqueued_sender_com_spec] in T. each T; use. Qed.
Lemma use_read_nv_provider_com_spec : uses_all method_read_nv_provider_com_spec.
Proof. intros v tag t T. cbn [m_steps method_read_nv_provider_com_spec] in T. each T; use. Qed.
Lemma use_read_parameter_provide_com_spec : uses_all method_read_parameter_provide_com_spec.
Proof. intros v tag t T. cbn [m_steps method_read_parameter_provide_com_spec] in T. each T; use. Qed.
Lemma use_read_server_com_spec : uses_all method_read_server_com_spec.
Proof. intros v tag t T. cbn [m_steps method_read_server_com_spec] in T. each T; use. Qed.
Lemma use_read_reception_com_spec_props : uses_all method_read_reception_com_spec_props.
Proof. intros v tag t T. cbn [m_steps method_read_reception_com_spec_props] in T. each T; use. Qed.
Lemma use_read_queued_receiver_com_spec : uses_all method_read_queued_receiver_com_spec.
Proof. intros v tag t T. cbn [m_steps method_read_queued_receiver_com_spec] in T. each T; use. Qed.
Lemma use_read_nonqueued_receiver_com_spec : uses_all method_read_nonqueued_receiver_com_spec.
Proof. intros v tag t T. cbn [m_steps method_read_nonqueued_receiver_com_spec] in T. each T; use. Qed.
Lemma use_read_nv_require_com_spec : uses_all method_read_nv_require_com_spec.
Proof. intros v tag t T. cbn [m_steps method_read_nv_require_com_spec] in T. each T; use. Qed.
Lemma use_read_parameter_require_com_spec : uses_all method_read_parameter_require_com_spec.
Proof. intros v tag t T. cbn [m_steps method_read_parameter_require_com_spec] in T. each T; use. Qed.
Lemma use_read_mode_switch_receiver_com_spec : uses_all method_read_mode_switch_receiver_com_spec.
Proof. intros v tag t T. cbn [m_steps method_read_mode_switch_receiver_com_spec] in T. each T; use. Qed.
Lemma use_read_client_com_spec : uses_all method_read_client_com_spec.
Proof. intros v tag t T. cbn [m_steps method_read_client_com_spec] in T. each T; use. Qed.
Lemma use_read_provide_port_prototype : uses_all method_read_provide_port_prototype.
Proof. intros v tag t T. cbn [m_steps method_read_provide_port_prototype] in T. each T; use. Qed.
Lemma use_read_require_port_prototype : uses_all method_read_require_port_prototype.
Proof. intros v tag t T. cbn [m_steps method_read_require_port_prototype] in T. each T; use. Qed.
Lemma use_read_pr_port_prototype : uses_all method_read_pr_port_prototype.
Proof. intros v tag t T. cbn [m_steps method_read_pr_port_prototype] in T. each T; use. Qed.
Lemma use_read_application_sw_component_type : uses_all method_read_application_sw_component_type.
Proof. intros v tag t T. cbn [m_steps method_read_application_sw_component_type] in T. each T; use. Qed.
Lemma use_read_sw_component_prototype : uses_all method_read_sw_component_prototype.
Proof. intros v tag t T. cbn [m_steps method_read_sw_component_prototype] in T. each T; use. Qed.
Lemma use_read_port_in_composition_type_instance_ref : uses_all method_read_port_in_composition_type_instance_ref.
Proof.
  intros v tag t T. cbn [m_steps method_read_port_in_composition_type_instance_ref] in T. unfold steps_port_in_composition_type_instance_ref in T. apply in_app_iff in T as [T|T].
  - destruct T as [T|[]]. injection T as <-. apply (matters_by _ _ _ [] (Elem "CONTEXT-COMPONENT-REF" [] "?" [] [])). cbn [m_read method_read_port_in_composition_type_instance_ref]. unfold read_port_in_composition_type_instance_ref.
    cbn [x_kids x_tag List.app]. destruct (provider_tag tag); [|destruct (requester_tag tag)]; intros E; vm_compute in E; discriminate E.
  - destruct (provider_tag tag) eqn:P; [|destruct (requester_tag tag) eqn:R; [|destruct T]]; destruct T as [T|[]]; injection T as <-.
    + apply (matters_by _ _ _ [] (Elem "TARGET-P-PORT-REF" [] "?" [] [])). cbn [m_read method_read_port_in_composition_type_instance_ref]. unfold read_port_in_composition_type_instance_ref.
      cbn [x_kids x_tag List.app]. rewrite P. intros E; vm_compute in E; discriminate E.
    + apply (matters_by _ _ _ [] (Elem "TARGET-R-PORT-REF" [] "?" [] [])). cbn [m_read method_read_port_in_composition_type_instance_ref]. unfold read_port_in_composition_type_instance_ref.
      cbn [x_kids x_tag List.app]. rewrite P, R. intros E; vm_compute in E; discriminate E.
Qed.
Lemma use_read_assembly_sw_connector : uses_all method_read_assembly_sw_connector.
Proof. intros v tag t T. cbn [m_steps method_read_assembly_sw_connector] in T. each T; use. Qed.
Lemma use_read_delegation_sw_connector : uses_all method_read_delegation_sw_connector.
Proof. intros v tag t T. cbn [m_steps method_read_delegation_sw_connector] in T. each T; use. Qed.
Lemma use_read_pass_through_sw_connector : uses_all method_read_pass_through_sw_connector.
Proof. intros v tag t T. cbn [m_steps method_read_pass_through_sw_connector] in T. each T; use. Qed.
Lemma use_read_composition_sw_component_type : uses_all method_read_composition_sw_component_type.
Proof. intros v tag t T. cbn [m_steps method_read_composition_sw_component_type] in T. each T; use. Qed.
Lemma use_read_swc_implementation : uses_all method_read_swc_implementation.
Proof. intros v tag t T. cbn [m_steps method_read_swc_implementation] in T. each T; use. Qed.
Lemma use_read_p_mode_group_in_atomic_swc_instance_ref : uses_all method_read_p_mode_group_in_atomic_swc_instance_ref.
Proof. intros v tag t T. cbn [m_steps method_read_p_mode_group_in_atomic_swc_instance_ref] in T. each T; use. Qed.
Lemma use_read_p_operation_in_atomic_swc_instance_ref : uses_all method_read_p_operation_in_atomic_swc_instance_ref.
Proof. intros v tag t T. cbn [m_steps method_read_p_operation_in_atomic_swc_instance_ref] in T. each T; use. Qed.
Lemma use_read_p_trigger_in_atomic_swc_instance_ref : uses_all method_read_p_trigger_in_atomic_swc_instance_ref.
Proof. intros v tag t T. cbn [m_steps method_read_p_trigger_in_atomic_swc_instance_ref] in T. each T; use. Qed.
Lemma use_read_r_mode_in_atomic_swc_instance_ref : uses_all method_read_r_mode_in_atomic_swc_instance_ref.
Proof. intros v tag t T. cbn [m_steps method_read_r_mode_in_atomic_swc_instance_ref] in T. each T; use. Qed.
Lemma use_read_r_mode_group_in_atomic_swc_instance_ref : uses_all method_read_r_mode_group_in_atomic_swc_instance_ref.
Proof. intros v tag t T. cbn [m_steps method_read_r_mode_group_in_atomic_swc_instance_ref] in T. each T; use. Qed.
Lemma use_read_r_operation_in_atomic_swc_instance_ref : uses_all method_read_r_operation_in_atomic_swc_instance_ref.
Proof. intros v tag t T. cbn [m_steps method_read_r_operation_in_atomic_swc_instance_ref] in T. each T; use. Qed.
Lemma use_read_r_variable_in_atomic_swc_instance_ref : uses_all method_read_r_variable_in_atomic_swc_instance_ref.
Proof. intros v tag t T. cbn [m_steps method_read_r_variable_in_atomic_swc_instance_ref] in T. each T; use. Qed.
Lemma use_read_r_trigger_in_atomic_swc_instance_ref : uses_all method_read_r_trigger_in_atomic_swc_instance_ref.
Proof. intros v tag t T. cbn [m_steps method_read_r_trigger_in_atomic_swc_instance_ref] in T. each T; use. Qed.
Lemma use_read_variable_in_impl_data_instance_ref : uses_all method_read_variable_in_impl_data_instance_ref.
Proof. intros v tag t T. cbn [m_steps method_read_variable_in_impl_data_instance_ref] in T. each T; use. Qed.
Lemma use_read_variable_in_atomic_swc_type_instance_ref : uses_all method_read_variable_in_atomic_swc_type_instance_ref.
Proof. intros v tag t T. cbn [m_steps method_read_variable_in_atomic_swc_type_instance_ref] in T. each T; use. Qed.
Lemma use_read_variable_access : uses_all method_read_variable_access.
Proof. intros v tag t T. cbn [m_steps method_read_variable_access] in T. each T; use. Qed.
Lemma use_read_autosar_variable_ref : uses_all method_read_autosar_variable_ref.
Proof. intros v tag t T. cbn [m_steps method_read_autosar_variable_ref] in T. each T; use. Qed.
Lemma use_read_executable_entity_activation_reason : uses_all method_read_executable_entity_activation_reason.
Proof. intros v tag t T. cbn [m_steps method_read_executable_entity_activation_reason] in T. each T; use. Qed.
Lemma use_read_exclusive_area_ref_conditional : uses_all method_read_exclusive_area_ref_conditional.
Proof. intros v tag t T. cbn [m_steps method_read_exclusive_area_ref_conditional] in T. each T; use. Qed.
Lemma use_read_runnable_entity_argument : uses_all method_read_runnable_entity_argument.
Proof. intros v tag t T. cbn [m_steps method_read_runnable_entity_argument] in T. each T; use. Qed.
Lemma use_read_async_server_call_point : uses_all method_read_async_server_call_point.
Proof. intros v tag t T. cbn [m_steps method_read_async_server_call_point] in T. each T; use. Qed.
Lemma use_read_sync_server_call_point : uses_all method_read_sync_server_call_point.
Proof. intros v tag t T. cbn [m_steps method_read_sync_server_call_point] in T. each T; use. Qed.
Lemma use_read_async_server_call_result_point : uses_all method_read_async_server_call_result_point.
Proof. intros v tag t T. cbn [m_steps method_read_async_server_call_result_point] in T. each T; use. Qed.
Lemma use_read_external_triggering_point_ident : uses_all method_read_external_triggering_point_ident.
Proof. intros v tag t T. cbn [m_steps method_read_external_triggering_point_ident] in T. each T; use. Qed.
Lemma use_read_external_triggering_point : uses_all method_read_external_triggering_point.
Proof. intros v tag t T. cbn [m_steps method_read_external_triggering_point] in T. each T; use. Qed.
Lemma use_read_internal_triggering_point : uses_all method_read_internal_triggering_point.
Proof. intros v tag t T. cbn [m_steps method_read_internal_triggering_point] in T. each T; use. Qed.
Lemma use_read_mode_access_point_ident : uses_all method_read_mode_access_point_ident.
Proof. intros v tag t T. cbn [m_steps method_read_mode_access_point_ident] in T. each T; use. Qed.
Lemma use_read_mode_access_point : uses_all method_read_mode_access_point.
Proof. intros v tag t T. cbn [m_steps method_read_mode_access_point] in T. each T; use. Qed.
Lemma use_read_mode_switch_point : uses_all method_read_mode_switch_point.
Proof. intros v tag t T. cbn [m_steps method_read_mode_switch_point] in T. each T; use. Qed.
Lemma use_read_parameter_in_atomic_swc_type_instance_ref : forall v tag t, In (Get t) (m_steps method_read_parameter_in_atomic_swc_type_instance_ref v tag) -> t <> "MODE-GROUP-IREF" -> matters method_read_parameter_in_atomic_swc_type_instance_ref v tag t.
Proof.
  intros v tag t T N. cbn [m_steps method_read_parameter_in_atomic_swc_type_instance_ref] in T. each T; try contradiction; use.
Qed.
Lemma use_read_autosar_parameter_ref : uses_all method_read_autosar_parameter_ref.
Proof. intros v tag t T. cbn [m_steps method_read_autosar_parameter_ref] in T. each T; use. Qed.
Lemma use_read_parameter_access : uses_all method_read_parameter_access.
Proof. intros v tag t T. cbn [m_steps method_read_parameter_access] in T. each T; use. Qed.
Lemma use_read_wait_point : uses_all method_read_wait_point.
Proof. intros v tag t T. cbn [m_steps method_read_wait_point] in T. each T; use. Qed.
Lemma use_read_runnable_entity : uses_all method_read_runnable_entity.
Proof.
  intros v tag t T. cbn [m_steps method_read_runnable_entity] in T. unfold steps_runnable_entity, steps_executable_entity in T. destruct (v <? 50) eqn:V.
  all: each T; use_with V.
Qed.
Lemma use_read_async_server_call_returns_event : uses_all method_read_async_server_call_returns_event.
Proof. intros v tag t T. cbn [m_steps method_read_async_server_call_returns_event] in T. each T; use. Qed.
Lemma use_read_background_event : uses_all method_read_background_event.
Proof. intros v tag t T. cbn [m_steps method_read_background_event] in T. each T; use. Qed.
Lemma use_read_data_receive_error_event : uses_all method_read_data_receive_error_event.
Proof. intros v tag t T. cbn [m_steps method_read_data_receive_error_event] in T. each T; use. Qed.
Lemma use_read_data_received_event : uses_all method_read_data_received_event.
Proof. intros v tag t T. cbn [m_steps method_read_data_received_event] in T. each T; use. Qed.
Lemma use_read_data_send_completed_event : uses_all method_read_data_send_completed_event.
Proof. intros v tag t T. cbn [m_steps method_read_data_send_completed_event] in T. each T; use. Qed.
Lemma use_read_data_write_completed_event : uses_all method_read_data_write_completed_event.
Proof. intros v tag t T. cbn [m_steps method_read_data_write_completed_event] in T. each T; use. Qed.
Lemma use_read_external_trigger_occured_event : uses_all method_read_external_trigger_occured_event.
Proof. intros v tag t T. cbn [m_steps method_read_external_trigger_occured_event] in T. each T; use. Qed.
Lemma use_read_init_event : uses_all method_read_init_event.
Proof. intros v tag t T. cbn [m_steps method_read_init_event] in T. each T; use. Qed.
Lemma use_read_internal_trigger_occured_event : uses_all method_read_internal_trigger_occured_event.
Proof. intros v tag t T. cbn [m_steps method_read_internal_trigger_occured_event] in T. each T; use. Qed.
Lemma use_read_mode_switched_ack_event : uses_all method_read_mode_switched_ack_event.
Proof. intros v tag t T. cbn [m_steps method_read_mode_switched_ack_event] in T. each T; use. Qed.
Lemma use_read_operation_invoked_event : uses_all method_read_operation_invoked_event.
Proof. intros v tag t T. cbn [m_steps method_read_operation_invoked_event] in T. each T; use. Qed.
Lemma use_read_swc_mode_manager_error_event : uses_all method_read_swc_mode_manager_error_event.
Proof. intros v tag t T. cbn [m_steps method_read_swc_mode_manager_error_event] in T. each T; use. Qed.
Lemma use_read_swc_mode_switch_event : uses_all method_read_swc_mode_switch_event.
Proof. intros v tag t T. cbn [m_steps method_read_swc_mode_switch_event] in T. each T; use. Qed.
Lemma use_read_timing_event : uses_all method_read_timing_event.
Proof. intros v tag t T. cbn [m_steps method_read_timing_event] in T. each T; use. Qed.
Lemma use_read_transformer_hard_error_event : uses_all method_read_transformer_hard_error_event.
Proof. intros v tag t T. cbn [m_steps method_read_transformer_hard_error_event] in T. each T; use. Qed.
Lemma use_read_port_defined_argument_value : uses_all method_read_port_defined_argument_value.
Proof. intros v tag t T. cbn [m_steps method_read_port_defined_argument_value] in T. each T; use. Qed.
Lemma use_read_communication_buffer_locking : uses_all method_read_communication_buffer_locking.
Proof. intros v tag t T. cbn [m_steps method_read_communication_buffer_locking] in T. each T; use. Qed.
Lemma use_read_port_api_option : uses_all method_read_port_api_option.
Proof. intros v tag t T. cbn [m_steps method_read_port_api_option] in T. each T; use. Qed.
Lemma use_read_exclusive_area : uses_all method_read_exclusive_area.
Proof. intros v tag t T. cbn [m_steps method_read_exclusive_area] in T. each T; use. Qed.
Lemma use_read_swc_internal_behavior : uses_all method_read_swc_internal_behavior.
Proof. intros v tag t T. cbn [m_steps method_read_swc_internal_behavior] in T. each T; use. Qed.
Lemma use_read_value_specification_element : uses_all method_read_value_specification_element.
Proof.
  intros v tag t T. cbn [m_steps method_read_value_specification_element] in T. unfold steps_value_specification_element in T.
  repeat match type of T with In _ (if String.eqb tag ?n then _ else _) => destruct (String.eqb_spec tag n) as [->|_]; [solve [each T; use]|] end. destruct T.
Qed.
Lemma all_use : Forall (fun m => forall v tag t, In (Get t) (m_steps m v tag) -> m_name m <> "_read_parameter_in_atomic_swc_type_instance_ref" \/ t <> "MODE-GROUP-IREF" -> matters m v tag t) methods.
Proof.
  unfold methods. apply Forall_cons; [intros v tag t T _; exact (use_read_admin_data v tag t T)|]. apply Forall_cons; [intros v tag t T _; exact (use_read_package v tag t T)|]. apply Forall_cons; [intros v tag t T _; exact (use_read_compu_method v tag t T)|]. apply Forall_cons; [intros v tag t T _; exact (use_read_computation v tag t T)|]. apply Forall_cons; [intros v tag t T _; exact (use_read_compu_scale v tag t T)|]. apply Forall_cons; [intros v tag t T _; exact (use_read_compu_rational v tag t T)|]. apply Forall_cons; [intros v tag t T _; exact (use_read_data_constraint v tag t T)|]. apply Forall_cons; [intros v tag t T _; exact (use_read_data_constraint_rule v tag t T)|]. apply Forall_cons; [intros v tag t T _; exact (use_read_internal_constraint v tag t T)|]. apply Forall_cons; [intros v tag t T _; exact (use_read_physical_constraint v tag t T)|]. apply Forall_cons; [intros v tag t T _; exact (use_read_scale_constraint v tag t T)|]. apply Forall_cons; [intros v tag t T _; exact (use_read_unit v tag t T)|]. apply Forall_cons; [intros v tag t T _; exact (use_read_data_filter v tag t T)|]. apply Forall_cons; [intros v tag t T _; exact (use_read_autosar_engineering_object v tag t T)|]. apply Forall_cons; [intros v tag t T _; exact (use_read_code v tag t T)|]. apply Forall_cons; [intros v tag t T _; exact (use_read_sw_addr_method v tag t T)|]. apply Forall_cons; [intros v tag t T _; exact (use_read_sw_base_type v tag t T)|]. apply Forall_cons; [intros v tag t T _; exact (use_read_sw_bit_representation v tag t T)|]. apply Forall_cons; [intros v tag t T _; exact (use_read_sw_data_def_props v tag t T)|]. apply Forall_cons; [intros v tag t T _; exact (use_read_sw_data_def_props_conditional v tag t T)|]. apply Forall_cons; [intros v tag t T _; exact (use_read_sw_text_props v tag t T)|]. apply Forall_cons; [intros v tag t T _; exact (use_read_sw_pointer_target_props v tag t T)|]. apply Forall_cons; [intros v tag t T _; exact (use_read_symbol_props v tag t T)|]. apply Forall_cons; [intros v tag t T _; exact (use_read_implementation_data_type_element v tag t T)|]. apply Forall_cons; [intros v tag t T _; exact (use_read_implementation_data_type v tag t T)|]. apply Forall_cons; [intros v tag t T _; exact (use_read_application_primitive_data_type v tag t T)|]. apply Forall_cons; [intros v tag t T _; exact (use_read_application_array_element v tag t T)|]. apply Forall_cons; [intros v tag t T _; exact (use_read_application_record_element v tag t T)|]. apply Forall_cons; [intros v tag t T _; exact (use_read_application_array_data_type v tag t T)|]. apply Forall_cons; [intros v tag t T _; exact (use_read_application_record_data_type v tag t T)|]. apply Forall_cons; [intros v tag t T _; exact (use_read_data_type_map v tag t T)|]. apply Forall_cons; [intros v tag t T _; exact (use_read_data_type_mapping_set v tag t T)|]. apply Forall_cons; [intros v tag t T _; exact (use_read_parameter_data_prototype v tag t T)|]. apply Forall_cons; [intros v tag t T _; exact (use_read_variable_data_prototype v tag t T)|]. apply Forall_cons; [intros v tag t T _; exact (use_read_argument_data_prototype v tag t T)|]. apply Forall_cons; [intros v tag t T _; exact (use_read_mode_request_type_map v tag t T)|]. apply Forall_cons; [intros v tag t T _; exact (use_read_constant_specification v tag t T)|]. apply Forall_cons; [intros v tag t T _; exact (use_read_sw_axis_cont v tag t T)|]. apply Forall_cons; [intros v tag t T _; exact (use_read_sw_value_cont v tag t T)|]. apply Forall_cons; [intros v tag t T _; exact (use_read_mode_declaration v tag t T)|]. apply Forall_cons; [intros v tag t T _; exact (use_read_mode_error_behavior v tag t T)|]. apply Forall_cons; [intros v tag t T _; exact (use_read_mode_transition v tag t T)|]. apply Forall_cons; [intros v tag t T _; exact (use_read_mode_declaration_group v tag t T)|]. apply Forall_cons; [intros v tag t T _; exact (use_read_mode_declaration_group_prototype v tag t T)|]. apply Forall_cons; [intros v tag t T _; exact (use_read_nv_data_interface v tag t T)|]. apply Forall_cons; [intros v tag t T _; exact (use_read_parameter_interface v tag t T)|]. apply Forall_cons; [intros v tag t T _; exact (use_read_sender_receiver_interface v tag t T)|]. apply Forall_cons; [intros v tag t T _; exact (use_read_invalidation_policy v tag t T)|]. apply Forall_cons; [intros v tag t T _; exact (use_read_application_error v tag t T)|]. apply Forall_cons; [intros v tag t T _; exact (use_read_client_server_operation v tag t T)|]. apply Forall_cons; [intros v tag t T _; exact (use_read_client_server_interface v tag t T)|]. apply Forall_cons; [intros v tag t T _; exact (use_read_mode_switch_interface v tag t T)|]. apply Forall_cons; [intros v tag t T _; exact (use_read_e2e_transformation_com_spec_props v tag t T)|]. apply Forall_cons; [intros v tag t T _; exact (use_read_e2e_profile_compatibility_props v tag t T)|]. apply Forall_cons; [intros v tag t T _; exact (use_read_mode_switched_ack_request v tag t T)|]. apply Forall_cons; [intros v tag t T _; exact (use_read_mode_switch_sender_com_spec v tag t T)|]. apply Forall_cons; [intros v tag t T _; exact (use_read_transmission_acknowledgement_request v tag t T)|]. apply Forall_cons; [intros v tag t T _; exact (use_read_tranmsission_com_spec_props v tag t T)|]. apply Forall_cons; [intros v tag t T _; exact (use_read_queued_sender_com_spec v tag t T)|]. apply Forall_cons; [intros v tag t T _; exact (use_read_nonqueued_sender_com_spec v tag t T)|]. apply Forall_cons; [intros v tag t T _; exact (use_read_nv_provider_com_spec v tag t T)|]. apply Forall_cons; [intros v tag t T _; exact (use_read_parameter_provide_com_spec v tag t T)|]. apply Forall_cons; [intros v tag t T _; exact (use_read_server_com_spec v tag t T)|]. apply Forall_cons; [intros v tag t T _; exact (use_read_reception_com_spec_props v tag t T)|]. apply Forall_cons; [intros v tag t T _; exact (use_read_queued_receiver_com_spec v tag t T)|]. apply Forall_cons; [intros v tag t T _; exact (use_read_nonqueued_receiver_com_spec v tag t T)|]. apply Forall_cons; [intros v tag t T _; exact (use_read_nv_require_com_spec v tag t T)|]. apply Forall_cons; [intros v tag t T _; exact (use_read_parameter_require_com_spec v tag t T)|]. apply Forall_cons; [intros v tag t T _; exact (use_read_mode_switch_receiver_com_spec v tag t T)|]. apply Forall_cons; [intros v tag t T _; exact (use_read_client_com_spec v tag t T)|]. apply Forall_cons; [intros v tag t T _; exact (use_read_provide_port_prototype v tag t T)|]. apply Forall_cons; [intros v tag t T _; exact (use_read_require_port_prototype v tag t T)|]. apply Forall_cons; [intros v tag t T _; exact (use_read_pr_port_prototype v tag t T)|]. apply Forall_cons; [intros v tag t T _; exact (use_read_application_sw_component_type v tag t T)|]. apply Forall_cons; [intros v tag t T _; exact (use_read_sw_component_prototype v tag t T)|]. apply Forall_cons; [intros v tag t T _; exact (use_read_port_in_composition_type_instance_ref v tag t T)|]. apply Forall_cons; [intros v tag t T _; exact (use_read_assembly_sw_connector v tag t T)|]. apply Forall_cons; [intros v tag t T _; exact (use_read_delegation_sw_connector v tag t T)|]. apply Forall_cons; [intros v tag t T _; exact (use_read_pass_through_sw_connector v tag t T)|]. apply Forall_cons; [intros v tag t T _; exact (use_read_composition_sw_component_type v tag t T)|]. apply Forall_cons; [intros v tag t T _; exact (use_read_swc_implementation v tag t T)|]. apply Forall_cons; [intros v tag t T _; exact (use_read_p_mode_group_in_atomic_swc_instance_ref v tag t T)|]. apply Forall_cons; [intros v tag t T _; exact (use_read_p_operation_in_atomic_swc_instance_ref v tag t T)|]. apply Forall_cons; [intros v tag t T _; exact (use_read_p_trigger_in_atomic_swc_instance_ref v tag t T)|]. apply Forall_cons; [intros v tag t T _; exact (use_read_r_mode_in_atomic_swc_instance_ref v tag t T)|]. apply Forall_cons; [intros v tag t T _; exact (use_read_r_mode_group_in_atomic_swc_instance_ref v tag t T)|]. apply Forall_cons; [intros v tag t T _; exact (use_read_r_operation_in_atomic_swc_instance_ref v tag t T)|]. apply Forall_cons; [intros v tag t T _; exact (use_read_r_variable_in_atomic_swc_instance_ref v tag t T)|]. apply Forall_cons; [intros v tag t T _; exact (use_read_r_trigger_in_atomic_swc_instance_ref v tag t T)|]. apply Forall_cons; [intros v tag t T _; exact (use_read_variable_in_impl_data_instance_ref v tag t T)|]. apply Forall_cons; [intros v tag t T _; exact (use_read_variable_in_atomic_swc_type_instance_ref v tag t T)|]. apply Forall_cons; [intros v tag t T _; exact (use_read_variable_access v tag t T)|]. apply Forall_cons; [intros v tag t T _; exact (use_read_autosar_variable_ref v tag t T)|]. apply Forall_cons; [intros v tag t T _; exact (use_read_executable_entity_activation_reason v tag t T)|]. apply Forall_cons; [intros v tag t T _; exact (use_read_exclusive_area_ref_conditional v tag t T)|]. apply Forall_cons; [intros v tag t T _; exact (use_read_runnable_entity_argument v tag t T)|]. apply Forall_cons; [intros v tag t T _; exact (use_read_async_server_call_point v tag t T)|]. apply Forall_cons; [intros v tag t T _; exact (use_read_sync_server_call_point v tag t T)|]. apply Forall_cons; [intros v tag t T _; exact (use_read_async_server_call_result_point v tag t T)|]. apply Forall_cons; [intros v tag t T _; exact (use_read_external_triggering_point_ident v tag t T)|]. apply Forall_cons; [intros v tag t T _; exact (use_read_external_triggering_point v tag t T)|]. apply Forall_cons; [intros v tag t T _; exact (use_read_internal_triggering_point v tag t T)|]. apply Forall_cons; [intros v tag t T _; exact (use_read_mode_access_point_ident v tag t T)|]. apply Forall_cons; [intros v tag t T _; exact (use_read_mode_access_point v tag t T)|]. apply Forall_cons; [intros v tag t T _; exact (use_read_mode_switch_point v tag t T)|]. apply Forall_cons; [intros v tag t T [N|N]; [now destruct N|exact (use_read_parameter_in_atomic_swc_type_instance_ref v tag t T N)]|]. apply Forall_cons; [intros v tag t T _; exact (use_read_autosar_parameter_ref v tag t T)|]. apply Forall_cons; [intros v tag t T _; exact (use_read_parameter_access v tag t T)|]. apply Forall_cons; [intros v tag t T _; exact (use_read_wait_point v tag t T)|]. apply Forall_cons; [intros v tag t T _; exact (use_read_runnable_entity v tag t T)|]. apply Forall_cons; [intros v tag t T _; exact (use_read_async_server_call_returns_event v tag t T)|]. apply Forall_cons; [intros v tag t T _; exact (use_read_background_event v tag t T)|]. apply Forall_cons; [intros v tag t T _; exact (use_read_data_receive_error_event v tag t T)|]. apply Forall_cons; [intros v tag t T _; exact (use_read_data_received_event v tag t T)|]. apply Forall_cons; [intros v tag t T _; exact (use_read_data_send_completed_event v tag t T)|]. apply Forall_cons; [intros v tag t T _; exact (use_read_data_write_completed_event v tag t T)|]. apply Forall_cons; [intros v tag t T _; exact (use_read_external_trigger_occured_event v tag t T)|]. apply Forall_cons; [intros v tag t T _; exact (use_read_init_event v tag t T)|]. apply Forall_cons; [intros v tag t T _; exact (use_read_internal_trigger_occured_event v tag t T)|]. apply Forall_cons; [intros v tag t T _; exact (use_read_mode_switched_ack_event v tag t T)|]. apply Forall_cons; [intros v tag t T _; exact (use_read_operation_invoked_event v tag t T)|]. apply Forall_cons; [intros v tag t T _; exact (use_read_swc_mode_manager_error_event v tag t T)|]. apply Forall_cons; [intros v tag t T _; exact (use_read_swc_mode_switch_event v tag t T)|]. apply Forall_cons; [intros v tag t T _; exact (use_read_timing_event v tag t T)|]. apply Forall_cons; [intros v tag t T _; exact (use_read_transformer_hard_error_event v tag t T)|]. apply Forall_cons; [intros v tag t T _; exact (use_read_port_defined_argument_value v tag t T)|]. apply Forall_cons; [intros v tag t T _; exact (use_read_communication_buffer_locking v tag t T)|]. apply Forall_cons; [intros v tag t T _; exact (use_read_port_api_option v tag t T)|]. apply Forall_cons; [intros v tag t T _; exact (use_read_exclusive_area v tag t T)|]. apply Forall_cons; [intros v tag t T _; exact (use_read_swc_internal_behavior v tag t T)|]. apply Forall_cons; [intros v tag t T _; exact (use_read_value_specification_element v tag t T)|]. apply Forall_nil.
Qed.
