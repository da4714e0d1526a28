(** C24, C26, C28, C41 stated by the relations of SElem and SKept: the document, data type, interface or component
    that is read back is related to the one that was written. *)
From Verif Require Import Base MNames MNum SNum MXml SXml MEnum MRefTab MRef SEnum MCodec SCodec MElem0 MElem1 MElemA MElemB MElemC MElem2 MElemD MElem3 MElem4 MElemE MElem5 MElemF MArxml SElem1 SElemA SElemB SElemC SElem2 SElemD SElem3 SElem4 SElemE SElem5 SElemF SArxml SElem PSame SKept PKept PropsElem PropsArxml.
Open Scope list_scope.

(** A document written and read again has the same packages with the same elements, which have the same parts. *)
Theorem C24_same_document d : good_document d ->
  exists text d', write_file d = Ok text /\ (forall rv stop, read_str rv text stop = (doc_schema_version d, Ok d')) /\ same_document d d'.
Proof. intros G. destruct (C24_document_round_trip d G) as (t & W & R). exists t, (norm_document d). split; [exact W|]. split; [exact R|exact (kept_document d G)]. Qed.
Theorem C26_application_primitive_data_type_same v e : good_ApplicationPrimitiveDataType e -> exists e', reloads_as (write_application_primitive_data_type v) (read_application_primitive_data_type v) e e' /\ same_ApplicationPrimitiveDataType e e'.
Proof. intros G. exists (norm_ApplicationPrimitiveDataType e). split; [exact (C26_application_primitive_data_type v e G)|exact (kept_ApplicationPrimitiveDataType e G)]. Qed.
Theorem C26_application_array_data_type_same v e : good_ApplicationArrayDataType e -> exists e', reloads_as (write_application_array_data_type v) (read_application_array_data_type v) e e' /\ same_ApplicationArrayDataType e e'.
Proof. intros G. exists (norm_ApplicationArrayDataType e). split; [exact (C26_application_array_data_type v e G)|exact (kept_ApplicationArrayDataType e G)]. Qed.
Theorem C26_application_record_data_type_same v e : good_ApplicationRecordDataType e -> exists e', reloads_as (write_application_record_data_type v) (read_application_record_data_type v) e e' /\ same_ApplicationRecordDataType e e'.
Proof. intros G. exists (norm_ApplicationRecordDataType e). split; [exact (C26_application_record_data_type v e G)|exact (kept_ApplicationRecordDataType e G)]. Qed.
Theorem C28_nv_data_interface_same v e : good_NvDataInterface e -> exists e', reloads_as (write_nv_data_interface v) (read_nv_data_interface v) e e' /\ same_NvDataInterface e e'.
Proof. intros G. exists (norm_NvDataInterface e). split; [exact (C28_nv_data_interface v e G)|exact (kept_NvDataInterface e G)]. Qed.
Theorem C28_parameter_interface_same v e : good_ParameterInterface e -> exists e', reloads_as (write_parameter_interface v) (read_parameter_interface v) e e' /\ same_ParameterInterface e e'.
Proof. intros G. exists (norm_ParameterInterface e). split; [exact (C28_parameter_interface v e G)|exact (kept_ParameterInterface e G)]. Qed.
Theorem C28_sender_receiver_interface_same v e : good_SenderReceiverInterface e -> exists e', reloads_as (write_sender_receiver_interface v) (read_sender_receiver_interface v) e e' /\ same_SenderReceiverInterface e e'.
Proof. intros G. exists (norm_SenderReceiverInterface e). split; [exact (C28_sender_receiver_interface v e G)|exact (kept_SenderReceiverInterface e G)]. Qed.
Theorem C28_client_server_interface_same v e : good_ClientServerInterface e -> exists e', reloads_as (write_client_server_interface v) (read_client_server_interface v) e e' /\ same_ClientServerInterface e e'.
Proof. intros G. exists (norm_ClientServerInterface e). split; [exact (C28_client_server_interface v e G)|exact (kept_ClientServerInterface e G)]. Qed.
Theorem C41_provide_port_prototype_same v e : good_ProvidePortPrototype e -> exists e', reloads_as (write_provide_port_prototype v) (read_provide_port_prototype v) e e' /\ same_ProvidePortPrototype e e'.
Proof. intros G. exists (norm_ProvidePortPrototype e). split; [exact (C41_provide_port_prototype v e G)|exact (kept_ProvidePortPrototype e G)]. Qed.
Theorem C41_require_port_prototype_same v e : good_RequirePortPrototype e -> exists e', reloads_as (write_require_port_prototype v) (read_require_port_prototype v) e e' /\ same_RequirePortPrototype e e'.
Proof. intros G. exists (norm_RequirePortPrototype e). split; [exact (C41_require_port_prototype v e G)|exact (kept_RequirePortPrototype e G)]. Qed.
Theorem C41_pr_port_prototype_same v e : good_PRPortPrototype e -> exists e', reloads_as (write_pr_port_prototype v) (read_pr_port_prototype v) e e' /\ same_PRPortPrototype e e'.
Proof. intros G. exists (norm_PRPortPrototype e). split; [exact (C41_pr_port_prototype v e G)|exact (kept_PRPortPrototype e G)]. Qed.
Theorem C41_composition_sw_component_type_same v e : good_CompositionSwComponentType e -> exists e', reloads_as (write_composition_sw_component_type v) (read_composition_sw_component_type v) e e' /\ same_CompositionSwComponentType e e'.
Proof. intros G. exists (norm_CompositionSwComponentType e). split; [exact (C41_composition_sw_component_type v e G)|exact (kept_CompositionSwComponentType e G)]. Qed.
Theorem C41_swc_internal_behavior_same v e : good_SwcInternalBehavior v e -> exists e', reloads_as (write_swc_internal_behavior v) (read_swc_internal_behavior v) e e' /\ same_SwcInternalBehavior e e'.
Proof. intros G. exists (norm_SwcInternalBehavior e). split; [exact (C41_swc_internal_behavior v e G)|exact (kept_SwcInternalBehavior v e G)]. Qed.
Theorem C41_runnable_entity_same v e : good_RunnableEntity v e -> exists e', reloads_as (write_runnable_entity v) (read_runnable_entity v) e e' /\ same_RunnableEntity e e'.
Proof. intros G. exists (norm_RunnableEntity e). split; [exact (C41_runnable_entity v e G)|exact (kept_RunnableEntity v e G)]. Qed.
Theorem C41_application_software_component_type_same v e : good_ApplicationSoftwareComponentType v e -> exists e', reloads_as (write_application_software_component_type v) (read_application_sw_component_type v) e e' /\ same_ApplicationSoftwareComponentType e e'.
Proof. intros G. exists (norm_ApplicationSoftwareComponentType e). split; [exact (C41_application_software_component_type v e G)|exact (kept_ApplicationSoftwareComponentType v e G)]. Qed.
Theorem C41_provided_com_spec_same v e : good_ProvidePortComSpec e -> exists e', reloads_as (write_provided_com_spec v) (read_provided_com_spec v) e e' /\ same_ProvidePortComSpec e e'.
Proof. intros G. exists (norm_ProvidePortComSpec e). split; [exact (C41_provided_com_spec v e G)|exact (kept_ProvidePortComSpec e G)]. Qed.
Theorem C41_required_com_spec_same v e : good_RequirePortComSpec e -> exists e', reloads_as (write_required_com_spec v) (read_required_com_spec v) e e' /\ same_RequirePortComSpec e e'.
Proof. intros G. exists (norm_RequirePortComSpec e). split; [exact (C41_required_com_spec v e G)|exact (kept_RequirePortComSpec e G)]. Qed.

Print Assumptions C24_same_document.
Print Assumptions C26_application_primitive_data_type_same.
Print Assumptions C26_application_array_data_type_same.
Print Assumptions C26_application_record_data_type_same.
Print Assumptions C28_nv_data_interface_same.
Print Assumptions C28_parameter_interface_same.
Print Assumptions C28_sender_receiver_interface_same.
Print Assumptions C28_client_server_interface_same.
Print Assumptions C41_provide_port_prototype_same.
Print Assumptions C41_require_port_prototype_same.
Print Assumptions C41_pr_port_prototype_same.
Print Assumptions C41_composition_sw_component_type_same.
Print Assumptions C41_swc_internal_behavior_same.
Print Assumptions C41_runnable_entity_same.
Print Assumptions C41_application_software_component_type_same.
Print Assumptions C41_provided_com_spec_same.
Print Assumptions C41_required_com_spec_same.
