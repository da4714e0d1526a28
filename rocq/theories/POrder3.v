(** Proofs that readers do not see the order of properties: MElem2.v, MElemD.v, MElem3.v. *)
From Verif Require Import Base PBase MNames MNum MXml MEnum MRefTab MRef MCodec MElem0 MElem1 MElemA MElemB PElemB MElemC MElem2 MElemD PElemD MElem3 MElem4 MElemE MElem5 MElemF SOrder POrder POrder1 POrder2.
Open Scope list_scope.

(** Readers of MElem2.v *)
Lemma o_read_autosar_data_type v : kids_respect (read_autosar_data_type v).
Proof. kids read_autosar_data_type. Qed.
#[export] Hint Resolve o_read_autosar_data_type : order.
Lemma o_read_implementation_data_type_group v : kids_respect (read_implementation_data_type_group v).
Proof. kids read_implementation_data_type_group. Qed.
#[export] Hint Resolve o_read_implementation_data_type_group : order.
Lemma o_read_implementation_data_type v : respects (read_implementation_data_type v).
Proof. properties read_implementation_data_type. Qed.
#[export] Hint Resolve o_read_implementation_data_type : order.
Lemma o_read_application_primitive_data_type v : respects (read_application_primitive_data_type v).
Proof. properties read_application_primitive_data_type. Qed.
#[export] Hint Resolve o_read_application_primitive_data_type : order.
Lemma o_read_data_prototype v : kids_respect (read_data_prototype v).
Proof. kids read_data_prototype. Qed.
#[export] Hint Resolve o_read_data_prototype : order.
Lemma o_read_application_composite_element_data_prototype v : kids_respect (read_application_composite_element_data_prototype v).
Proof. kids read_application_composite_element_data_prototype. Qed.
#[export] Hint Resolve o_read_application_composite_element_data_prototype : order.
Lemma o_read_application_array_element_group v : kids_respect (read_application_array_element_group v).
Proof. kids read_application_array_element_group. Qed.
#[export] Hint Resolve o_read_application_array_element_group : order.
Lemma o_read_application_array_element v : respects (read_application_array_element v).
Proof. properties read_application_array_element. Qed.
#[export] Hint Resolve o_read_application_array_element : order.
Lemma o_read_application_record_element_group v : kids_respect (read_application_record_element_group v).
Proof. kids read_application_record_element_group. Qed.
#[export] Hint Resolve o_read_application_record_element_group : order.
Lemma o_read_application_record_element v : respects (read_application_record_element v).
Proof. properties read_application_record_element. Qed.
#[export] Hint Resolve o_read_application_record_element : order.
Lemma o_read_application_array_data_type_group v : kids_respect (read_application_array_data_type_group v).
Proof. kids read_application_array_data_type_group. Qed.
#[export] Hint Resolve o_read_application_array_data_type_group : order.
Lemma o_read_application_array_data_type v : respects (read_application_array_data_type v).
Proof. properties read_application_array_data_type. Qed.
#[export] Hint Resolve o_read_application_array_data_type : order.
Lemma o_read_application_record_data_type_group v : kids_respect (read_application_record_data_type_group v).
Proof. kids read_application_record_data_type_group. Qed.
#[export] Hint Resolve o_read_application_record_data_type_group : order.
Lemma o_read_application_record_data_type v : respects (read_application_record_data_type v).
Proof. properties read_application_record_data_type. Qed.
#[export] Hint Resolve o_read_application_record_data_type : order.
Lemma o_read_autosar_data_prototype v : kids_respect (read_autosar_data_prototype v).
Proof. kids read_autosar_data_prototype. Qed.
#[export] Hint Resolve o_read_autosar_data_prototype : order.
Lemma o_read_variable_data_prototype_group v : kids_respect (read_variable_data_prototype_group v).
Proof. kids read_variable_data_prototype_group. Qed.
#[export] Hint Resolve o_read_variable_data_prototype_group : order.
Lemma o_read_variable_data_prototype v : respects (read_variable_data_prototype v).
Proof. properties read_variable_data_prototype. Qed.
#[export] Hint Resolve o_read_variable_data_prototype : order.
Lemma o_read_parameter_data_prototype_group v : kids_respect (read_parameter_data_prototype_group v).
Proof. kids read_parameter_data_prototype_group. Qed.
#[export] Hint Resolve o_read_parameter_data_prototype_group : order.
Lemma o_read_parameter_data_prototype v : respects (read_parameter_data_prototype v).
Proof. properties read_parameter_data_prototype. Qed.
#[export] Hint Resolve o_read_parameter_data_prototype : order.
Lemma o_read_argument_data_prototype_group v : kids_respect (read_argument_data_prototype_group v).
Proof. kids read_argument_data_prototype_group. Qed.
#[export] Hint Resolve o_read_argument_data_prototype_group : order.
Lemma o_read_argument_data_prototype v : respects (read_argument_data_prototype v).
Proof. properties read_argument_data_prototype. Qed.
#[export] Hint Resolve o_read_argument_data_prototype : order.
Lemma o_read_constant_specification_group v : kids_respect (read_constant_specification_group v).
Proof. kids read_constant_specification_group. Qed.
#[export] Hint Resolve o_read_constant_specification_group : order.
Lemma o_read_constant_specification v : respects (read_constant_specification v).
Proof. properties read_constant_specification. Qed.
#[export] Hint Resolve o_read_constant_specification : order.
Lemma o_read_nv_data_interface_group v : kids_respect (read_nv_data_interface_group v).
Proof. kids read_nv_data_interface_group. Qed.
#[export] Hint Resolve o_read_nv_data_interface_group : order.
Lemma o_read_nv_data_interface v : respects (read_nv_data_interface v).
Proof. properties read_nv_data_interface. Qed.
#[export] Hint Resolve o_read_nv_data_interface : order.
Lemma o_read_parameter_interface_group v : kids_respect (read_parameter_interface_group v).
Proof. kids read_parameter_interface_group. Qed.
#[export] Hint Resolve o_read_parameter_interface_group : order.
Lemma o_read_parameter_interface v : respects (read_parameter_interface v).
Proof. properties read_parameter_interface. Qed.
#[export] Hint Resolve o_read_parameter_interface : order.
Lemma o_read_sender_receiver_interface_group v : kids_respect (read_sender_receiver_interface_group v).
Proof. kids read_sender_receiver_interface_group. Qed.
#[export] Hint Resolve o_read_sender_receiver_interface_group : order.
Lemma o_read_sender_receiver_interface v : respects (read_sender_receiver_interface v).
Proof. properties read_sender_receiver_interface. Qed.
#[export] Hint Resolve o_read_sender_receiver_interface : order.
Lemma o_read_client_server_operation_group v : kids_respect (read_client_server_operation_group v).
Proof. kids read_client_server_operation_group. Qed.
#[export] Hint Resolve o_read_client_server_operation_group : order.
Lemma o_read_client_server_operation v : respects (read_client_server_operation v).
Proof. properties read_client_server_operation. Qed.
#[export] Hint Resolve o_read_client_server_operation : order.
Lemma o_read_client_server_interface_group v : kids_respect (read_client_server_interface_group v).
Proof. kids read_client_server_interface_group. Qed.
#[export] Hint Resolve o_read_client_server_interface_group : order.
Lemma o_read_client_server_interface v : respects (read_client_server_interface v).
Proof. properties read_client_server_interface. Qed.
#[export] Hint Resolve o_read_client_server_interface : order.
Lemma o_read_sender_com_spec_group v : kids_respect (read_sender_com_spec_group v).
Proof. kids read_sender_com_spec_group. Qed.
#[export] Hint Resolve o_read_sender_com_spec_group : order.
Lemma o_read_queued_sender_com_spec v : respects (read_queued_sender_com_spec v).
Proof. properties read_queued_sender_com_spec. Qed.
#[export] Hint Resolve o_read_queued_sender_com_spec : order.
Lemma o_read_nonqueued_sender_com_spec_group v : kids_respect (read_nonqueued_sender_com_spec_group v).
Proof. kids read_nonqueued_sender_com_spec_group. Qed.
#[export] Hint Resolve o_read_nonqueued_sender_com_spec_group : order.
Lemma o_read_nonqueued_sender_com_spec v : respects (read_nonqueued_sender_com_spec v).
Proof. properties read_nonqueued_sender_com_spec. Qed.
#[export] Hint Resolve o_read_nonqueued_sender_com_spec : order.
Lemma o_read_nv_provider_com_spec_group v : kids_respect (read_nv_provider_com_spec_group v).
Proof. kids read_nv_provider_com_spec_group. Qed.
#[export] Hint Resolve o_read_nv_provider_com_spec_group : order.
Lemma o_read_nv_provider_com_spec v : respects (read_nv_provider_com_spec v).
Proof. properties read_nv_provider_com_spec. Qed.
#[export] Hint Resolve o_read_nv_provider_com_spec : order.
Lemma o_read_parameter_provide_com_spec v : respects (read_parameter_provide_com_spec v).
Proof. properties read_parameter_provide_com_spec. Qed.
#[export] Hint Resolve o_read_parameter_provide_com_spec : order.
Lemma o_read_nv_require_com_spec v : respects (read_nv_require_com_spec v).
Proof. properties read_nv_require_com_spec. Qed.
#[export] Hint Resolve o_read_nv_require_com_spec : order.
Lemma o_read_parameter_require_com_spec v : respects (read_parameter_require_com_spec v).
Proof. properties read_parameter_require_com_spec. Qed.
#[export] Hint Resolve o_read_parameter_require_com_spec : order.
Lemma o_read_autosar_variable_ref_group v : kids_respect (read_autosar_variable_ref_group v).
Proof. kids read_autosar_variable_ref_group. Qed.
#[export] Hint Resolve o_read_autosar_variable_ref_group : order.
Lemma o_read_autosar_variable_ref v : respects (read_autosar_variable_ref v).
Proof. properties read_autosar_variable_ref. Qed.
#[export] Hint Resolve o_read_autosar_variable_ref : order.
Lemma o_read_variable_access_group v : kids_respect (read_variable_access_group v).
Proof. kids read_variable_access_group. Qed.
#[export] Hint Resolve o_read_variable_access_group : order.
Lemma o_read_variable_access v : respects (read_variable_access v).
Proof. properties read_variable_access. Qed.
#[export] Hint Resolve o_read_variable_access : order.
Lemma o_read_parameter_access_group v : kids_respect (read_parameter_access_group v).
Proof. kids read_parameter_access_group. Qed.
#[export] Hint Resolve o_read_parameter_access_group : order.
Lemma o_read_parameter_access v : respects (read_parameter_access v).
Proof. properties read_parameter_access. Qed.
#[export] Hint Resolve o_read_parameter_access : order.
Lemma o_read_port_defined_argument_value v : respects (read_port_defined_argument_value v).
Proof. properties read_port_defined_argument_value. Qed.
#[export] Hint Resolve o_read_port_defined_argument_value : order.
Lemma o_read_port_api_option_group v : kids_respect (read_port_api_option_group v).
Proof. kids read_port_api_option_group. Qed.
#[export] Hint Resolve o_read_port_api_option_group : order.
Lemma o_read_port_api_option v : respects (read_port_api_option v).
Proof. properties read_port_api_option. Qed.
#[export] Hint Resolve o_read_port_api_option : order.
(** Readers of MElemD.v *)
Lemma o_receiver_com_spec_with self v : respects self -> kids_respect (receiver_com_spec_with self v).
Proof. intros S. kids receiver_com_spec_with. Qed.
Lemma o_read_reception_com_spec_props v : respects (read_reception_com_spec_props v).
Proof.
  apply (recursive_respects (read_reception_com_spec_props_ v)); [apply read_reception_com_spec_props_local|]. intros self S x y H. unfold read_reception_com_spec_props_. cbv zeta.
  pose proof (alike_kids x y H) as K. apply bind_alike; [exact (o_receiver_com_spec_with self v S _ _ K)|intros _]. blocks K.
Qed.
#[export] Hint Resolve o_read_reception_com_spec_props : order.
Lemma o_read_receiver_com_spec v : kids_respect (read_receiver_com_spec v).
Proof. exact (o_receiver_com_spec_with _ v (o_read_reception_com_spec_props v)). Qed.
#[export] Hint Resolve o_read_receiver_com_spec : order.
(** Readers of MElem3.v *)
Lemma o_read_queued_receiver_com_spec v : respects (read_queued_receiver_com_spec v).
Proof. properties read_queued_receiver_com_spec. Qed.
#[export] Hint Resolve o_read_queued_receiver_com_spec : order.
Lemma o_read_nonqueued_receiver_com_spec_group v : kids_respect (read_nonqueued_receiver_com_spec_group v).
Proof. kids read_nonqueued_receiver_com_spec_group. Qed.
#[export] Hint Resolve o_read_nonqueued_receiver_com_spec_group : order.
Lemma o_read_nonqueued_receiver_com_spec v : respects (read_nonqueued_receiver_com_spec v).
Proof. properties read_nonqueued_receiver_com_spec. Qed.
#[export] Hint Resolve o_read_nonqueued_receiver_com_spec : order.
