(** Com-specs of receivers: which objects survive a round trip (good_), and as what (norm_).
    Generated by tools/gen_codec.py from /repo/src/autosar/xml/{element,writer,reader}.py; the
    line numbers in the comments refer to these files. *)
From Verif Require Import Base MNum SNum MXml SXml MEnum MRefTab MRef SEnum MCodec SCodec MElem0 MElem1 MElemA MElemB MElemC MElem2 MElemD MElem3 SElem1 SElemA SElemB SElemC SElem2 SElemD.

Definition good_QueuedReceiverComSpec (e : QueuedReceiverComSpec) : Prop :=
  opt_ok (good_ref rc_AutosarDataPrototypeRef) (QueuedReceiverComSpec_data_element_ref e) /\ opt_ok (fun z => (0 <= z)%Z) (QueuedReceiverComSpec_max_delta_counter_init e) /\ opt_ok (fun z => (0 <= z)%Z) (QueuedReceiverComSpec_max_no_new_repeated_data e) /\ opt_ok good_SwDataDefProps (QueuedReceiverComSpec_network_representation e) /\ opt_ok good_ReceptionComSpecProps (QueuedReceiverComSpec_reception_props e) /\ opt_ok good_VariableAccess (QueuedReceiverComSpec_replace_with e) /\ opt_ok (fun z => (0 <= z)%Z) (QueuedReceiverComSpec_sync_counter_init e) /\ all_ok good_EndToEndTransformationComSpecProps (QueuedReceiverComSpec_transformation_com_spec_props e) /\ opt_ok (fun z => (0 <= z)%Z) (QueuedReceiverComSpec_queue_length e).
Definition norm_QueuedReceiverComSpec (e : QueuedReceiverComSpec) : QueuedReceiverComSpec :=
  mkQueuedReceiverComSpec (QueuedReceiverComSpec_data_element_ref e) (QueuedReceiverComSpec_handle_out_of_range e) (QueuedReceiverComSpec_handle_out_of_range_status e) (QueuedReceiverComSpec_max_delta_counter_init e) (QueuedReceiverComSpec_max_no_new_repeated_data e) (option_map norm_SwDataDefProps (QueuedReceiverComSpec_network_representation e)) (QueuedReceiverComSpec_reception_props e) (QueuedReceiverComSpec_replace_with e) (QueuedReceiverComSpec_sync_counter_init e) (QueuedReceiverComSpec_transformation_com_spec_props e) (QueuedReceiverComSpec_uses_end_to_end_protection e) (QueuedReceiverComSpec_queue_length e).
Definition good_NonqueuedReceiverComSpec (e : NonqueuedReceiverComSpec) : Prop :=
  opt_ok (good_ref rc_AutosarDataPrototypeRef) (NonqueuedReceiverComSpec_data_element_ref e) /\ opt_ok (fun z => (0 <= z)%Z) (NonqueuedReceiverComSpec_max_delta_counter_init e) /\ opt_ok (fun z => (0 <= z)%Z) (NonqueuedReceiverComSpec_max_no_new_repeated_data e) /\ opt_ok good_SwDataDefProps (NonqueuedReceiverComSpec_network_representation e) /\ opt_ok good_ReceptionComSpecProps (NonqueuedReceiverComSpec_reception_props e) /\ opt_ok good_VariableAccess (NonqueuedReceiverComSpec_replace_with e) /\ opt_ok (fun z => (0 <= z)%Z) (NonqueuedReceiverComSpec_sync_counter_init e) /\ all_ok good_EndToEndTransformationComSpecProps (NonqueuedReceiverComSpec_transformation_com_spec_props e) /\ opt_ok good_real (NonqueuedReceiverComSpec_alive_timeout e) /\ opt_ok good_DataFilter (NonqueuedReceiverComSpec_data_filter e) /\ opt_ok good_ValueSpecificationElement (NonqueuedReceiverComSpec_init_value e) /\ opt_ok good_ValueSpecificationElement (NonqueuedReceiverComSpec_timeout_substitution_value e).
Definition norm_NonqueuedReceiverComSpec (e : NonqueuedReceiverComSpec) : NonqueuedReceiverComSpec :=
  mkNonqueuedReceiverComSpec (NonqueuedReceiverComSpec_data_element_ref e) (NonqueuedReceiverComSpec_handle_out_of_range e) (NonqueuedReceiverComSpec_handle_out_of_range_status e) (NonqueuedReceiverComSpec_max_delta_counter_init e) (NonqueuedReceiverComSpec_max_no_new_repeated_data e) (option_map norm_SwDataDefProps (NonqueuedReceiverComSpec_network_representation e)) (NonqueuedReceiverComSpec_reception_props e) (NonqueuedReceiverComSpec_replace_with e) (NonqueuedReceiverComSpec_sync_counter_init e) (NonqueuedReceiverComSpec_transformation_com_spec_props e) (NonqueuedReceiverComSpec_uses_end_to_end_protection e) (NonqueuedReceiverComSpec_alive_timeout e) (NonqueuedReceiverComSpec_enable_update e) (NonqueuedReceiverComSpec_data_filter e) (NonqueuedReceiverComSpec_handle_data_status e) (NonqueuedReceiverComSpec_handle_never_received e) (NonqueuedReceiverComSpec_handle_timeout_type e) (option_map norm_ValueSpecificationElement (NonqueuedReceiverComSpec_init_value e)) (option_map norm_ValueSpecificationElement (NonqueuedReceiverComSpec_timeout_substitution_value e)).
