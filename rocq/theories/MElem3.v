(** Com-specs of receivers: attributes, writer methods, reader methods.
    Generated by tools/gen_codec.py from /repo/src/autosar/xml/{element,writer,reader}.py; the
    line numbers in the comments refer to these files. *)
From Verif Require Import Base MNames MNum MXml MEnum MRefTab MRef MCodec MElem0 MElem1 MElemA MElemB MElemC MElem2 MElemD.

(** ** QueuedReceiverComSpec *)

(** Attributes of QueuedReceiverComSpec, element.py:4533-4544 *)
Record QueuedReceiverComSpec := mkQueuedReceiverComSpec {
  QueuedReceiverComSpec_data_element_ref : option ref;
  QueuedReceiverComSpec_handle_out_of_range : option HandleOutOfRange;
  QueuedReceiverComSpec_handle_out_of_range_status : option HandleOutOfRangeStatus;
  QueuedReceiverComSpec_max_delta_counter_init : option Z;
  QueuedReceiverComSpec_max_no_new_repeated_data : option Z;
  QueuedReceiverComSpec_network_representation : option SwDataDefProps;
  QueuedReceiverComSpec_reception_props : option ReceptionComSpecProps;
  QueuedReceiverComSpec_replace_with : option VariableAccess;
  QueuedReceiverComSpec_sync_counter_init : option Z;
  QueuedReceiverComSpec_transformation_com_spec_props : list EndToEndTransformationComSpecProps;
  QueuedReceiverComSpec_uses_end_to_end_protection : option bool;
  QueuedReceiverComSpec_queue_length : option Z }.
(** QueuedReceiverComSpec.is_empty, xml/base.py:17-29 *)
Definition QueuedReceiverComSpec_is_empty (e : QueuedReceiverComSpec) : bool := unset (QueuedReceiverComSpec_data_element_ref e) && unset (QueuedReceiverComSpec_handle_out_of_range e) && unset (QueuedReceiverComSpec_handle_out_of_range_status e) && unset (QueuedReceiverComSpec_max_delta_counter_init e) && unset (QueuedReceiverComSpec_max_no_new_repeated_data e) && unset (QueuedReceiverComSpec_network_representation e) && unset (QueuedReceiverComSpec_reception_props e) && unset (QueuedReceiverComSpec_replace_with e) && unset (QueuedReceiverComSpec_sync_counter_init e) && no_items (QueuedReceiverComSpec_transformation_com_spec_props e) && unset (QueuedReceiverComSpec_uses_end_to_end_protection e) && unset (QueuedReceiverComSpec_queue_length e).
(** _write_receiver_com_spec_group, writer.py:3399-3427 *)
Definition write_receiver_com_spec_group (v : N) (f_data_element_ref : option ref) (f_handle_out_of_range : option HandleOutOfRange) (f_handle_out_of_range_status : option HandleOutOfRangeStatus) (f_max_delta_counter_init : option Z) (f_max_no_new_repeated_data : option Z) (f_network_representation : option SwDataDefProps) (f_reception_props : option ReceptionComSpecProps) (f_replace_with : option VariableAccess) (f_sync_counter_init : option Z) (f_transformation_com_spec_props : list EndToEndTransformationComSpecProps) (f_uses_end_to_end_protection : option bool) : out :=
  cat [
    if_set f_data_element_ref (fun a => write_ref "DATA-ELEMENT-REF" a);
    if_set f_handle_out_of_range (fun a => content "HANDLE-OUT-OF-RANGE" (enum_text em_HandleOutOfRange a));
    if_set f_handle_out_of_range_status (fun a => content "HANDLE-OUT-OF-RANGE-STATUS" (enum_text em_HandleOutOfRangeStatus a));
    if_set f_max_delta_counter_init (fun a => content "MAX-DELTA-COUNTER-INIT" (Ok (zstr a)));
    if_set f_max_no_new_repeated_data (fun a => content "MAX-NO-NEW-OR-REPEATED-DATA" (Ok (zstr a)));
    if_set f_network_representation (fun a => write_sw_data_def_props v "NETWORK-REPRESENTATION" a);
    if_set f_reception_props (fun a => write_reception_com_spec_props v a);
    if_set f_replace_with (fun a => write_variable_access v "REPLACE-WITH" a);
    if_set f_sync_counter_init (fun a => content "SYNC-COUNTER-INIT" (Ok (zstr a)));
    if_some f_transformation_com_spec_props (node "TRANSFORMATION-COM-SPEC-PROPSS" [] (for_each f_transformation_com_spec_props (fun a => write_e2e_transformation_com_spec_props v a)));
    if_set f_uses_end_to_end_protection (fun a => content "USES-END-TO-END-PROTECTION" (Ok (format_boolean a))) ].
(** _write_queued_receiver_com_spec, writer.py:3429-3443 *)
Definition write_queued_receiver_com_spec (v : N) (e : QueuedReceiverComSpec) : out :=
  if QueuedReceiverComSpec_is_empty e then empty "QUEUED-RECEIVER-COM-SPEC" else
  node "QUEUED-RECEIVER-COM-SPEC" [] (cat [
    write_receiver_com_spec_group v (QueuedReceiverComSpec_data_element_ref e) (QueuedReceiverComSpec_handle_out_of_range e) (QueuedReceiverComSpec_handle_out_of_range_status e) (QueuedReceiverComSpec_max_delta_counter_init e) (QueuedReceiverComSpec_max_no_new_repeated_data e) (QueuedReceiverComSpec_network_representation e) (QueuedReceiverComSpec_reception_props e) (QueuedReceiverComSpec_replace_with e) (QueuedReceiverComSpec_sync_counter_init e) (QueuedReceiverComSpec_transformation_com_spec_props e) (QueuedReceiverComSpec_uses_end_to_end_protection e);
    if_set (QueuedReceiverComSpec_queue_length e) (fun a => content "QUEUE-LENGTH" (Ok (zstr a))) ]).
(** _read_queued_receiver_com_spec, reader.py:3964-3976 *)
Definition read_queued_receiver_com_spec (v : N) (x : xml) : result QueuedReceiverComSpec :=
  let k := x_kids x in
  let* (d_data_element_ref, d_handle_out_of_range, d_handle_out_of_range_status, d_max_delta_counter_init, d_max_no_new_repeated_data, d_network_representation, d_reception_props, d_replace_with, d_sync_counter_init, d_transformation_com_spec_props, d_uses_end_to_end_protection) := read_receiver_com_spec v k in
  let* d_queue_length := child "QUEUE-LENGTH" k rd_positive in
  Ok (mkQueuedReceiverComSpec d_data_element_ref d_handle_out_of_range d_handle_out_of_range_status d_max_delta_counter_init d_max_no_new_repeated_data d_network_representation d_reception_props d_replace_with d_sync_counter_init d_transformation_com_spec_props d_uses_end_to_end_protection d_queue_length).

(** ** NonqueuedReceiverComSpec *)

(** Attributes of NonqueuedReceiverComSpec, element.py:4547-4579 *)
Record NonqueuedReceiverComSpec := mkNonqueuedReceiverComSpec {
  NonqueuedReceiverComSpec_data_element_ref : option ref;
  NonqueuedReceiverComSpec_handle_out_of_range : option HandleOutOfRange;
  NonqueuedReceiverComSpec_handle_out_of_range_status : option HandleOutOfRangeStatus;
  NonqueuedReceiverComSpec_max_delta_counter_init : option Z;
  NonqueuedReceiverComSpec_max_no_new_repeated_data : option Z;
  NonqueuedReceiverComSpec_network_representation : option SwDataDefProps;
  NonqueuedReceiverComSpec_reception_props : option ReceptionComSpecProps;
  NonqueuedReceiverComSpec_replace_with : option VariableAccess;
  NonqueuedReceiverComSpec_sync_counter_init : option Z;
  NonqueuedReceiverComSpec_transformation_com_spec_props : list EndToEndTransformationComSpecProps;
  NonqueuedReceiverComSpec_uses_end_to_end_protection : option bool;
  NonqueuedReceiverComSpec_alive_timeout : option pynum;
  NonqueuedReceiverComSpec_enable_update : option bool;
  NonqueuedReceiverComSpec_data_filter : option DataFilter;
  NonqueuedReceiverComSpec_handle_data_status : option bool;
  NonqueuedReceiverComSpec_handle_never_received : option bool;
  NonqueuedReceiverComSpec_handle_timeout_type : option HandleTimeout;
  NonqueuedReceiverComSpec_init_value : option ValueSpecificationElement;
  NonqueuedReceiverComSpec_timeout_substitution_value : option ValueSpecificationElement }.
(** NonqueuedReceiverComSpec.is_empty, xml/base.py:17-29 *)
Definition NonqueuedReceiverComSpec_is_empty (e : NonqueuedReceiverComSpec) : bool := unset (NonqueuedReceiverComSpec_data_element_ref e) && unset (NonqueuedReceiverComSpec_handle_out_of_range e) && unset (NonqueuedReceiverComSpec_handle_out_of_range_status e) && unset (NonqueuedReceiverComSpec_max_delta_counter_init e) && unset (NonqueuedReceiverComSpec_max_no_new_repeated_data e) && unset (NonqueuedReceiverComSpec_network_representation e) && unset (NonqueuedReceiverComSpec_reception_props e) && unset (NonqueuedReceiverComSpec_replace_with e) && unset (NonqueuedReceiverComSpec_sync_counter_init e) && no_items (NonqueuedReceiverComSpec_transformation_com_spec_props e) && unset (NonqueuedReceiverComSpec_uses_end_to_end_protection e) && unset (NonqueuedReceiverComSpec_alive_timeout e) && unset (NonqueuedReceiverComSpec_enable_update e) && unset (NonqueuedReceiverComSpec_data_filter e) && unset (NonqueuedReceiverComSpec_handle_data_status e) && unset (NonqueuedReceiverComSpec_handle_never_received e) && unset (NonqueuedReceiverComSpec_handle_timeout_type e) && unset (NonqueuedReceiverComSpec_init_value e) && unset (NonqueuedReceiverComSpec_timeout_substitution_value e).
(** _write_nonqueued_receiver_com_spec_group, writer.py:3460-3483 *)
Definition write_nonqueued_receiver_com_spec_group (v : N) (f_alive_timeout : option pynum) (f_enable_update : option bool) (f_data_filter : option DataFilter) (f_handle_data_status : option bool) (f_handle_never_received : option bool) (f_handle_timeout_type : option HandleTimeout) (f_init_value : option ValueSpecificationElement) (f_timeout_substitution_value : option ValueSpecificationElement) : out :=
  cat [
    if_set f_alive_timeout (fun a => content "ALIVE-TIMEOUT" (format_float a));
    if_set f_enable_update (fun a => content "ENABLE-UPDATE" (Ok (format_boolean a)));
    if_set f_data_filter (fun a => write_data_filter v "FILTER" a);
    if_set f_handle_data_status (fun a => content "HANDLE-DATA-STATUS" (Ok (format_boolean a)));
    if_set f_handle_never_received (fun a => content "HANDLE-NEVER-RECEIVED" (Ok (format_boolean a)));
    if_set f_handle_timeout_type (fun a => content "HANDLE-TIMEOUT-TYPE" (enum_text em_HandleTimeout a));
    if_set f_init_value (fun a => node "INIT-VALUE" [] (write_value_specification_element v a));
    if_set f_timeout_substitution_value (fun a => node "TIMEOUT-SUBSTITUTION-VALUE" [] (write_value_specification_element v a)) ].
(** _write_nonqueued_receiver_com_spec, writer.py:3445-3458 *)
Definition write_nonqueued_receiver_com_spec (v : N) (e : NonqueuedReceiverComSpec) : out :=
  if NonqueuedReceiverComSpec_is_empty e then empty "NONQUEUED-RECEIVER-COM-SPEC" else
  node "NONQUEUED-RECEIVER-COM-SPEC" [] (cat [
    write_receiver_com_spec_group v (NonqueuedReceiverComSpec_data_element_ref e) (NonqueuedReceiverComSpec_handle_out_of_range e) (NonqueuedReceiverComSpec_handle_out_of_range_status e) (NonqueuedReceiverComSpec_max_delta_counter_init e) (NonqueuedReceiverComSpec_max_no_new_repeated_data e) (NonqueuedReceiverComSpec_network_representation e) (NonqueuedReceiverComSpec_reception_props e) (NonqueuedReceiverComSpec_replace_with e) (NonqueuedReceiverComSpec_sync_counter_init e) (NonqueuedReceiverComSpec_transformation_com_spec_props e) (NonqueuedReceiverComSpec_uses_end_to_end_protection e);
    write_nonqueued_receiver_com_spec_group v (NonqueuedReceiverComSpec_alive_timeout e) (NonqueuedReceiverComSpec_enable_update e) (NonqueuedReceiverComSpec_data_filter e) (NonqueuedReceiverComSpec_handle_data_status e) (NonqueuedReceiverComSpec_handle_never_received e) (NonqueuedReceiverComSpec_handle_timeout_type e) (NonqueuedReceiverComSpec_init_value e) (NonqueuedReceiverComSpec_timeout_substitution_value e) ]).
(** _read_nonqueued_receiver_com_spec_group, reader.py:3991-4028 *)
Definition read_nonqueued_receiver_com_spec_group (v : N) (k : list xml) : result (option pynum * option bool * option DataFilter * option bool * option bool * option HandleTimeout * option ValueSpecificationElement * option ValueSpecificationElement) :=
  let* d_alive_timeout := child "ALIVE-TIMEOUT" k rd_number in
  let* d_enable_update := child "ENABLE-UPDATE" k rd_boolean in
  let* d_data_filter := child "FILTER" k (read_data_filter v) in
  let* d_handle_data_status := child "HANDLE-DATA-STATUS" k rd_boolean in
  let* d_handle_never_received := child "HANDLE-NEVER-RECEIVED" k rd_boolean in
  let* d_handle_timeout_type := child "HANDLE-TIMEOUT-TYPE" k (rd_enum em_HandleTimeout) in
  let* d_init_value := child_inner_try "INIT-VALUE" k (read_value_specification_element v) in
  let* d_timeout_substitution_value := child_inner_try "TIMEOUT-SUBSTITUTION-VALUE" k (read_value_specification_element v) in
  Ok (d_alive_timeout, d_enable_update, d_data_filter, d_handle_data_status, d_handle_never_received, d_handle_timeout_type, d_init_value, d_timeout_substitution_value).
(** _read_nonqueued_receiver_com_spec, reader.py:3978-3989 *)
Definition read_nonqueued_receiver_com_spec (v : N) (x : xml) : result NonqueuedReceiverComSpec :=
  let k := x_kids x in
  let* (d_data_element_ref, d_handle_out_of_range, d_handle_out_of_range_status, d_max_delta_counter_init, d_max_no_new_repeated_data, d_network_representation, d_reception_props, d_replace_with, d_sync_counter_init, d_transformation_com_spec_props, d_uses_end_to_end_protection) := read_receiver_com_spec v k in
  let* (d_alive_timeout, d_enable_update, d_data_filter, d_handle_data_status, d_handle_never_received, d_handle_timeout_type, d_init_value, d_timeout_substitution_value) := read_nonqueued_receiver_com_spec_group v k in
  Ok (mkNonqueuedReceiverComSpec d_data_element_ref d_handle_out_of_range d_handle_out_of_range_status d_max_delta_counter_init d_max_no_new_repeated_data d_network_representation d_reception_props d_replace_with d_sync_counter_init d_transformation_com_spec_props d_uses_end_to_end_protection (option_map as_float d_alive_timeout) d_enable_update d_data_filter d_handle_data_status d_handle_never_received d_handle_timeout_type d_init_value d_timeout_substitution_value).

