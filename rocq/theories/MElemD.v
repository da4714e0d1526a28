(** Reception properties, whose reader calls itself.
    Sources: /repo/src/autosar/xml/element.py:4328-4342, /repo/src/autosar/xml/writer.py:3382-3397,
    /repo/src/autosar/xml/reader.py:3902-3962.  No proofs in this file. *)
From Verif Require Import Base MNames MNum MXml MEnum MRefTab MRef MCodec MElem0 MElem1 MElemA MElemB MElemC MElem2.

(** Attributes of ReceptionComSpecProps, element.py:4328-4342 *)
Record ReceptionComSpecProps := mkReceptionComSpecProps {
  ReceptionComSpecProps_data_update_period : option pynum;
  ReceptionComSpecProps_timeout : option pynum }.
(** ReceptionComSpecProps.is_empty, xml/base.py:17-29 *)
Definition ReceptionComSpecProps_is_empty (e : ReceptionComSpecProps) : bool :=
  unset (ReceptionComSpecProps_data_update_period e) && unset (ReceptionComSpecProps_timeout e).
(** _write_reception_com_spec_props, writer.py:3382-3397 *)
Definition write_reception_com_spec_props (v : N) (e : ReceptionComSpecProps) : out :=
  if ReceptionComSpecProps_is_empty e then empty "RECEPTION-PROPS" else
  node "RECEPTION-PROPS" [] (cat [
    if_set (ReceptionComSpecProps_data_update_period e) (fun a => content "DATA-UPDATE-PERIOD" (format_float a));
    if_set (ReceptionComSpecProps_timeout e) (fun a => content "TIMEOUT" (format_float a)) ]).
(** _read_receiver_com_spec, reader.py:3919-3962, with [self] for _read_reception_com_spec_props *)
Definition receiver_com_spec_with (self : xml -> result ReceptionComSpecProps) (v : N) (k : list xml) : result (option ref * option HandleOutOfRange * option HandleOutOfRangeStatus * option Z * option Z * option SwDataDefProps * option ReceptionComSpecProps * option VariableAccess * option Z * (list EndToEndTransformationComSpecProps) * option bool) :=
  let* d_data_element_ref := child "DATA-ELEMENT-REF" k (read_ref rc_AutosarDataPrototypeRef v) in
  let* d_handle_out_of_range := child "HANDLE-OUT-OF-RANGE" k (rd_enum em_HandleOutOfRange) in
  let* d_handle_out_of_range_status := child "HANDLE-OUT-OF-RANGE-STATUS" k (rd_enum em_HandleOutOfRangeStatus) in
  let* d_max_delta_counter_init := child "MAX-DELTA-COUNTER-INIT" k rd_positive in
  let* d_max_no_new_repeated_data := child "MAX-NO-NEW-OR-REPEATED-DATA" k rd_positive in
  let* d_network_representation := child "NETWORK-REPRESENTATION" k (read_sw_data_def_props v) in
  let* d_reception_props := child "RECEPTION-PROPS" k self in
  let* d_replace_with := child "REPLACE-WITH" k (read_variable_access v) in
  let* d_sync_counter_init := child "SYNC-COUNTER-INIT" k rd_positive in
  let* d_transformation_com_spec_props := children "TRANSFORMATION-COM-SPEC-PROPSS" "END-TO-END-TRANSFORMATION-COM-SPEC-PROPS" k (read_e2e_transformation_com_spec_props v) in
  let* d_uses_end_to_end_protection := child "USES-END-TO-END-PROTECTION" k rd_boolean in
  Ok (d_data_element_ref, d_handle_out_of_range, d_handle_out_of_range_status, d_max_delta_counter_init, d_max_no_new_repeated_data, d_network_representation, d_reception_props, d_replace_with, d_sync_counter_init, d_transformation_com_spec_props, d_uses_end_to_end_protection).
(** The children that _read_receiver_com_spec turns into attributes *)
Definition receiver_com_spec_tags : list string :=
  ["DATA-ELEMENT-REF"; "HANDLE-OUT-OF-RANGE"; "HANDLE-OUT-OF-RANGE-STATUS"; "MAX-DELTA-COUNTER-INIT";
   "MAX-NO-NEW-OR-REPEATED-DATA"; "NETWORK-REPRESENTATION"; "RECEPTION-PROPS"; "REPLACE-WITH"; "SYNC-COUNTER-INIT";
   "TRANSFORMATION-COM-SPEC-PROPSS"; "USES-END-TO-END-PROTECTION"].
(** _read_reception_com_spec_props, reader.py:3902-3917: it reads the attributes of a receiver
    com-spec too, which the constructor does not know *)
Definition read_reception_com_spec_props_ (v : N) (self : xml -> result ReceptionComSpecProps) (x : xml) : result ReceptionComSpecProps :=
  let k := x_kids x in
  let* _ := receiver_com_spec_with self v k in
  let* d_data_update_period := child "DATA-UPDATE-PERIOD" k rd_number in
  let* d_timeout := child "TIMEOUT" k rd_number in
  let* _ := unexpected receiver_com_spec_tags k in
  Ok (mkReceptionComSpecProps (option_map as_float d_data_update_period) (option_map as_float d_timeout)).
Definition read_reception_com_spec_props (v : N) (x : xml) : result ReceptionComSpecProps :=
  recursive (read_reception_com_spec_props_ v) x.
(** _read_receiver_com_spec, reader.py:3919-3962 *)
Definition read_receiver_com_spec (v : N) (k : list xml) := receiver_com_spec_with (read_reception_com_spec_props v) v k.
