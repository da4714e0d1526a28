(** Ports: attributes, writer methods, reader methods.
    Generated by tools/gen_codec.py from /repo/src/autosar/xml/{element,writer,reader}.py; the
    line numbers in the comments refer to these files. *)
From Verif Require Import Base MNames MNum MXml MEnum MRefTab MRef MCodec MElem0 MElem1 MElemA MElemB MElemC MElem2 MElemD MElem3.

(** ** ProvidePortComSpec *)

(** The classes which self.switcher_provided_com_spec of the writer knows *)
Inductive ProvidePortComSpec :=
| ProvidePortComSpec_ModeSwitchSenderComSpec (e : ModeSwitchSenderComSpec)
| ProvidePortComSpec_QueuedSenderComSpec (e : QueuedSenderComSpec)
| ProvidePortComSpec_NonqueuedSenderComSpec (e : NonqueuedSenderComSpec)
| ProvidePortComSpec_NvProvideComSpec (e : NvProvideComSpec)
| ProvidePortComSpec_ParameterProvideComSpec (e : ParameterProvideComSpec)
| ProvidePortComSpec_ServerComSpec (e : ServerComSpec).
(** _write_provided_com_spec, writer.py:3566-3575; other classes raise NotImplementedError and are outside the type *)
Definition write_provided_com_spec (v : N) (s : ProvidePortComSpec) : out :=
  match s with
  | ProvidePortComSpec_ModeSwitchSenderComSpec e => write_mode_switch_sender_com_spec v e
  | ProvidePortComSpec_QueuedSenderComSpec e => write_queued_sender_com_spec v e
  | ProvidePortComSpec_NonqueuedSenderComSpec e => write_non_queued_sender_com_spec v e
  | ProvidePortComSpec_NvProvideComSpec e => write_nv_provide_com_spec v e
  | ProvidePortComSpec_ParameterProvideComSpec e => write_parameter_provide_com_spec v e
  | ProvidePortComSpec_ServerComSpec e => write_server_com_spec v e
  end.
(** _read_provided_com_spec, reader.py:4128-4136, with self.switcher_provided_com_spec of the reader *)
Definition read_provided_com_spec (v : N) (x : xml) : result ProvidePortComSpec :=
  let tag := x_tag x in
  if String.eqb tag "QUEUED-SENDER-COM-SPEC" then let* e := read_queued_sender_com_spec v x in Ok (ProvidePortComSpec_QueuedSenderComSpec e) else
  if String.eqb tag "MODE-SWITCH-SENDER-COM-SPEC" then let* e := read_mode_switch_sender_com_spec v x in Ok (ProvidePortComSpec_ModeSwitchSenderComSpec e) else
  if String.eqb tag "NONQUEUED-SENDER-COM-SPEC" then let* e := read_nonqueued_sender_com_spec v x in Ok (ProvidePortComSpec_NonqueuedSenderComSpec e) else
  if String.eqb tag "NV-PROVIDE-COM-SPEC" then let* e := read_nv_provider_com_spec v x in Ok (ProvidePortComSpec_NvProvideComSpec e) else
  if String.eqb tag "PARAMETER-PROVIDE-COM-SPEC" then let* e := read_parameter_provide_com_spec v x in Ok (ProvidePortComSpec_ParameterProvideComSpec e) else
  if String.eqb tag "SERVER-COM-SPEC" then let* e := read_server_com_spec v x in Ok (ProvidePortComSpec_ServerComSpec e) else
  Err KeyError.

(** ** RequirePortComSpec *)

(** The classes which self.switcher_required_com_spec of the writer knows *)
Inductive RequirePortComSpec :=
| RequirePortComSpec_QueuedReceiverComSpec (e : QueuedReceiverComSpec)
| RequirePortComSpec_NonqueuedReceiverComSpec (e : NonqueuedReceiverComSpec)
| RequirePortComSpec_NvRequireComSpec (e : NvRequireComSpec)
| RequirePortComSpec_ParameterRequireComSpec (e : ParameterRequireComSpec)
| RequirePortComSpec_ModeSwitchReceiverComSpec (e : ModeSwitchReceiverComSpec)
| RequirePortComSpec_ClientComSpec (e : ClientComSpec).
(** _write_required_com_spec, writer.py:3577-3586; other classes raise NotImplementedError and are outside the type *)
Definition write_required_com_spec (v : N) (s : RequirePortComSpec) : out :=
  match s with
  | RequirePortComSpec_QueuedReceiverComSpec e => write_queued_receiver_com_spec v e
  | RequirePortComSpec_NonqueuedReceiverComSpec e => write_nonqueued_receiver_com_spec v e
  | RequirePortComSpec_NvRequireComSpec e => write_nv_require_com_spec v e
  | RequirePortComSpec_ParameterRequireComSpec e => write_parameter_require_com_spec v e
  | RequirePortComSpec_ModeSwitchReceiverComSpec e => write_mode_switch_receiver_com_spec v e
  | RequirePortComSpec_ClientComSpec e => write_client_com_spec v e
  end.
(** _read_required_com_spec, reader.py:4138-4146, with self.switcher_required_com_spec of the reader *)
Definition read_required_com_spec (v : N) (x : xml) : result RequirePortComSpec :=
  let tag := x_tag x in
  if String.eqb tag "QUEUED-RECEIVER-COM-SPEC" then let* e := read_queued_receiver_com_spec v x in Ok (RequirePortComSpec_QueuedReceiverComSpec e) else
  if String.eqb tag "NONQUEUED-RECEIVER-COM-SPEC" then let* e := read_nonqueued_receiver_com_spec v x in Ok (RequirePortComSpec_NonqueuedReceiverComSpec e) else
  if String.eqb tag "NV-REQUIRE-COM-SPEC" then let* e := read_nv_require_com_spec v x in Ok (RequirePortComSpec_NvRequireComSpec e) else
  if String.eqb tag "PARAMETER-REQUIRE-COM-SPEC" then let* e := read_parameter_require_com_spec v x in Ok (RequirePortComSpec_ParameterRequireComSpec e) else
  if String.eqb tag "MODE-SWITCH-RECEIVER-COM-SPEC" then let* e := read_mode_switch_receiver_com_spec v x in Ok (RequirePortComSpec_ModeSwitchReceiverComSpec e) else
  if String.eqb tag "CLIENT-COM-SPEC" then let* e := read_client_com_spec v x in Ok (RequirePortComSpec_ClientComSpec e) else
  Err KeyError.

(** ** ProvidePortPrototype *)

(** Attributes of ProvidePortPrototype, element.py:4698-4741 *)
Record ProvidePortPrototype := mkProvidePortPrototype {
  ProvidePortPrototype_ident : identifiable;
  ProvidePortPrototype_com_spec : list ProvidePortComSpec;
  ProvidePortPrototype_port_interface_ref : option ref }.
(** _write_provide_port_prototype_group, writer.py:3601-3611 *)
Definition write_provide_port_prototype_group (v : N) (f_com_spec : list ProvidePortComSpec) (f_port_interface_ref : option ref) : out :=
  cat [
    if_some f_com_spec (node "PROVIDED-COM-SPECS" [] (for_each f_com_spec (fun a => write_provided_com_spec v a)));
    if_set f_port_interface_ref (fun a => write_ref "PROVIDED-INTERFACE-TREF" a) ].
(** _write_provide_port_prototype, writer.py:3588-3599 *)
Definition write_provide_port_prototype (v : N) (e : ProvidePortPrototype) : out :=
  node "P-PORT-PROTOTYPE" [] (cat [
    write_referrable (ProvidePortPrototype_ident e);
    write_multilanguage_referrable (ProvidePortPrototype_ident e);
    write_identifiable (ProvidePortPrototype_ident e);
    write_provide_port_prototype_group v (ProvidePortPrototype_com_spec e) (ProvidePortPrototype_port_interface_ref e) ]).
(** _read_provide_port_prototype_group, reader.py:4162-4174 *)
Definition read_provide_port_prototype_group (v : N) (k : list xml) : result ((list ProvidePortComSpec) * option ref) :=
  let* d_com_spec := children_any "PROVIDED-COM-SPECS" k (read_provided_com_spec v) in
  let* d_port_interface_ref := child "PROVIDED-INTERFACE-TREF" k (read_ref rc_PortInterfaceRef v) in
  Ok (d_com_spec, d_port_interface_ref).
(** _read_provide_port_prototype, reader.py:4148-4160 *)
Definition read_provide_port_prototype (v : N) (x : xml) : result ProvidePortPrototype :=
  let k := x_kids x in
  let* d_ident := read_ident (x_attrs x) k in
  let* (d_com_spec, d_port_interface_ref) := read_provide_port_prototype_group v k in
  let* ident := new_identifiable d_ident in
  Ok (mkProvidePortPrototype ident d_com_spec d_port_interface_ref).

(** ** RequirePortPrototype *)

(** Attributes of RequirePortPrototype, element.py:4744-4791 *)
Record RequirePortPrototype := mkRequirePortPrototype {
  RequirePortPrototype_ident : identifiable;
  RequirePortPrototype_com_spec : list RequirePortComSpec;
  RequirePortPrototype_allow_unconnected : option bool;
  RequirePortPrototype_port_interface_ref : option ref }.
(** _write_require_port_prototype_group, writer.py:3626-3638 *)
Definition write_require_port_prototype_group (v : N) (f_allow_unconnected : option bool) (f_com_spec : list RequirePortComSpec) (f_port_interface_ref : option ref) : out :=
  cat [
    if_set f_allow_unconnected (fun a => content "MAY-BE-UNCONNECTED" (Ok (format_boolean a)));
    if_some f_com_spec (node "REQUIRED-COM-SPECS" [] (for_each f_com_spec (fun a => write_required_com_spec v a)));
    if_set f_port_interface_ref (fun a => write_ref "REQUIRED-INTERFACE-TREF" a) ].
(** _write_require_port_prototype, writer.py:3613-3624 *)
Definition write_require_port_prototype (v : N) (e : RequirePortPrototype) : out :=
  node "R-PORT-PROTOTYPE" [] (cat [
    write_referrable (RequirePortPrototype_ident e);
    write_multilanguage_referrable (RequirePortPrototype_ident e);
    write_identifiable (RequirePortPrototype_ident e);
    write_require_port_prototype_group v (RequirePortPrototype_allow_unconnected e) (RequirePortPrototype_com_spec e) (RequirePortPrototype_port_interface_ref e) ]).
(** _read_required_port_prototype_group, reader.py:4190-4205 *)
Definition read_required_port_prototype_group (v : N) (k : list xml) : result ((list RequirePortComSpec) * option bool * option ref) :=
  let* d_com_spec := children_any "REQUIRED-COM-SPECS" k (read_required_com_spec v) in
  let* d_allow_unconnected := child "MAY-BE-UNCONNECTED" k rd_boolean in
  let* d_port_interface_ref := child "REQUIRED-INTERFACE-TREF" k (read_ref rc_PortInterfaceRef v) in
  Ok (d_com_spec, d_allow_unconnected, d_port_interface_ref).
(** _read_require_port_prototype, reader.py:4176-4188 *)
Definition read_require_port_prototype (v : N) (x : xml) : result RequirePortPrototype :=
  let k := x_kids x in
  let* d_ident := read_ident (x_attrs x) k in
  let* (d_com_spec, d_allow_unconnected, d_port_interface_ref) := read_required_port_prototype_group v k in
  let* ident := new_identifiable d_ident in
  Ok (mkRequirePortPrototype ident d_com_spec d_allow_unconnected d_port_interface_ref).

