(** Ports: which objects survive a round trip (good_), and as what (norm_).
    Generated by tools/gen_codec.py from /repo/src/autosar/xml/{element,writer,reader}.py; the
    line numbers in the comments refer to these files. *)
From Verif Require Import Base MNum SNum MXml SXml MEnum MRefTab MRef SEnum MCodec SCodec MElem0 MElem1 MElemA MElemB MElemC MElem2 MElemD MElem3 MElem4 SElem1 SElemA SElemB SElemC SElem2 SElemD SElem3.

Definition good_ProvidePortComSpec (s : ProvidePortComSpec) : Prop :=
  match s with
  | ProvidePortComSpec_ModeSwitchSenderComSpec e => good_ModeSwitchSenderComSpec e
  | ProvidePortComSpec_QueuedSenderComSpec e => good_QueuedSenderComSpec e
  | ProvidePortComSpec_NonqueuedSenderComSpec e => good_NonqueuedSenderComSpec e
  | ProvidePortComSpec_NvProvideComSpec e => good_NvProvideComSpec e
  | ProvidePortComSpec_ParameterProvideComSpec e => good_ParameterProvideComSpec e
  | ProvidePortComSpec_ServerComSpec e => good_ServerComSpec e
  end.
Definition norm_ProvidePortComSpec (s : ProvidePortComSpec) : ProvidePortComSpec :=
  match s with
  | ProvidePortComSpec_ModeSwitchSenderComSpec e => ProvidePortComSpec_ModeSwitchSenderComSpec e
  | ProvidePortComSpec_QueuedSenderComSpec e => ProvidePortComSpec_QueuedSenderComSpec (norm_QueuedSenderComSpec e)
  | ProvidePortComSpec_NonqueuedSenderComSpec e => ProvidePortComSpec_NonqueuedSenderComSpec (norm_NonqueuedSenderComSpec e)
  | ProvidePortComSpec_NvProvideComSpec e => ProvidePortComSpec_NvProvideComSpec (norm_NvProvideComSpec e)
  | ProvidePortComSpec_ParameterProvideComSpec e => ProvidePortComSpec_ParameterProvideComSpec (norm_ParameterProvideComSpec e)
  | ProvidePortComSpec_ServerComSpec e => ProvidePortComSpec_ServerComSpec e
  end.
Definition good_RequirePortComSpec (s : RequirePortComSpec) : Prop :=
  match s with
  | RequirePortComSpec_QueuedReceiverComSpec e => good_QueuedReceiverComSpec e
  | RequirePortComSpec_NonqueuedReceiverComSpec e => good_NonqueuedReceiverComSpec e
  | RequirePortComSpec_NvRequireComSpec e => good_NvRequireComSpec e
  | RequirePortComSpec_ParameterRequireComSpec e => good_ParameterRequireComSpec e
  | RequirePortComSpec_ModeSwitchReceiverComSpec e => good_ModeSwitchReceiverComSpec e
  | RequirePortComSpec_ClientComSpec e => good_ClientComSpec e
  end.
Definition norm_RequirePortComSpec (s : RequirePortComSpec) : RequirePortComSpec :=
  match s with
  | RequirePortComSpec_QueuedReceiverComSpec e => RequirePortComSpec_QueuedReceiverComSpec (norm_QueuedReceiverComSpec e)
  | RequirePortComSpec_NonqueuedReceiverComSpec e => RequirePortComSpec_NonqueuedReceiverComSpec (norm_NonqueuedReceiverComSpec e)
  | RequirePortComSpec_NvRequireComSpec e => RequirePortComSpec_NvRequireComSpec (norm_NvRequireComSpec e)
  | RequirePortComSpec_ParameterRequireComSpec e => RequirePortComSpec_ParameterRequireComSpec (norm_ParameterRequireComSpec e)
  | RequirePortComSpec_ModeSwitchReceiverComSpec e => RequirePortComSpec_ModeSwitchReceiverComSpec e
  | RequirePortComSpec_ClientComSpec e => RequirePortComSpec_ClientComSpec e
  end.
Definition good_ProvidePortPrototype (e : ProvidePortPrototype) : Prop :=
  good_ident_no_uuid (ProvidePortPrototype_ident e) /\ all_ok good_ProvidePortComSpec (ProvidePortPrototype_com_spec e) /\ opt_ok (good_ref rc_PortInterfaceRef) (ProvidePortPrototype_port_interface_ref e).
Definition norm_ProvidePortPrototype (e : ProvidePortPrototype) : ProvidePortPrototype :=
  mkProvidePortPrototype (ProvidePortPrototype_ident e) (map norm_ProvidePortComSpec (ProvidePortPrototype_com_spec e)) (ProvidePortPrototype_port_interface_ref e).
Definition good_RequirePortPrototype (e : RequirePortPrototype) : Prop :=
  good_ident_no_uuid (RequirePortPrototype_ident e) /\ all_ok good_RequirePortComSpec (RequirePortPrototype_com_spec e) /\ opt_ok (good_ref rc_PortInterfaceRef) (RequirePortPrototype_port_interface_ref e).
Definition norm_RequirePortPrototype (e : RequirePortPrototype) : RequirePortPrototype :=
  mkRequirePortPrototype (RequirePortPrototype_ident e) (map norm_RequirePortComSpec (RequirePortPrototype_com_spec e)) (RequirePortPrototype_allow_unconnected e) (RequirePortPrototype_port_interface_ref e).
