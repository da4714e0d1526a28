(** Ports, compositions, mode switch events and runnables: what XML can carry (good_), and as what
    it comes back (norm_). *)
From Verif Require Import Base MNum SNum MXml SXml MEnum MRefTab MRef SEnum MCodec SCodec MElem0 MElem1 MElemA MElemB MElemC MElem2 MElemD MElem3 MElem4 MElemE SElem1 SElemA SElemB SElemC SElem2 SElemD SElem3 SElem4.

(** A port with provided com-specs must have required ones too: otherwise the constructor, called by
    the reader, raises TypeError. *)
Definition good_PRPortPrototype (e : PRPortPrototype) : Prop :=
  good_ident_no_uuid (PRPortPrototype_ident e) /\
  opt_ok (good_ref rc_PortInterfaceRef) (PRPortPrototype_port_interface_ref e) /\
  all_ok good_ProvidePortComSpec (PRPortPrototype_provided_com_spec e) /\
  all_ok good_RequirePortComSpec (PRPortPrototype_required_com_spec e) /\
  (PRPortPrototype_provided_com_spec e = [] \/ PRPortPrototype_required_com_spec e <> []).
Definition norm_PRPortPrototype (e : PRPortPrototype) : PRPortPrototype :=
  mkPRPortPrototype (PRPortPrototype_ident e) (PRPortPrototype_port_interface_ref e)
    (map norm_ProvidePortComSpec (PRPortPrototype_provided_com_spec e)) (map norm_RequirePortComSpec (PRPortPrototype_required_com_spec e)).
Definition good_PortPrototypeElement (p : PortPrototypeElement) : Prop :=
  match p with
  | PortPrototypeElement_P e => good_ProvidePortPrototype e
  | PortPrototypeElement_R e => good_RequirePortPrototype e
  | PortPrototypeElement_PR e => good_PRPortPrototype e
  end.
Definition norm_PortPrototypeElement (p : PortPrototypeElement) : PortPrototypeElement :=
  match p with
  | PortPrototypeElement_P e => PortPrototypeElement_P (norm_ProvidePortPrototype e)
  | PortPrototypeElement_R e => PortPrototypeElement_R (norm_RequirePortPrototype e)
  | PortPrototypeElement_PR e => PortPrototypeElement_PR (norm_PRPortPrototype e)
  end.
Definition good_SwComponentPrototype (e : SwComponentPrototype) : Prop :=
  good_ident_no_uuid (SwComponentPrototype_ident e) /\ opt_ok (good_ref rc_SwComponentTypeRef) (SwComponentPrototype_type_ref e).
Definition good_CompositionSwComponentType (e : CompositionSwComponentType) : Prop :=
  good_ident_no_uuid (CompositionSwComponentType_ident e) /\
  all_ok good_PortPrototypeElement (CompositionSwComponentType_ports e) /\
  all_ok good_SwComponentPrototype (CompositionSwComponentType_components e) /\
  all_ok good_SwConnectorElement (CompositionSwComponentType_connectors e).
Definition norm_CompositionSwComponentType (e : CompositionSwComponentType) : CompositionSwComponentType :=
  mkCompositionSwComponentType (CompositionSwComponentType_ident e) (map norm_PortPrototypeElement (CompositionSwComponentType_ports e))
    (CompositionSwComponentType_components e) (CompositionSwComponentType_connectors e).
Definition good_SwcModeSwitchEvent (e : SwcModeSwitchEvent) : Prop :=
  good_ident_no_uuid (SwcModeSwitchEvent_ident e) /\
  all_ok good_RModeInAtomicSwcInstanceRef (SwcModeSwitchEvent_disabled_modes e) /\
  opt_ok (good_ref rc_RunnableEntityRef) (SwcModeSwitchEvent_start_on_event e) /\
  opt_ok (fun m => match m with
                   | OneMode a => good_RModeInAtomicSwcInstanceRef a
                   | TwoModes a b => good_RModeInAtomicSwcInstanceRef a /\ good_RModeInAtomicSwcInstanceRef b
                   end) (SwcModeSwitchEvent_mode e).
Definition good_ServerCallPointElement (p : ServerCallPointElement) : Prop :=
  match p with
  | ServerCallPointElement_Async e => good_AsynchronousServerCallPoint e
  | ServerCallPointElement_Sync e => good_SynchronousServerCallPoint e
  end.
(** Before schema version 50 every conditional reference must name its exclusive area. *)
Definition good_areas (v : N) (l : list ExclusiveAreaRefConditional) : Prop :=
  all_ok good_ExclusiveAreaRefConditional l /\ ((v < 50)%N -> all_ok (fun a => ExclusiveAreaRefConditional_exclusive_area a <> None) l).
(** The access points of one kind have different names: loading changes names that occur twice. *)
Definition access_names (l : list VariableAccess) : list string := map (fun a => id_name (VariableAccess_ident a)) l.
Definition distinct_points (e : RunnableEntity) : Prop :=
  NoDup (map (fun a => id_name (AsynchronousServerCallResultPoint_ident a)) (RunnableEntity_async_server_call_result_point e)) /\
  NoDup (access_names (RunnableEntity_data_read_access e)) /\
  NoDup (access_names (RunnableEntity_data_receive_point_by_argument e)) /\
  NoDup (access_names (RunnableEntity_data_receive_point_by_value e)) /\
  NoDup (access_names (RunnableEntity_data_send_point e)) /\
  NoDup (access_names (RunnableEntity_data_write_access e)) /\
  NoDup (map (fun a => id_name (InternalTriggeringPoint_ident a)) (RunnableEntity_internal_triggering_point e)) /\
  NoDup (map (fun a => id_name (ModeSwitchPoint_ident a)) (RunnableEntity_mode_switch_point e)) /\
  NoDup (map (fun a => id_name (ParameterAccess_ident a)) (RunnableEntity_parameter_access e)) /\
  NoDup (access_names (RunnableEntity_read_local_variable e)) /\
  NoDup (map (fun p => match p with
                       | ServerCallPointElement_Async a => id_name (AsynchronousServerCallPoint_ident a)
                       | ServerCallPointElement_Sync a => id_name (SynchronousServerCallPoint_ident a)
                       end) (RunnableEntity_server_call_point e)) /\
  NoDup (map (fun a => id_name (WaitPoint_ident a)) (RunnableEntity_wait_point e)) /\
  NoDup (access_names (RunnableEntity_write_local_variable e)).
Definition good_RunnableEntity (v : N) (e : RunnableEntity) : Prop :=
  good_ident_no_uuid (RunnableEntity_ident e) /\
  all_ok good_ExecutableEntityActivationReason (RunnableEntity_activation_reasons e) /\
  good_areas v (RunnableEntity_can_enter_leave e) /\
  all_ok (good_ref rc_ExclusiveAreaNestingOrderRef) (RunnableEntity_exclusive_area_nesting_order e) /\
  opt_ok good_real (RunnableEntity_minimum_start_interval e) /\
  good_areas v (RunnableEntity_runs_insides e) /\
  opt_ok (good_ref rc_SwAddrMethodRef) (RunnableEntity_sw_addr_method e) /\
  all_ok good_RunnableEntityArgument (RunnableEntity_argument e) /\
  all_ok good_AsynchronousServerCallResultPoint (RunnableEntity_async_server_call_result_point e) /\
  all_ok good_VariableAccess (RunnableEntity_data_read_access e) /\
  all_ok good_VariableAccess (RunnableEntity_data_receive_point_by_argument e) /\
  all_ok good_VariableAccess (RunnableEntity_data_receive_point_by_value e) /\
  all_ok good_VariableAccess (RunnableEntity_data_send_point e) /\
  all_ok good_VariableAccess (RunnableEntity_data_write_access e) /\
  all_ok good_ExternalTriggeringPoint (RunnableEntity_external_triggering_point e) /\
  all_ok good_InternalTriggeringPoint (RunnableEntity_internal_triggering_point e) /\
  all_ok good_ModeAccessPoint (RunnableEntity_mode_access_point e) /\
  all_ok good_ModeSwitchPoint (RunnableEntity_mode_switch_point e) /\
  all_ok good_ParameterAccess (RunnableEntity_parameter_access e) /\
  all_ok good_VariableAccess (RunnableEntity_read_local_variable e) /\
  all_ok good_ServerCallPointElement (RunnableEntity_server_call_point e) /\
  opt_ok good_text (RunnableEntity_symbol e) /\
  all_ok good_WaitPoint (RunnableEntity_wait_point e) /\
  all_ok good_VariableAccess (RunnableEntity_write_local_variable e) /\
  distinct_points e.
Definition norm_RunnableEntity (e : RunnableEntity) : RunnableEntity :=
  mkRunnableEntity (RunnableEntity_ident e) (RunnableEntity_activation_reasons e) (RunnableEntity_can_enter_leave e)
    (RunnableEntity_exclusive_area_nesting_order e) (RunnableEntity_minimum_start_interval e) (RunnableEntity_reentrancy_level e)
    (RunnableEntity_runs_insides e) (RunnableEntity_sw_addr_method e) (RunnableEntity_argument e)
    (RunnableEntity_async_server_call_result_point e) (RunnableEntity_can_be_invoked_concurrently e) (RunnableEntity_data_read_access e)
    (RunnableEntity_data_receive_point_by_argument e) (RunnableEntity_data_receive_point_by_value e) (RunnableEntity_data_send_point e)
    (RunnableEntity_data_write_access e) (RunnableEntity_external_triggering_point e) (RunnableEntity_internal_triggering_point e)
    (RunnableEntity_mode_access_point e) (RunnableEntity_mode_switch_point e) (map norm_ParameterAccess (RunnableEntity_parameter_access e))
    (RunnableEntity_read_local_variable e) (RunnableEntity_server_call_point e) (RunnableEntity_symbol e) (RunnableEntity_wait_point e)
    (RunnableEntity_write_local_variable e).
