(** Ports of both directions, components and connectors of a composition, mode switch events,
    runnables.  Sources: /repo/src/autosar/xml/element.py, writer.py, reader.py; the line numbers in
    the comments refer to these files.  No proofs in this file. *)
From Verif Require Import Base MNames MNum MXml MEnum MRefTab MRef MCodec MElem0 MElem1 MElemA MElemB MElemC MElem2 MElemD MElem3 MElem4.

(** child_elements.get(tag) is not None, reader.py:82-89 *)
Definition present (tag : string) (kids : list xml) : bool := match get tag kids with Some _ => true | None => false end.

(** ** PRPortPrototype *)

(** Attributes of PRPortPrototype, element.py:4794-4849 *)
Record PRPortPrototype := mkPRPortPrototype {
  PRPortPrototype_ident : identifiable;
  PRPortPrototype_port_interface_ref : option ref;
  PRPortPrototype_provided_com_spec : list ProvidePortComSpec;
  PRPortPrototype_required_com_spec : list RequirePortComSpec }.
(** _write_pr_port_prototype and _write_pr_port_prototype_group, writer.py:3640-3668 *)
Definition write_pr_port_prototype (v : N) (e : PRPortPrototype) : out :=
  node "PR-PORT-PROTOTYPE" [] (cat [
    write_referrable (PRPortPrototype_ident e);
    write_multilanguage_referrable (PRPortPrototype_ident e);
    write_identifiable (PRPortPrototype_ident e);
    if_some (PRPortPrototype_provided_com_spec e)
      (node "PROVIDED-COM-SPECS" [] (for_each (PRPortPrototype_provided_com_spec e) (fun a => write_provided_com_spec v a)));
    if_some (PRPortPrototype_required_com_spec e)
      (node "REQUIRED-COM-SPECS" [] (for_each (PRPortPrototype_required_com_spec e) (fun a => write_required_com_spec v a)));
    if_set (PRPortPrototype_port_interface_ref e) (fun a => write_ref "PROVIDED-REQUIRED-INTERFACE-TREF" a) ]).
(** The test of the constructor, element.py:4812-4819: it asks whether required_com_spec is a list
    before it accepts the list provided_com_spec, and raises TypeError otherwise.  The reader gives a
    list for each container that is present. *)
Definition check_provided (k : list xml) : result unit :=
  if present "PROVIDED-COM-SPECS" k && negb (present "REQUIRED-COM-SPECS" k) then Err TypeError else Ok tt.
(** _read_pr_port_prototype and _read_pr_port_prototype_group, reader.py:4207-4239 *)
Definition read_pr_port_prototype (v : N) (x : xml) : result PRPortPrototype :=
  let k := x_kids x in
  let* d_ident := read_ident (x_attrs x) k in
  let* d_provided_com_spec := children_any "PROVIDED-COM-SPECS" k (read_provided_com_spec v) in
  let* d_required_com_spec := children_any "REQUIRED-COM-SPECS" k (read_required_com_spec v) in
  let* d_port_interface_ref := child "PROVIDED-REQUIRED-INTERFACE-TREF" k (read_ref rc_PortInterfaceRef v) in
  let* ident := new_identifiable d_ident in
  let* _ := check_provided k in
  Ok (mkPRPortPrototype ident d_port_interface_ref d_provided_com_spec d_required_com_spec).

(** ** PortPrototypeElement *)

(** The three classes derived from PortPrototype, element.py:4682-4849 *)
Inductive PortPrototypeElement :=
| PortPrototypeElement_P (e : ProvidePortPrototype)
| PortPrototypeElement_R (e : RequirePortPrototype)
| PortPrototypeElement_PR (e : PRPortPrototype).
(** _write_port_prototype, writer.py:3670-3681 *)
Definition write_port_prototype (v : N) (p : PortPrototypeElement) : out :=
  match p with
  | PortPrototypeElement_P e => write_provide_port_prototype v e
  | PortPrototypeElement_R e => write_require_port_prototype v e
  | PortPrototypeElement_PR e => write_pr_port_prototype v e
  end.
(** The if/elif chain of _read_sw_component_type, reader.py:4251-4256 *)
Definition select_port_prototype (v : N) (tag : string) : option (xml -> result PortPrototypeElement) :=
  if String.eqb tag "P-PORT-PROTOTYPE"
  then Some (fun x => let* e := read_provide_port_prototype v x in Ok (PortPrototypeElement_P e))
  else if String.eqb tag "R-PORT-PROTOTYPE"
  then Some (fun x => let* e := read_require_port_prototype v x in Ok (PortPrototypeElement_R e))
  else if String.eqb tag "PR-PORT-PROTOTYPE"
  then Some (fun x => let* e := read_pr_port_prototype v x in Ok (PortPrototypeElement_PR e))
  else None.
(** _write_sw_component_type, writer.py:3683-3691 *)
Definition write_sw_component_type (v : N) (f_ports : list PortPrototypeElement) : out :=
  if_some f_ports (node "PORTS" [] (for_each f_ports (fun a => write_port_prototype v a))).
(** _read_sw_component_type, reader.py:4241-4260; the child elements it skips are passed over *)
Definition read_sw_component_type (v : N) (k : list xml) : result (list PortPrototypeElement) :=
  children_sel "PORTS" k (select_port_prototype v).

(** ** SwComponentPrototype *)

(** Attributes of SwComponentPrototype, element.py:5204-5225 *)
Record SwComponentPrototype := mkSwComponentPrototype {
  SwComponentPrototype_ident : identifiable;
  SwComponentPrototype_type_ref : option ref }.
(** _write_sw_component_prototype, writer.py:3718-3730 *)
Definition write_sw_component_prototype (v : N) (e : SwComponentPrototype) : out :=
  node "SW-COMPONENT-PROTOTYPE" [] (cat [
    write_referrable (SwComponentPrototype_ident e);
    write_multilanguage_referrable (SwComponentPrototype_ident e);
    write_identifiable (SwComponentPrototype_ident e);
    if_set (SwComponentPrototype_type_ref e) (fun a => write_ref "TYPE-TREF" a) ]).
(** _read_sw_component_prototype, reader.py:4295-4309: ports are read although the constructor does
    not know them *)
Definition read_sw_component_prototype (v : N) (x : xml) : result SwComponentPrototype :=
  let k := x_kids x in
  let* d_ident := read_ident (x_attrs x) k in
  let* _ := read_sw_component_type v k in
  let* d_type_ref := child "TYPE-TREF" k (read_ref rc_SwComponentTypeRef v) in
  let* _ := unexpected ["PORTS"] k in
  let* ident := new_identifiable d_ident in
  Ok (mkSwComponentPrototype ident d_type_ref).

(** ** CompositionSwComponentType *)

(** Attributes of CompositionSwComponentType, element.py:5327-5359 *)
Record CompositionSwComponentType := mkCompositionSwComponentType {
  CompositionSwComponentType_ident : identifiable;
  CompositionSwComponentType_ports : list PortPrototypeElement;
  CompositionSwComponentType_components : list SwComponentPrototype;
  CompositionSwComponentType_connectors : list SwConnectorElement }.
(** _write_composition_sw_component_type and its group, writer.py:3815-3847 *)
Definition write_composition_sw_component_type (v : N) (e : CompositionSwComponentType) : out :=
  node "COMPOSITION-SW-COMPONENT-TYPE" [] (cat [
    write_referrable (CompositionSwComponentType_ident e);
    write_multilanguage_referrable (CompositionSwComponentType_ident e);
    write_identifiable (CompositionSwComponentType_ident e);
    write_sw_component_type v (CompositionSwComponentType_ports e);
    if_some (CompositionSwComponentType_components e)
      (node "COMPONENTS" [] (for_each (CompositionSwComponentType_components e) (fun a => write_sw_component_prototype v a)));
    if_some (CompositionSwComponentType_connectors e)
      (node "CONNECTORS" [] (for_each (CompositionSwComponentType_connectors e) (fun a => write_sw_connector_element v a))) ]).
(** _read_composition_sw_component_type and its group, reader.py:4407-4450 *)
Definition read_composition_sw_component_type (v : N) (x : xml) : result CompositionSwComponentType :=
  let k := x_kids x in
  let* d_ident := read_ident (x_attrs x) k in
  let* d_ports := read_sw_component_type v k in
  let* d_components := children_any "COMPONENTS" k (read_sw_component_prototype v) in
  let* d_connectors := children_sel "CONNECTORS" k (select_sw_connector_element v) in
  let* ident := new_identifiable d_ident in
  Ok (mkCompositionSwComponentType ident d_ports d_components d_connectors).

(** ** SwcModeSwitchEvent *)

(** The attribute mode: one mode, or the pair of modes of a transition, element.py:7542-7575 *)
Inductive SwitchMode :=
| OneMode (m : RModeInAtomicSwcInstanceRef)
| TwoModes (m n : RModeInAtomicSwcInstanceRef).
(** Attributes of SwcModeSwitchEvent, element.py:7542-7575 *)
Record SwcModeSwitchEvent := mkSwcModeSwitchEvent {
  SwcModeSwitchEvent_ident : identifiable;
  SwcModeSwitchEvent_disabled_modes : list RModeInAtomicSwcInstanceRef;
  SwcModeSwitchEvent_start_on_event : option ref;
  SwcModeSwitchEvent_activation : option ModeActivationKind;
  SwcModeSwitchEvent_mode : option SwitchMode }.
(** The modes in the order in which they are written, writer.py:4784-4791 *)
Definition switch_modes (m : SwitchMode) : list RModeInAtomicSwcInstanceRef :=
  match m with OneMode a => [a] | TwoModes a b => [a; b] end.
(** _write_swc_mode_switch_event_group, writer.py:4778-4792 *)
Definition write_swc_mode_switch_event_group (v : N) (f_activation : option ModeActivationKind) (f_mode : option SwitchMode) : out :=
  cat [
    if_set f_activation (fun a => content "ACTIVATION" (enum_text em_ModeActivationKind a));
    if_set f_mode (fun a => node "MODE-IREFS" [] (for_each (switch_modes a) (write_r_mode_in_atomic_swc_instance_ref v "MODE-IREF"))) ].
(** _write_swc_mode_switch_event, writer.py:4764-4776 *)
Definition write_swc_mode_switch_event (v : N) (e : SwcModeSwitchEvent) : out :=
  node "SWC-MODE-SWITCH-EVENT" [] (cat [
    write_referrable (SwcModeSwitchEvent_ident e);
    write_multilanguage_referrable (SwcModeSwitchEvent_ident e);
    write_identifiable (SwcModeSwitchEvent_ident e);
    write_rte_event_group v (SwcModeSwitchEvent_disabled_modes e) (SwcModeSwitchEvent_start_on_event e);
    write_swc_mode_switch_event_group v (SwcModeSwitchEvent_activation e) (SwcModeSwitchEvent_mode e) ]).
(** The body of the MODE-IREFS block, reader.py:5519-5529 *)
Definition read_mode_irefs (v : N) (x : xml) : result (option SwitchMode) :=
  let* modes := mapM (read_r_mode_in_atomic_swc_instance_ref v) (findall "MODE-IREF" (x_kids x)) in
  match modes with
  | [] => Ok None
  | [a] => Ok (Some (OneMode a))
  | [a; b] => Ok (Some (TwoModes a b))
  | _ => Err ParseError
  end.
(** _read_swc_mode_switch_event_group, reader.py:5508-5527 *)
Definition read_swc_mode_switch_event_group (v : N) (k : list xml) : result (option ModeActivationKind * option SwitchMode) :=
  let* d_activation := child "ACTIVATION" k (rd_enum em_ModeActivationKind) in
  let* d_mode := child "MODE-IREFS" k (read_mode_irefs v) in
  Ok (d_activation, match d_mode with Some o => o | None => None end).
(** _read_swc_mode_switch_event, reader.py:5492-5507 *)
Definition read_swc_mode_switch_event (v : N) (x : xml) : result SwcModeSwitchEvent :=
  let k := x_kids x in
  let* d_ident := read_ident (x_attrs x) k in
  let* (d_disabled_modes, d_start_on_event) := read_rte_event_group v k in
  let* (d_activation, d_mode) := read_swc_mode_switch_event_group v k in
  let* ident := new_identifiable d_ident in
  Ok (mkSwcModeSwitchEvent ident d_disabled_modes d_start_on_event d_activation d_mode).

(** ** RunnableEntity *)

(** ServerCallPointElement, element.py:6410-6422: either class of server call points *)
Inductive ServerCallPointElement :=
| ServerCallPointElement_Async (e : AsynchronousServerCallPoint)
| ServerCallPointElement_Sync (e : SynchronousServerCallPoint).
(** The if/else of _write_runnable_entity_group, writer.py:4556-4560 *)
Definition write_server_call_point (v : N) (p : ServerCallPointElement) : out :=
  match p with
  | ServerCallPointElement_Async e => write_async_server_call_point v e
  | ServerCallPointElement_Sync e => write_sync_server_call_point v e
  end.
(** The if/elif of _read_runnable_entity_group, reader.py:5230-5234 *)
Definition select_server_call_point (v : N) (tag : string) : option (xml -> result ServerCallPointElement) :=
  if String.eqb tag "ASYNCHRONOUS-SERVER-CALL-POINT"
  then Some (fun x => let* e := read_async_server_call_point v x in Ok (ServerCallPointElement_Async e))
  else if String.eqb tag "SYNCHRONOUS-SERVER-CALL-POINT"
  then Some (fun x => let* e := read_sync_server_call_point v x in Ok (ServerCallPointElement_Sync e))
  else None.
(** elem.name = name on an Identifiable, element.py:326 *)
Definition with_name (n : string) (i : identifiable) : identifiable :=
  mkIdent n (id_long_name i) (id_desc i) (id_category i) (id_admin_data i) (id_introduction i) (id_annotations i) (id_uuid i).
(** The elements after make_unique_name_in_list gave them the names, element.py:325-326 *)
Fixpoint rename_all {A} (rename : string -> A -> A) (names : list string) (l : list A) : list A :=
  match names, l with
  | n :: names, a :: l => rename n a :: rename_all rename names l
  | _, _ => l
  end.
(** make_unique_name_in_list(list, element.name); list.append(element): the name returned is not used,
    element.py:6962-6963 and alike.  Simplification: elements have no identity. *)
Definition append_named {A} (name_of : A -> string) (rename : string -> A -> A) (l : list A) (x : A) : list A :=
  rename_all rename (fst (make_unique (map name_of l) (name_of x))) l ++ [x].
(** name and renaming of the access points, element.py:182, 326 *)
Definition variable_access_name (e : VariableAccess) : string := id_name (VariableAccess_ident e).
Definition rename_variable_access (n : string) (e : VariableAccess) : VariableAccess :=
  mkVariableAccess (with_name n (VariableAccess_ident e)) (VariableAccess_accessed_variable e) (VariableAccess_scope e).
Definition mode_switch_point_name (e : ModeSwitchPoint) : string := id_name (ModeSwitchPoint_ident e).
Definition rename_mode_switch_point (n : string) (e : ModeSwitchPoint) : ModeSwitchPoint :=
  mkModeSwitchPoint (with_name n (ModeSwitchPoint_ident e)) (ModeSwitchPoint_return_value_provision e) (ModeSwitchPoint_mode_group e).
Definition parameter_access_name (e : ParameterAccess) : string := id_name (ParameterAccess_ident e).
Definition rename_parameter_access (n : string) (e : ParameterAccess) : ParameterAccess :=
  mkParameterAccess (with_name n (ParameterAccess_ident e)) (ParameterAccess_return_value_provision e) (ParameterAccess_accessed_parameter e)
    (ParameterAccess_sw_data_def_props e).
Definition server_call_point_name (e : ServerCallPointElement) : string :=
  match e with
  | ServerCallPointElement_Async e => id_name (AsynchronousServerCallPoint_ident e)
  | ServerCallPointElement_Sync e => id_name (SynchronousServerCallPoint_ident e)
  end.
Definition rename_server_call_point (n : string) (e : ServerCallPointElement) : ServerCallPointElement :=
  match e with
  | ServerCallPointElement_Async (mkAsynchronousServerCallPoint i a b c) => ServerCallPointElement_Async (mkAsynchronousServerCallPoint (with_name n i) a b c)
  | ServerCallPointElement_Sync (mkSynchronousServerCallPoint i a b c d) => ServerCallPointElement_Sync (mkSynchronousServerCallPoint (with_name n i) a b c d)
  end.
Definition result_point_name (e : AsynchronousServerCallResultPoint) : string := id_name (AsynchronousServerCallResultPoint_ident e).
Definition rename_result_point (n : string) (e : AsynchronousServerCallResultPoint) : AsynchronousServerCallResultPoint :=
  mkAsynchronousServerCallResultPoint (with_name n (AsynchronousServerCallResultPoint_ident e)) (AsynchronousServerCallResultPoint_return_value_provision e)
    (AsynchronousServerCallResultPoint_async_server_call_point e).
Definition triggering_point_name (e : InternalTriggeringPoint) : string := id_name (InternalTriggeringPoint_ident e).
Definition rename_triggering_point (n : string) (e : InternalTriggeringPoint) : InternalTriggeringPoint :=
  mkInternalTriggeringPoint (with_name n (InternalTriggeringPoint_ident e)) (InternalTriggeringPoint_return_value_provision e)
    (InternalTriggeringPoint_sw_impl_policy e).
Definition wait_point_name (e : WaitPoint) : string := id_name (WaitPoint_ident e).
Definition rename_wait_point (n : string) (e : WaitPoint) : WaitPoint :=
  mkWaitPoint (with_name n (WaitPoint_ident e)) (WaitPoint_timeout e) (WaitPoint_trigger e).
(** The loops of RunnableEntity.__init__ over a list of elements with names, element.py:6503-6605 *)
Definition append_each {A} (name_of : A -> string) (rename : string -> A -> A) (l : list A) : list A := fold_left (append_named name_of rename) l [].
Definition append_variable_accesses := append_each variable_access_name rename_variable_access.
(** Attributes of ExecutableEntity and RunnableEntity, element.py:5986-6080, 6425-6606 *)
Record RunnableEntity := mkRunnableEntity {
  RunnableEntity_ident : identifiable;
  RunnableEntity_activation_reasons : list ExecutableEntityActivationReason;
  RunnableEntity_can_enter_leave : list ExclusiveAreaRefConditional;
  RunnableEntity_exclusive_area_nesting_order : list ref;
  RunnableEntity_minimum_start_interval : option pynum;
  RunnableEntity_reentrancy_level : option ReentrancyLevel;
  RunnableEntity_runs_insides : list ExclusiveAreaRefConditional;
  RunnableEntity_sw_addr_method : option ref;
  RunnableEntity_argument : list RunnableEntityArgument;
  RunnableEntity_async_server_call_result_point : list AsynchronousServerCallResultPoint;
  RunnableEntity_can_be_invoked_concurrently : option bool;
  RunnableEntity_data_read_access : list VariableAccess;
  RunnableEntity_data_receive_point_by_argument : list VariableAccess;
  RunnableEntity_data_receive_point_by_value : list VariableAccess;
  RunnableEntity_data_send_point : list VariableAccess;
  RunnableEntity_data_write_access : list VariableAccess;
  RunnableEntity_external_triggering_point : list ExternalTriggeringPoint;
  RunnableEntity_internal_triggering_point : list InternalTriggeringPoint;
  RunnableEntity_mode_access_point : list ModeAccessPoint;
  RunnableEntity_mode_switch_point : list ModeSwitchPoint;
  RunnableEntity_parameter_access : list ParameterAccess;
  RunnableEntity_read_local_variable : list VariableAccess;
  RunnableEntity_server_call_point : list ServerCallPointElement;
  RunnableEntity_symbol : option string;
  RunnableEntity_wait_point : list WaitPoint;
  RunnableEntity_write_local_variable : list VariableAccess }.
(** The two blocks of _write_executable_entity for exclusive areas, writer.py:4427-4440, 4451-4464:
    before schema 50 references, later conditional references.  _write_exclusive_area_ref asserts that
    it is given a reference. *)
Definition write_exclusive_areas (v : N) (old_container old_tag container : string) (l : list ExclusiveAreaRefConditional) : out :=
  if_some l
    (if (v <? 50)%N
     then node old_container [] (for_each l (fun a =>
            match ExclusiveAreaRefConditional_exclusive_area a with Some r => write_ref old_tag r | None => Err AssertionError end))
     else node container [] (for_each l (fun a => write_exclusive_area_ref_conditional v a))).
(** The two blocks of _read_executable_entity for exclusive areas, reader.py:5078-5097, 5109-5126;
    the constructor wraps plain references, element.py:6051-6060, 6071-6080 *)
Definition read_exclusive_areas (v : N) (old_container old_tag container : string) (k : list xml) : result (list ExclusiveAreaRefConditional) :=
  if (v <? 50)%N
  then let* l := children old_container old_tag k (read_ref rc_ExclusiveAreaRef v) in Ok (map (fun r => mkExclusiveAreaRefConditional (Some r)) l)
  else children container "EXCLUSIVE-AREA-REF-CONDITIONAL" k (read_exclusive_area_ref_conditional v).
(** _write_executable_entity, writer.py:4418-4466, with a schema version that is an int *)
Definition write_executable_entity (v : N) (e : RunnableEntity) : out :=
  cat [
    if_some (RunnableEntity_activation_reasons e)
      (node "ACTIVATION-REASONS" [] (for_each (RunnableEntity_activation_reasons e) (fun a => write_executable_entity_activation_reason v a)));
    write_exclusive_areas v "CAN-ENTER-EXCLUSIVE-AREA-REFS" "CAN-ENTER-EXCLUSIVE-AREA-REF" "CAN-ENTERS" (RunnableEntity_can_enter_leave e);
    if_some (RunnableEntity_exclusive_area_nesting_order e)
      (node "EXCLUSIVE-AREA-NESTING-ORDER-REFS" [] (for_each (RunnableEntity_exclusive_area_nesting_order e) (fun a => write_ref "EXCLUSIVE-AREA-NESTING-ORDER-REF" a)));
    if_set (RunnableEntity_minimum_start_interval e) (fun a => content "MINIMUM-START-INTERVAL" (format_number a));
    if_set (RunnableEntity_reentrancy_level e) (fun a => content "REENTRANCY-LEVEL" (enum_text em_ReentrancyLevel a));
    write_exclusive_areas v "RUNS-INSIDE-EXCLUSIVE-AREA-REFS" "RUNS-INSIDE-EXCLUSIVE-AREA-REF" "RUNS-INSIDES" (RunnableEntity_runs_insides e);
    if_set (RunnableEntity_sw_addr_method e) (fun a => write_ref "SW-ADDR-METHOD-REF" a) ].
(** A list of variable accesses in _write_runnable_entity_group, writer.py:4501-4525 and others *)
Definition write_accesses (v : N) (container : string) (l : list VariableAccess) : out :=
  if_some l (node container [] (for_each l (fun a => write_variable_access v "VARIABLE-ACCESS" a))).
(** _write_runnable_entity_group, writer.py:4485-4574 *)
Definition write_runnable_entity_group (v : N) (e : RunnableEntity) : out :=
  cat [
    if_some (RunnableEntity_argument e) (node "ARGUMENTS" [] (for_each (RunnableEntity_argument e) (fun a => write_runnable_entity_argument v a)));
    if_some (RunnableEntity_async_server_call_result_point e)
      (node "ASYNCHRONOUS-SERVER-CALL-RESULT-POINTS" []
         (for_each (RunnableEntity_async_server_call_result_point e) (fun a => write_async_server_call_result_point v a)));
    if_set (RunnableEntity_can_be_invoked_concurrently e) (fun a => content "CAN-BE-INVOKED-CONCURRENTLY" (Ok (format_boolean a)));
    write_accesses v "DATA-READ-ACCESSS" (RunnableEntity_data_read_access e);
    write_accesses v "DATA-RECEIVE-POINT-BY-ARGUMENTS" (RunnableEntity_data_receive_point_by_argument e);
    write_accesses v "DATA-RECEIVE-POINT-BY-VALUES" (RunnableEntity_data_receive_point_by_value e);
    write_accesses v "DATA-SEND-POINTS" (RunnableEntity_data_send_point e);
    write_accesses v "DATA-WRITE-ACCESSS" (RunnableEntity_data_write_access e);
    if_some (RunnableEntity_external_triggering_point e)
      (node "EXTERNAL-TRIGGERING-POINTS" [] (for_each (RunnableEntity_external_triggering_point e) (fun a => write_external_triggering_point v a)));
    if_some (RunnableEntity_internal_triggering_point e)
      (node "INTERNAL-TRIGGERING-POINTS" [] (for_each (RunnableEntity_internal_triggering_point e) (fun a => write_internal_triggering_point v a)));
    if_some (RunnableEntity_mode_access_point e)
      (node "MODE-ACCESS-POINTS" [] (for_each (RunnableEntity_mode_access_point e) (fun a => write_mode_access_point v a)));
    if_some (RunnableEntity_mode_switch_point e)
      (node "MODE-SWITCH-POINTS" [] (for_each (RunnableEntity_mode_switch_point e) (fun a => write_mode_switch_point v a)));
    if_some (RunnableEntity_parameter_access e)
      (node "PARAMETER-ACCESSS" [] (for_each (RunnableEntity_parameter_access e) (fun a => write_parameter_access v a)));
    write_accesses v "READ-LOCAL-VARIABLES" (RunnableEntity_read_local_variable e);
    if_some (RunnableEntity_server_call_point e)
      (node "SERVER-CALL-POINTS" [] (for_each (RunnableEntity_server_call_point e) (fun a => write_server_call_point v a)));
    if_set (RunnableEntity_symbol e) (fun a => content "SYMBOL" (Ok a));
    if_some (RunnableEntity_wait_point e) (node "WAIT-POINTS" [] (for_each (RunnableEntity_wait_point e) (fun a => write_wait_point v a)));
    write_accesses v "WRITTEN-LOCAL-VARIABLES" (RunnableEntity_write_local_variable e) ].
(** _write_runnable_entity, writer.py:4468-4483 *)
Definition write_runnable_entity (v : N) (e : RunnableEntity) : out :=
  node "RUNNABLE-ENTITY" [] (cat [
    write_referrable (RunnableEntity_ident e);
    write_multilanguage_referrable (RunnableEntity_ident e);
    write_identifiable (RunnableEntity_ident e);
    write_executable_entity v e;
    write_runnable_entity_group v e ]).
(** _read_runnable_entity with _read_executable_entity (schema version set to an int) and
    _read_runnable_entity_group, reader.py:5068-5252; the constructor, element.py:6431-6605, renames
    elements of a list that have the same name *)
Definition read_runnable_entity (v : N) (x : xml) : result RunnableEntity :=
  let k := x_kids x in
  let* d_ident := read_ident (x_attrs x) k in
  let* d_activation_reasons := children "ACTIVATION-REASONS" "EXECUTABLE-ENTITY-ACTIVATION-REASON" k (read_executable_entity_activation_reason v) in
  let* d_can_enter_leave := read_exclusive_areas v "CAN-ENTER-EXCLUSIVE-AREA-REFS" "CAN-ENTER-EXCLUSIVE-AREA-REF" "CAN-ENTERS" k in
  let* d_nesting := children "EXCLUSIVE-AREA-NESTING-ORDER-REFS" "EXCLUSIVE-AREA-NESTING-ORDER-REF" k (read_ref rc_ExclusiveAreaNestingOrderRef v) in
  let* d_minimum_start_interval := child "MINIMUM-START-INTERVAL" k rd_number in
  let* d_reentrancy_level := child "REENTRANCY-LEVEL" k (rd_enum em_ReentrancyLevel) in
  let* d_runs_insides := read_exclusive_areas v "RUNS-INSIDE-EXCLUSIVE-AREA-REFS" "RUNS-INSIDE-EXCLUSIVE-AREA-REF" "RUNS-INSIDES" k in
  let* d_sw_addr_method := child "SW-ADDR-METHOD-REF" k (read_ref rc_SwAddrMethodRef v) in
  let* d_argument := children "ARGUMENTS" "RUNNABLE-ENTITY-ARGUMENT" k (read_runnable_entity_argument v) in
  let* d_result := children "ASYNCHRONOUS-SERVER-CALL-RESULT-POINTS" "ASYNCHRONOUS-SERVER-CALL-RESULT-POINT" k (read_async_server_call_result_point v) in
  let* d_concurrently := child "CAN-BE-INVOKED-CONCURRENTLY" k rd_boolean in
  let* d_read := children "DATA-READ-ACCESSS" "VARIABLE-ACCESS" k (read_variable_access v) in
  let* d_by_argument := children "DATA-RECEIVE-POINT-BY-ARGUMENTS" "VARIABLE-ACCESS" k (read_variable_access v) in
  let* d_by_value := children "DATA-RECEIVE-POINT-BY-VALUES" "VARIABLE-ACCESS" k (read_variable_access v) in
  let* d_send := children "DATA-SEND-POINTS" "VARIABLE-ACCESS" k (read_variable_access v) in
  let* d_write := children "DATA-WRITE-ACCESSS" "VARIABLE-ACCESS" k (read_variable_access v) in
  let* d_external := children "EXTERNAL-TRIGGERING-POINTS" "EXTERNAL-TRIGGERING-POINT" k (read_external_triggering_point v) in
  let* d_internal := children "INTERNAL-TRIGGERING-POINTS" "INTERNAL-TRIGGERING-POINT" k (read_internal_triggering_point v) in
  let* d_mode_access := children "MODE-ACCESS-POINTS" "MODE-ACCESS-POINT" k (read_mode_access_point v) in
  let* d_mode_switch := children "MODE-SWITCH-POINTS" "MODE-SWITCH-POINT" k (read_mode_switch_point v) in
  let* d_parameter := children "PARAMETER-ACCESSS" "PARAMETER-ACCESS" k (read_parameter_access v) in
  let* d_read_local := children "READ-LOCAL-VARIABLES" "VARIABLE-ACCESS" k (read_variable_access v) in
  let* d_server_call := children_sel "SERVER-CALL-POINTS" k (select_server_call_point v) in
  let* d_symbol := child_text "SYMBOL" k in
  let* d_wait := children "WAIT-POINTS" "WAIT-POINT" k (read_wait_point v) in
  let* d_write_local := children "WRITTEN-LOCAL-VARIABLES" "VARIABLE-ACCESS" k (read_variable_access v) in
  let* ident := new_identifiable d_ident in
  Ok (mkRunnableEntity ident d_activation_reasons d_can_enter_leave d_nesting (option_map as_float d_minimum_start_interval)
        d_reentrancy_level d_runs_insides d_sw_addr_method d_argument (append_each result_point_name rename_result_point d_result) d_concurrently
        (append_variable_accesses d_read) (append_variable_accesses d_by_argument) (append_variable_accesses d_by_value)
        (append_variable_accesses d_send) (append_variable_accesses d_write) d_external
        (append_each triggering_point_name rename_triggering_point d_internal) d_mode_access
        (append_each mode_switch_point_name rename_mode_switch_point d_mode_switch)
        (append_each parameter_access_name rename_parameter_access d_parameter) (append_variable_accesses d_read_local)
        (append_each server_call_point_name rename_server_call_point d_server_call) d_symbol
        (append_each wait_point_name rename_wait_point d_wait) (append_variable_accesses d_write_local)).
