(** Mode declaration groups, the internal behavior of a software component and application software
    components.  Sources: /repo/src/autosar/xml/element.py, writer.py, reader.py; the line numbers in
    the comments refer to these files.  No proofs in this file. *)
From Verif Require Import Base MNames MNum MXml MEnum MRefTab MRef MCodec MElem0 MElem1 MElemA MElemB MElemC MElem2 MElemD MElem3 MElem4 MElemE MElem5.

(** ** ModeDeclarationGroup *)

(** Attributes of ModeDeclarationGroup, element.py:3171-3191; the parent links set by
    append_mode_declaratation and append_mode_transition are left out *)
Record ModeDeclarationGroup := mkModeDeclarationGroup {
  ModeDeclarationGroup_ident : identifiable;
  ModeDeclarationGroup_initial_mode_ref : option ref;
  ModeDeclarationGroup_mode_declarations : list ModeDeclaration;
  ModeDeclarationGroup_mode_manager_error_behavior : option ModeErrorBehavior;
  ModeDeclarationGroup_mode_transitions : list ModeTransition;
  ModeDeclarationGroup_mode_user_error_behavior : option ModeErrorBehavior;
  ModeDeclarationGroup_on_transition_value : option Z }.
(** _write_mode_declaration_group and _write_mode_declaration_group_data, writer.py:2833-2869 *)
Definition write_mode_declaration_group (v : N) (e : ModeDeclarationGroup) : out :=
  node "MODE-DECLARATION-GROUP" (identifiable_attributes (ModeDeclarationGroup_ident e)) (cat [
    write_referrable (ModeDeclarationGroup_ident e);
    write_multilanguage_referrable (ModeDeclarationGroup_ident e);
    write_identifiable (ModeDeclarationGroup_ident e);
    if_set (ModeDeclarationGroup_initial_mode_ref e) (fun a => write_ref "INITIAL-MODE-REF" a);
    if_some (ModeDeclarationGroup_mode_declarations e)
      (node "MODE-DECLARATIONS" [] (for_each (ModeDeclarationGroup_mode_declarations e) (fun a => write_mode_declaration v a)));
    if_set (ModeDeclarationGroup_mode_manager_error_behavior e) (fun a => write_mode_error_behavior v "MODE-MANAGER-ERROR-BEHAVIOR" a);
    if_some (ModeDeclarationGroup_mode_transitions e)
      (node "MODE-TRANSITIONS" [] (for_each (ModeDeclarationGroup_mode_transitions e) (fun a => write_mode_transition v a)));
    if_set (ModeDeclarationGroup_mode_user_error_behavior e) (fun a => write_mode_error_behavior v "MODE-USER-ERROR-BEHAVIOR" a);
    if_set (ModeDeclarationGroup_on_transition_value e) (fun a => content "ON-TRANSITION-VALUE" (Ok (zstr a))) ]).
(** _read_mode_declaration_group and _read_mode_declaration_group_data, reader.py:3251-3299; the
    constructor, element.py:3171-3226 *)
Definition read_mode_declaration_group (v : N) (x : xml) : result ModeDeclarationGroup :=
  let k := x_kids x in
  let* d_ident := read_ident (x_attrs x) k in
  let* d_initial_mode_ref := child "INITIAL-MODE-REF" k (read_ref rc_ModeDeclarationRef v) in
  let* d_mode_declarations := children "MODE-DECLARATIONS" "MODE-DECLARATION" k (read_mode_declaration v) in
  let* d_mode_manager := child "MODE-MANAGER-ERROR-BEHAVIOR" k (read_mode_error_behavior v) in
  let* d_mode_transitions := children "MODE-TRANSITIONS" "MODE-TRANSITION" k (read_mode_transition v) in
  let* d_mode_user := child "MODE-USER-ERROR-BEHAVIOR" k (read_mode_error_behavior v) in
  let* d_on_transition_value := child "ON-TRANSITION-VALUE" k rd_positive in
  let* ident := new_identifiable d_ident in
  Ok (mkModeDeclarationGroup ident d_initial_mode_ref d_mode_declarations d_mode_manager d_mode_transitions d_mode_user d_on_transition_value).

(** ** SwcInternalBehavior *)

(** str(ref).split("/")[-1], element.py:7984-7985 *)
Definition last_part (r : ref) : string := List.last (split_at slash (rf_value r)) "".
(** append_port_api_option, element.py:7978-7987: an option without port is not stored *)
Definition append_port_api_option (options : list (string * PortApiOption)) (e : PortApiOption) : list (string * PortApiOption) :=
  match PortApiOption_port e with
  | None => options
  | Some r => assoc_set (last_part r) e options
  end.
(** Attributes of InternalBehavior and SwcInternalBehavior, element.py:7811-7829, 7875-7911; the
    ordered dictionary port_api_options is a list of keys and values; parent links are left out *)
Record SwcInternalBehavior := mkSwcInternalBehavior {
  SwcInternalBehavior_ident : identifiable;
  SwcInternalBehavior_data_type_mappings : list ref;
  SwcInternalBehavior_exclusive_areas : list ExclusiveArea;
  SwcInternalBehavior_events : list RteEvent;
  SwcInternalBehavior_port_api_options : list (string * PortApiOption);
  SwcInternalBehavior_runnables : list RunnableEntity }.
(** _write_internal_behavior_group, writer.py:4933-4946 *)
Definition write_internal_behavior_group (v : N) (e : SwcInternalBehavior) : out :=
  cat [
    if_some (SwcInternalBehavior_data_type_mappings e)
      (node "DATA-TYPE-MAPPING-REFS" [] (for_each (SwcInternalBehavior_data_type_mappings e) (fun a => write_ref "DATA-TYPE-MAPPING-REF" a)));
    if_some (SwcInternalBehavior_exclusive_areas e)
      (node "EXCLUSIVE-AREAS" [] (for_each (SwcInternalBehavior_exclusive_areas e) (fun a => write_exclusive_area v a))) ].
(** _write_swc_internal_behavior_group, writer.py:4948-4967 *)
Definition write_swc_internal_behavior_group (v : N) (e : SwcInternalBehavior) : out :=
  cat [
    if_some (SwcInternalBehavior_events e)
      (node "EVENTS" [] (for_each (SwcInternalBehavior_events e) (fun a => write_rte_event_element v a)));
    if_some (SwcInternalBehavior_port_api_options e)
      (node "PORT-API-OPTIONS" [] (for_each (SwcInternalBehavior_port_api_options e) (fun a => write_port_api_option v (snd a))));
    if_some (SwcInternalBehavior_runnables e)
      (node "RUNNABLES" [] (for_each (SwcInternalBehavior_runnables e) (fun a => write_runnable_entity v a))) ].
(** _write_swc_internal_behavior, writer.py:4920-4931 *)
Definition write_swc_internal_behavior (v : N) (e : SwcInternalBehavior) : out :=
  node "SWC-INTERNAL-BEHAVIOR" [] (cat [
    write_referrable (SwcInternalBehavior_ident e);
    write_multilanguage_referrable (SwcInternalBehavior_ident e);
    write_identifiable (SwcInternalBehavior_ident e);
    write_internal_behavior_group v e;
    write_swc_internal_behavior_group v e ]).
(** _read_internal_behavior_group, reader.py:5698-5718 *)
Definition read_internal_behavior_group (v : N) (k : list xml) : result (list ref * list ExclusiveArea) :=
  let* d_data_type_mappings := children "DATA-TYPE-MAPPING-REFS" "DATA-TYPE-MAPPING-REF" k (read_ref rc_DataTypeMappingSetRef v) in
  let* d_exclusive_areas := children "EXCLUSIVE-AREAS" "EXCLUSIVE-AREA" k (read_exclusive_area v) in
  Ok (d_data_type_mappings, d_exclusive_areas).
(** _read_swc_internal_behavior_group, reader.py:5720-5756 *)
Definition read_swc_internal_behavior_group (v : N) (k : list xml) : result (list RteEvent * list PortApiOption * list RunnableEntity) :=
  let* d_events := children_any "EVENTS" k (read_rte_event_element v) in
  let* d_port_api_options := children "PORT-API-OPTIONS" "PORT-API-OPTION" k (read_port_api_option v) in
  let* d_runnables := children "RUNNABLES" "RUNNABLE-ENTITY" k (read_runnable_entity v) in
  Ok (d_events, d_port_api_options, d_runnables).
(** _read_swc_internal_behavior, reader.py:5682-5696; the constructor, element.py:7883-7933, puts
    the options into the dictionary one by one *)
Definition read_swc_internal_behavior (v : N) (x : xml) : result SwcInternalBehavior :=
  let k := x_kids x in
  let* d_ident := read_ident (x_attrs x) k in
  let* (d_data_type_mappings, d_exclusive_areas) := read_internal_behavior_group v k in
  let* (d_events, d_port_api_options, d_runnables) := read_swc_internal_behavior_group v k in
  let* ident := new_identifiable d_ident in
  Ok (mkSwcInternalBehavior ident d_data_type_mappings d_exclusive_areas d_events
        (fold_left append_port_api_option d_port_api_options []) d_runnables).

(** ** ApplicationSoftwareComponentType *)

(** Attributes of SwComponentType, AtomicSoftwareComponentType and ApplicationSoftwareComponentType,
    element.py:4852-4875, 5138-5152, 5185-5201 *)
Record ApplicationSoftwareComponentType := mkApplicationSoftwareComponentType {
  ApplicationSoftwareComponentType_ident : identifiable;
  ApplicationSoftwareComponentType_ports : list PortPrototypeElement;
  ApplicationSoftwareComponentType_internal_behavior : option SwcInternalBehavior;
  ApplicationSoftwareComponentType_symbol_props : option SymbolProps }.
(** _write_atomic_sw_component_type, writer.py:3693-3702 *)
Definition write_atomic_sw_component_type (v : N) (e : ApplicationSoftwareComponentType) : out :=
  cat [
    if_set (ApplicationSoftwareComponentType_internal_behavior e) (fun a => node "INTERNAL-BEHAVIORS" [] (write_swc_internal_behavior v a));
    if_set (ApplicationSoftwareComponentType_symbol_props e) (fun a => write_symbol_props v "SYMBOL-PROPS" a) ].
(** _write_application_software_component_type, writer.py:3704-3716 *)
Definition write_application_software_component_type (v : N) (e : ApplicationSoftwareComponentType) : out :=
  node "APPLICATION-SW-COMPONENT-TYPE" [] (cat [
    write_referrable (ApplicationSoftwareComponentType_ident e);
    write_multilanguage_referrable (ApplicationSoftwareComponentType_ident e);
    write_identifiable (ApplicationSoftwareComponentType_ident e);
    write_sw_component_type v (ApplicationSoftwareComponentType_ports e);
    write_atomic_sw_component_type v e ]).
(** _read_atomic_sw_component_type, reader.py:4262-4274 *)
Definition read_atomic_sw_component_type (v : N) (k : list xml) : result (option SwcInternalBehavior * option SymbolProps) :=
  let* d_internal_behavior := child_find "INTERNAL-BEHAVIORS" "SWC-INTERNAL-BEHAVIOR" k (read_swc_internal_behavior v) in
  let* d_symbol_props := child "SYMBOL-PROPS" k (read_symbol_props v) in
  Ok (d_internal_behavior, d_symbol_props).
(** _read_application_sw_component_type, reader.py:4276-4291 *)
Definition read_application_sw_component_type (v : N) (x : xml) : result ApplicationSoftwareComponentType :=
  let k := x_kids x in
  let* d_ident := read_ident (x_attrs x) k in
  let* d_ports := read_sw_component_type v k in
  let* (d_internal_behavior, d_symbol_props) := read_atomic_sw_component_type v k in
  let* ident := new_identifiable d_ident in
  Ok (mkApplicationSoftwareComponentType ident d_ports d_internal_behavior d_symbol_props).
