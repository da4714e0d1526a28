(** Creating events in the internal behavior of a software component, and its port API options.
    Source: /repo/src/autosar/xml/element.py.  No proofs in this file.
    The behavior is a value; what it sees of its surroundings through the parent links is passed as
    [owner]: the ports of the component it belongs to and where that component stands.  Functions
    that change the behavior return it beside the outcome.
    Simplifications: events have no identity, a reference to an event held elsewhere does not follow
    a renaming; the name is a str (assert isinstance(event_name, str)). *)
From Verif Require Import Base MNames MWork MNum MXml MEnum MRefTab MRef MCodec MElem0 MElem1 MElemA MElemB MElemC MElem2 MElemD MElem3 MElem4 MElemE MElem5 MElemF MArxml MFind.

(** What swc.root_collection() and swc.ref() lead to, element.py:194-205, 266-280: the packages and
    behavior settings of the workspace (None: not a workspace) and the reference string of the
    component.  [pl_adopted] tells for the reference string of a mode-switch interface whether its
    mode group has the interface as parent: create_mode_group, 3875-3890, sets the parent link, the
    constructor, 3855-3863, does not. *)
Record place := mkPlace {
  pl_packages : list package;
  pl_settings : option settings;
  pl_path : string;
  pl_adopted : string -> bool }.
(** self.parent of the behavior, if it is a SwComponentType, element.py:7932-7938; [ow_place] is
    None when the component is not part of a package collection *)
Record owner := mkOwner {
  ow_ports : list PortPrototypeElement;
  ow_place : option place }.

(** get_valid_parent, element.py:7932-7938 *)
Definition get_valid_parent (o : option owner) : result owner :=
  match o with Some w => Ok w | None => Err RuntimeError end.
(** get_valid_behavior_settings, element.py:7940-7948, and of the package collection, 3090-3096 *)
Definition get_valid_behavior_settings (o : option owner) : result settings :=
  let* w := get_valid_parent o in
  match ow_place w with
  | None => Err ValueError
  | Some pl => match pl_settings pl with None => Err ValueError | Some s => Ok s end
  end.
(** workspace = root_collection(); assert workspace is not None, element.py:5073-5074, 5100-5101,
    5126-5127, 8368-8369 *)
Definition get_workspace (w : owner) : result place :=
  match ow_place w with Some pl => Ok pl | None => Err AssertionError end.

(** runnable.name, element.py:182 *)
Definition runnable_name (r : RunnableEntity) : string := id_name (RunnableEntity_ident r).
(** find_runnable, element.py:8051-8058 and the check after it (KeyError) *)
Definition find_runnable (b : SwcInternalBehavior) (name : string) : option RunnableEntity :=
  first_named runnable_name name (SwcInternalBehavior_runnables b).
Definition get_runnable (b : SwcInternalBehavior) (name : string) : result RunnableEntity :=
  match find_runnable b name with Some r => Ok r | None => Err KeyError end.
(** The reference string of the component, None without parent or package, element.py:266-280 *)
Definition owner_path (o : option owner) : option string :=
  match o with Some w => option_map pl_path (ow_place w) | None => None end.
(** RunnableEntity.ref, element.py:6607-6613 *)
Definition runnable_ref (o : option owner) (b : SwcInternalBehavior) (r : RunnableEntity) : option ref :=
  option_map (fun p => mkRef (below (below p (id_name (SwcInternalBehavior_ident b))) (runnable_name r)) IdentifiableSubTypes_RUNNABLE_ENTITY) (owner_path o).

(** ** The ports of the component *)
(** port.port_interface_ref, element.py:4713, 4761, 4809 *)
Definition port_interface_ref (p : PortPrototypeElement) : option ref :=
  match p with
  | PortPrototypeElement_P e => ProvidePortPrototype_port_interface_ref e
  | PortPrototypeElement_R e => RequirePortPrototype_port_interface_ref e
  | PortPrototypeElement_PR e => PRPortPrototype_port_interface_ref e
  end.
(** isinstance tests of find_r_port and find_p_port *)
Definition r_or_pr (p : PortPrototypeElement) : bool := match p with PortPrototypeElement_P _ => false | _ => true end.
Definition p_or_pr (p : PortPrototypeElement) : bool := match p with PortPrototypeElement_R _ => false | _ => true end.
(** find_r_port, element.py:5048-5055 *)
Definition find_r_port (w : owner) (name : string) : option PortPrototypeElement := first_named port_name name (filter r_or_pr (ow_ports w)).
(** find_p_port, element.py:5057-5064 *)
Definition find_p_port (w : owner) (name : string) : option PortPrototypeElement := first_named port_name name (filter p_or_pr (ow_ports w)).
(** port.ref() for a port of the component, element.py:4724-4732, 4774-4782, 4830-4838 *)
Definition own_port_ref (w : owner) (p : PortPrototypeElement) : option ref := port_ref (option_map pl_path (ow_place w)) p.

(** port_interface = workspace.find(port.port_interface_ref), InvalidReferenceError if None,
    element.py:5075-5077, 5102-5104, 5128-5130; with the reference string of what is found *)
Definition get_interface (pl : place) (p : PortPrototypeElement) : result (string * found) :=
  let* f := tree_find_ref (pl_packages pl) (port_interface_ref p) in
  match f with Some f => Ok f | None => Err InvalidReferenceError end.
(** names of data elements, operations, mode groups, element.py:182 *)
Definition data_name (d : VariableDataPrototype) : string := id_name (VariableDataPrototype_ident d).
Definition operation_name (d : ClientServerOperation) : string := id_name (ClientServerOperation_ident d).
Definition group_name (d : ModeDeclarationGroupPrototype) : string := id_name (ModeDeclarationGroupPrototype_ident d).
(** The only element, or the first with the given name: element.py:5078-5088, 5105-5115; "" counts
    as no name *)
Definition only_or_named {A} (name_of : A -> string) (l : list A) (name : option string) : result (option A) :=
  match name with
  | None | Some EmptyString => match l with [a] => Ok (Some a) | _ => Err ValueError end
  | Some n => Ok (first_named name_of n l)
  end.
(** The value, ValueError if None: element.py:8120-8125, 8171-8176, 8283-8287, 8325-8330 *)
Definition or_value_error {A} (x : option A) : result A := match x with Some a => Ok a | None => Err ValueError end.
(** get_data_element_in_port, element.py:5066-5091; with the reference string of the interface *)
Definition get_data_element_in_port (w : owner) (p : PortPrototypeElement) (name : option string) : result (option (string * VariableDataPrototype)) :=
  let* pl := get_workspace w in
  let* (path, f) := get_interface pl p in
  match f with
  | FElement (AR_SenderReceiverInterface i) =>
      let* d := only_or_named data_name (SenderReceiverInterface_data_elements i) name in
      Ok (option_map (fun d => (path, d)) d)
  | _ => Err TypeError
  end.
(** get_operation_in_port, element.py:5093-5118 *)
Definition get_operation_in_port (w : owner) (p : PortPrototypeElement) (name : option string) : result (option (string * ClientServerOperation)) :=
  let* pl := get_workspace w in
  let* (path, f) := get_interface pl p in
  match f with
  | FElement (AR_ClientServerInterface i) =>
      let* d := only_or_named operation_name (ClientServerInterface_operations i) name in
      Ok (option_map (fun d => (path, d)) d)
  | _ => Err TypeError
  end.
(** get_mode_declaration_group_in_port, element.py:5120-5135 *)
Definition get_mode_declaration_group_in_port (w : owner) (p : PortPrototypeElement) : result (option (string * ModeDeclarationGroupPrototype)) :=
  let* pl := get_workspace w in
  let* (path, f) := get_interface pl p in
  match f with
  | FElement (AR_ModeSwitchInterface i) => Ok (option_map (fun g => (path, g)) (ModeSwitchInterface_mode_group i))
  | _ => Err TypeError
  end.
(** VariableDataPrototype.ref, element.py:2054-2060, of an element of the interface at [path] *)
Definition data_ref (path : string) (d : VariableDataPrototype) : option ref :=
  Some (mkRef (below path (data_name d)) IdentifiableSubTypes_VARIABLE_DATA_PROTOTYPE).
(** ClientServerOperation.ref, element.py:3657-3665 *)
Definition operation_ref (path : string) (d : ClientServerOperation) : option ref :=
  Some (mkRef (below path (operation_name d)) IdentifiableSubTypes_CLIENT_SERVER_OPERATION).
(** ModeDeclarationGroupPrototype.ref, element.py:3301-3307: None without parent link *)
Definition group_ref (pl : place) (path : string) (d : ModeDeclarationGroupPrototype) : option ref :=
  if pl_adopted pl path then Some (mkRef (below path (group_name d)) IdentifiableSubTypes_MODE_DECLARATION_GROUP_PROTOTYPE) else None.
(** ModeDeclaration.ref, element.py:3125-3131, of a mode of the group at [path] *)
Definition mode_ref (path : string) (m : ModeDeclaration) : option ref :=
  Some (mkRef (below path (mode_name m)) IdentifiableSubTypes_MODE_DECLARATION).

(** ** The events of a behavior *)
(** The Identifiable part of an event, element.py:7123-7133 *)
Definition event_ident (e : RteEvent) : identifiable :=
  match e with
  | RteEvent_AsynchronousServerCallReturnsEvent e => AsynchronousServerCallReturnsEvent_ident e
  | RteEvent_BackgroundEvent e => BackgroundEvent_ident e
  | RteEvent_DataReceiveErrorEvent e => DataReceiveErrorEvent_ident e
  | RteEvent_DataReceivedEvent e => DataReceivedEvent_ident e
  | RteEvent_DataSendCompletedEvent e => DataSendCompletedEvent_ident e
  | RteEvent_DataWriteCompletedEvent e => DataWriteCompletedEvent_ident e
  | RteEvent_ExternalTriggerOccurredEvent e => ExternalTriggerOccurredEvent_ident e
  | RteEvent_InitEvent e => InitEvent_ident e
  | RteEvent_InternalTriggerOccurredEvent e => InternalTriggerOccurredEvent_ident e
  | RteEvent_ModeSwitchedAckEvent e => ModeSwitchedAckEvent_ident e
  | RteEvent_OperationInvokedEvent e => OperationInvokedEvent_ident e
  | RteEvent_SwcModeManagerErrorEvent e => SwcModeManagerErrorEvent_ident e
  | RteEvent_SwcModeSwitchEvent e => SwcModeSwitchEvent_ident e
  | RteEvent_TimingEvent e => TimingEvent_ident e
  | RteEvent_TransformerHardErrorEvent e => TransformerHardErrorEvent_ident e
  end.
(** event.name, element.py:182 *)
Definition event_name (e : RteEvent) : string := id_name (event_ident e).
(** event.start_on_event, element.py:7137 *)
Definition event_start (e : RteEvent) : option ref :=
  match e with
  | RteEvent_AsynchronousServerCallReturnsEvent e => AsynchronousServerCallReturnsEvent_start_on_event e
  | RteEvent_BackgroundEvent e => BackgroundEvent_start_on_event e
  | RteEvent_DataReceiveErrorEvent e => DataReceiveErrorEvent_start_on_event e
  | RteEvent_DataReceivedEvent e => DataReceivedEvent_start_on_event e
  | RteEvent_DataSendCompletedEvent e => DataSendCompletedEvent_start_on_event e
  | RteEvent_DataWriteCompletedEvent e => DataWriteCompletedEvent_start_on_event e
  | RteEvent_ExternalTriggerOccurredEvent e => ExternalTriggerOccurredEvent_start_on_event e
  | RteEvent_InitEvent e => InitEvent_start_on_event e
  | RteEvent_InternalTriggerOccurredEvent e => InternalTriggerOccurredEvent_start_on_event e
  | RteEvent_ModeSwitchedAckEvent e => ModeSwitchedAckEvent_start_on_event e
  | RteEvent_OperationInvokedEvent e => OperationInvokedEvent_start_on_event e
  | RteEvent_SwcModeManagerErrorEvent e => SwcModeManagerErrorEvent_start_on_event e
  | RteEvent_SwcModeSwitchEvent e => SwcModeSwitchEvent_start_on_event e
  | RteEvent_TimingEvent e => TimingEvent_start_on_event e
  | RteEvent_TransformerHardErrorEvent e => TransformerHardErrorEvent_start_on_event e
  end.
(** elem.name = name on an event, element.py:326 *)
Definition rename_event (n : string) (e : RteEvent) : RteEvent :=
  match e with
  | RteEvent_AsynchronousServerCallReturnsEvent (mkAsynchronousServerCallReturnsEvent i a b c) =>
      RteEvent_AsynchronousServerCallReturnsEvent (mkAsynchronousServerCallReturnsEvent (with_name n i) a b c)
  | RteEvent_BackgroundEvent (mkBackgroundEvent i a b) => RteEvent_BackgroundEvent (mkBackgroundEvent (with_name n i) a b)
  | RteEvent_DataReceiveErrorEvent (mkDataReceiveErrorEvent i a b c) => RteEvent_DataReceiveErrorEvent (mkDataReceiveErrorEvent (with_name n i) a b c)
  | RteEvent_DataReceivedEvent (mkDataReceivedEvent i a b c) => RteEvent_DataReceivedEvent (mkDataReceivedEvent (with_name n i) a b c)
  | RteEvent_DataSendCompletedEvent (mkDataSendCompletedEvent i a b c) => RteEvent_DataSendCompletedEvent (mkDataSendCompletedEvent (with_name n i) a b c)
  | RteEvent_DataWriteCompletedEvent (mkDataWriteCompletedEvent i a b c) => RteEvent_DataWriteCompletedEvent (mkDataWriteCompletedEvent (with_name n i) a b c)
  | RteEvent_ExternalTriggerOccurredEvent (mkExternalTriggerOccurredEvent i a b c) =>
      RteEvent_ExternalTriggerOccurredEvent (mkExternalTriggerOccurredEvent (with_name n i) a b c)
  | RteEvent_InitEvent (mkInitEvent i a b) => RteEvent_InitEvent (mkInitEvent (with_name n i) a b)
  | RteEvent_InternalTriggerOccurredEvent (mkInternalTriggerOccurredEvent i a b c) =>
      RteEvent_InternalTriggerOccurredEvent (mkInternalTriggerOccurredEvent (with_name n i) a b c)
  | RteEvent_ModeSwitchedAckEvent (mkModeSwitchedAckEvent i a b c) => RteEvent_ModeSwitchedAckEvent (mkModeSwitchedAckEvent (with_name n i) a b c)
  | RteEvent_OperationInvokedEvent (mkOperationInvokedEvent i a b c) => RteEvent_OperationInvokedEvent (mkOperationInvokedEvent (with_name n i) a b c)
  | RteEvent_SwcModeManagerErrorEvent (mkSwcModeManagerErrorEvent i a b c) =>
      RteEvent_SwcModeManagerErrorEvent (mkSwcModeManagerErrorEvent (with_name n i) a b c)
  | RteEvent_SwcModeSwitchEvent (mkSwcModeSwitchEvent i a b c d) => RteEvent_SwcModeSwitchEvent (mkSwcModeSwitchEvent (with_name n i) a b c d)
  | RteEvent_TimingEvent (mkTimingEvent i a b c d) => RteEvent_TimingEvent (mkTimingEvent (with_name n i) a b c d)
  | RteEvent_TransformerHardErrorEvent (mkTransformerHardErrorEvent i a b c d f) =>
      RteEvent_TransformerHardErrorEvent (mkTransformerHardErrorEvent (with_name n i) a b c d f)
  end.
(** The behavior with other events *)
Definition set_events (b : SwcInternalBehavior) (l : list RteEvent) : SwcInternalBehavior :=
  mkSwcInternalBehavior (SwcInternalBehavior_ident b) (SwcInternalBehavior_data_type_mappings b) (SwcInternalBehavior_exclusive_areas b)
    l (SwcInternalBehavior_port_api_options b) (SwcInternalBehavior_runnables b).
(** The events after make_unique_name_in_list gave them the names, element.py:304-330 *)
Fixpoint rename_events (names : list string) (l : list RteEvent) : list RteEvent :=
  match names, l with
  | n :: names, e :: l => rename_event n e :: rename_events names l
  | _, _ => l
  end.
(** _make_unique_event_name, element.py:8060-8067 *)
Definition make_unique_event_name (b : SwcInternalBehavior) (base : string) : SwcInternalBehavior * string :=
  let (names, n) := make_unique (map event_name (SwcInternalBehavior_events b)) base in
  (set_events b (rename_events names (SwcInternalBehavior_events b)), n).
(** append_event, element.py:7968-7976 *)
Definition append_event (b : SwcInternalBehavior) (e : RteEvent) : SwcInternalBehavior := set_events b (SwcInternalBehavior_events b ++ [e]).

(** unique_event_name = self._make_unique_event_name(event_name); event = ...; self.append_event(event):
    the end of the create_*_event methods, element.py:8091-8094 and alike; the names changed so far
    stay changed when making the event raises *)
Definition add_event (b : SwcInternalBehavior) (base : string) (make : string -> result RteEvent) : SwcInternalBehavior * result RteEvent :=
  let (b1, n) := make_unique_event_name b base in
  match make n with
  | Err x => (b1, Err x)
  | Ok e => (append_event b1 e, Ok e)
  end.
(** Preparation that does not change the behavior, then the end *)
Definition prepared {A} (b : SwcInternalBehavior) (r : result A) (k : A -> SwcInternalBehavior * result RteEvent) : SwcInternalBehavior * result RteEvent :=
  match r with Err x => (b, Err x) | Ok a => k a end.

(** The further keyword arguments ( **kwargs ): attributes of Identifiable (the name in [kw_ident] is
    not used) and disabled modes; or arguments that the constructor rejects *)
Inductive keywords := Keywords (kw_ident : identifiable) (kw_disabled : list RModeInAtomicSwcInstanceRef) | BadKeywords (x : exn).
(** RteEvent.__init__, element.py:7128-7145: Identifiable part, disabled modes and start_on_event *)
Definition new_rte_event (n : string) (start : option ref) (kw : keywords) : result (identifiable * list RModeInAtomicSwcInstanceRef * option ref) :=
  match kw with
  | BadKeywords x => Err x
  | Keywords i modes =>
      match start with
      | None => Ok (with_name n i, modes, None)
      | Some r => let* r := check_and_set_reference (RefObj rc_RunnableEntityRef r) rc_RunnableEntityRef in Ok (with_name n i, modes, Some r)
      end
  end.
(** _assign_optional of the reference of an object, xml/base.py:48-64 *)
Definition assign (from : ref_class) (r : option ref) (c : ref_class) : result (option ref) :=
  match r with None => Ok None | Some r => let* r := check_and_set_reference (RefObj from r) c in Ok (Some r) end.

(** event_name, or the prefix from the behavior settings and further parts joined with "_";
    RuntimeError without prefix.  element.py:8082-8089, 8126-8136, 8177-8187, 8247-8254, 8288-8298,
    8331-8341, 8373-8380, 8435-8442 *)
Definition base_name (o : option owner) (setting : string) (parts : list string) (event_name : option string) : result string :=
  match event_name with
  | Some n => Ok n
  | None =>
      let* s := get_valid_behavior_settings o in
      match assoc setting s with
      | None | Some EmptyString => Err RuntimeError
      | Some prefix => Ok (join "_" (prefix :: parts))
      end
  end.

(** create_background_event, element.py:8069-8094 *)
Definition create_background_event (o : option owner) (b : SwcInternalBehavior) (runnable : string) (name : option string) (kw : keywords) :=
  prepared b (get_runnable b runnable) (fun r =>
  prepared b (base_name o "background_event_prefix" [runnable] name) (fun base =>
  add_event b base (fun n =>
    let* (i, modes, start) := new_rte_event n (runnable_ref o b r) kw in
    Ok (RteEvent_BackgroundEvent (mkBackgroundEvent i modes start))))).
(** create_init_event, element.py:8234-8259 *)
Definition create_init_event (o : option owner) (b : SwcInternalBehavior) (runnable : string) (name : option string) (kw : keywords) :=
  prepared b (get_runnable b runnable) (fun r =>
  prepared b (base_name o "init_event_prefix" [runnable] name) (fun base =>
  add_event b base (fun n =>
    let* (i, modes, start) := new_rte_event n (runnable_ref o b r) kw in
    Ok (RteEvent_InitEvent (mkInitEvent i modes start))))).
(** create_timing_event, element.py:8421-8447; TimingEvent.__init__, 7614-7627 *)
Definition create_timing_event (o : option owner) (b : SwcInternalBehavior) (runnable : string) (period offset : option pynum) (name : option string) (kw : keywords) :=
  prepared b (get_runnable b runnable) (fun r =>
  prepared b (base_name o "timing_event_prefix" [runnable] name) (fun base =>
  add_event b base (fun n =>
    let* (i, modes, start) := new_rte_event n (runnable_ref o b r) kw in
    Ok (RteEvent_TimingEvent (mkTimingEvent i modes start (option_map as_float offset) (option_map as_float period)))))).

(** name_parts = split_ref_strict(text), port name and optional element name (further parts are not
    used), element.py:8114-8118, 8165-8169, 8277-8281 *)
Definition port_and_element (text : string) : result (string * option string) :=
  let* parts := split_ref_strict text in
  match parts with
  | [] => Err IndexError
  | [p] => Ok (p, None)
  | p :: e :: _ => Ok (p, Some e)
  end.
(** The port and the data element of create_data_receive_error_event and
    create_data_received_event, element.py:8109-8125, 8160-8176 *)
Definition received_data (o : option owner) (b : SwcInternalBehavior) (runnable text : string)
  : result (owner * RunnableEntity * PortPrototypeElement * (string * VariableDataPrototype)) :=
  let* w := get_valid_parent o in
  let* r := get_runnable b runnable in
  let* (port, element) := port_and_element text in
  let* p := or_value_error (find_r_port w port) in
  let* d := get_data_element_in_port w p element in
  let* d := or_value_error d in
  Ok (w, r, p, d).
(** RVariableInAtomicSwcInstanceRef.__init__, element.py:5686-5696 *)
Definition new_variable_iref (w : owner) (p : PortPrototypeElement) (d : string * VariableDataPrototype) : result RVariableInAtomicSwcInstanceRef :=
  let* c := assign rc_PortPrototypeRef (own_port_ref w p) rc_AbstractRequiredPortPrototypeRef in
  let* t := assign rc_VariableDataPrototypeRef (data_ref (fst d) (snd d)) rc_VariableDataPrototypeRef in
  Ok (mkRVariableInAtomicSwcInstanceRef c t).
(** create_data_receive_error_event, element.py:8096-8145 *)
Definition create_data_receive_error_event (o : option owner) (b : SwcInternalBehavior) (runnable text : string) (name : option string) (kw : keywords) :=
  prepared b (received_data o b runnable text) (fun x => let '(w, r, p, d) := x in
  prepared b (base_name o "data_receive_error_event_prefix" [runnable; port_name p; data_name (snd d)] name) (fun base =>
  add_event b base (fun n =>
    let* iref := new_variable_iref w p d in
    let* (i, modes, start) := new_rte_event n (runnable_ref o b r) kw in
    Ok (RteEvent_DataReceiveErrorEvent (mkDataReceiveErrorEvent i modes start (Some iref)))))).
(** create_data_received_event, element.py:8147-8196 *)
Definition create_data_received_event (o : option owner) (b : SwcInternalBehavior) (runnable text : string) (name : option string) (kw : keywords) :=
  prepared b (received_data o b runnable text) (fun x => let '(w, r, p, d) := x in
  prepared b (base_name o "data_receive_event_prefix" [runnable; port_name p; data_name (snd d)] name) (fun base =>
  add_event b base (fun n =>
    let* iref := new_variable_iref w p d in
    let* (i, modes, start) := new_rte_event n (runnable_ref o b r) kw in
    Ok (RteEvent_DataReceivedEvent (mkDataReceivedEvent i modes start (Some iref)))))).
(** create_operation_invoked_event, element.py:8261-8307; POperationInAtomicSwcInstanceRef.__init__, 5565-5574 *)
Definition create_operation_invoked_event (o : option owner) (b : SwcInternalBehavior) (runnable text : string) (name : option string) (kw : keywords) :=
  prepared b (let* w := get_valid_parent o in
              let* r := get_runnable b runnable in
              let* (port, element) := port_and_element text in
              let* p := or_value_error (find_p_port w port) in
              let* d := get_operation_in_port w p element in
              let* d := or_value_error d in
              Ok (w, r, p, d)) (fun x => let '(w, r, p, d) := x in
  prepared b (base_name o "operation_invoked_event_prefix" [runnable; port_name p; operation_name (snd d)] name) (fun base =>
  add_event b base (fun n =>
    let* c := assign rc_PortPrototypeRef (own_port_ref w p) rc_AbstractProvidedPortPrototypeRef in
    let* t := assign rc_ClientServerOperationRef (operation_ref (fst d) (snd d)) rc_ClientServerOperationRef in
    let* (i, modes, start) := new_rte_event n (runnable_ref o b r) kw in
    Ok (RteEvent_OperationInvokedEvent (mkOperationInvokedEvent i modes start (Some (mkPOperationInAtomicSwcInstanceRef c t))))))).
(** create_swc_mode_manager_error_event, element.py:8309-8350; PModeGroupInAtomicSwcInstanceRef.__init__, 5584-5596 *)
Definition create_swc_mode_manager_error_event (o : option owner) (b : SwcInternalBehavior) (runnable port : string) (name : option string) (kw : keywords) :=
  prepared b (let* w := get_valid_parent o in
              let* r := get_runnable b runnable in
              let* p := or_value_error (find_p_port w port) in
              let* g := get_mode_declaration_group_in_port w p in
              let* g := or_value_error g in
              let* pl := get_workspace w in
              Ok (w, r, p, g, pl)) (fun x => let '(w, r, p, g, pl) := x in
  prepared b (base_name o "swc_mode_manager_error_event_prefix" [runnable; port_name p; group_name (snd g)] name) (fun base =>
  add_event b base (fun n =>
    let* c := assign rc_PortPrototypeRef (own_port_ref w p) rc_AbstractProvidedPortPrototypeRef in
    let* t := assign rc_ModeDeclarationGroupPrototypeRef (group_ref pl (fst g) (snd g)) rc_ModeDeclarationGroupPrototypeRef in
    let* (i, modes, start) := new_rte_event n (runnable_ref o b r) kw in
    Ok (RteEvent_SwcModeManagerErrorEvent (mkSwcModeManagerErrorEvent i modes start (Some (mkPModeGroupInAtomicSwcInstanceRef c t))))))).

(** target_mode_declaration_group.find(mode_declaration_name) and the ref() of what it returns,
    element.py:8472-8474, 8392.  Simplification: an object other than a mode of a mode declaration group
    raises, here always TypeError (no find method or no ref method: AttributeError). *)
Definition find_mode (path : string) (f : found) (name : string) : result (string * ModeDeclaration) :=
  match f with
  | FElement (AR_ModeDeclarationGroup g) =>
      match mode_group_find g name with
      | Some (FMode m) => Ok (path, m)
      | Some _ => Err AttributeError
      | None => Err ValueError
      end
  | _ => Err TypeError
  end.
(** _get_swc_mode_switch_event_args, element.py:8449-8475, and RModeInAtomicSwcInstanceRef.__init__,
    5643-5658 *)
Definition new_mode_iref (w : owner) (text : string) : result RModeInAtomicSwcInstanceRef :=
  let* parts := split_ref_strict text in
  match parts with
  | [port; mode] =>
      let* p := or_value_error (find_r_port w port) in
      let* g := get_mode_declaration_group_in_port w p in
      let* (path, g) := or_value_error g in
      let* pl := get_workspace w in
      let* f := tree_find_ref (pl_packages pl) (ModeDeclarationGroupPrototype_type_ref g) in
      match f with
      | None => Err InvalidReferenceError
      | Some (gpath, f) =>
          let* (gpath, m) := find_mode gpath f mode in
          let* c := assign rc_PortPrototypeRef (own_port_ref w p) rc_AbstractRequiredPortPrototypeRef in
          let* x := assign rc_ModeDeclarationGroupPrototypeRef (group_ref pl path g) rc_ModeDeclarationGroupPrototypeRef in
          let* t := assign rc_ModeDeclarationRef (mode_ref gpath m) rc_ModeDeclarationRef in
          Ok (mkRModeInAtomicSwcInstanceRef c x t)
      end
  | _ => Err ValueError
  end.
(** The argument mode_ref: a str or a list or tuple of str *)
Inductive mode_text := ModeText (s : string) | ModeTexts (l : list string).
(** The modes of the event, element.py:8384-8417; an empty text raises ValueError *)
Definition switch_mode (w : owner) (m : mode_text) : result SwitchMode :=
  match m with
  | ModeText s => if String.eqb s "" then Err ValueError else let* i := new_mode_iref w s in Ok (OneMode i)
  | ModeTexts [s; t] =>
      let* i := if String.eqb s "" then Err ValueError else new_mode_iref w s in
      let* j := if String.eqb t "" then Err ValueError else new_mode_iref w t in
      Ok (TwoModes i j)
  | ModeTexts _ => Err ValueError
  end.
(** create_swc_mode_mode_switch_event, element.py:8352-8419: the name is made unique before the
    modes are looked up *)
Definition create_swc_mode_mode_switch_event (o : option owner) (b : SwcInternalBehavior) (runnable : string) (mode : mode_text)
  (activation : option ModeActivationKind) (name : option string) (kw : keywords) :=
  prepared b (let* w := get_valid_parent o in let* _ := get_workspace w in let* r := get_runnable b runnable in Ok (w, r)) (fun x => let '(w, r) := x in
  prepared b (base_name o "swc_mode_switch_event_prefix" [runnable] name) (fun base =>
  add_event b base (fun n =>
    let* m := switch_mode w mode in
    let* (i, modes, start) := new_rte_event n (runnable_ref o b r) kw in
    Ok (RteEvent_SwcModeSwitchEvent (mkSwcModeSwitchEvent i modes start activation (Some m)))))).

(** The create_*_event methods and their arguments *)
Inductive event_call :=
| CallBackground
| CallInit
| CallTiming (period offset : option pynum)
| CallDataReceiveError (port_data_element : string)
| CallDataReceived (data_element_ref : string)
| CallDataSendCompleted (data_element_ref : string)
| CallDataWriteCompleted (data_element_ref : string)
| CallOperationInvoked (operation_ref : string)
| CallModeManagerError (port_name : string)
| CallModeSwitch (mode_ref : mode_text) (activation : option ModeActivationKind).
(** A call of one of the create_*_event methods, element.py:8069-8447;
    create_data_send_completed_event and create_data_write_completed_event, 8198-8232, always raise *)
Definition create_event (o : option owner) (b : SwcInternalBehavior) (c : event_call) (runnable : string) (name : option string) (kw : keywords)
  : SwcInternalBehavior * result RteEvent :=
  match c with
  | CallBackground => create_background_event o b runnable name kw
  | CallInit => create_init_event o b runnable name kw
  | CallTiming p f => create_timing_event o b runnable p f name kw
  | CallDataReceiveError t => create_data_receive_error_event o b runnable t name kw
  | CallDataReceived t => create_data_received_event o b runnable t name kw
  | CallDataSendCompleted _ => (b, Err NotImplementedError)
  | CallDataWriteCompleted _ => (b, Err NotImplementedError)
  | CallOperationInvoked t => create_operation_invoked_event o b runnable t name kw
  | CallModeManagerError p => create_swc_mode_manager_error_event o b runnable p name kw
  | CallModeSwitch m a => create_swc_mode_mode_switch_event o b runnable m a name kw
  end.

(** ** Port API options *)
(** The arguments of create_port_api_options other than port_name, element.py:8477-8485 *)
Record api_args := mkApiArgs {
  aa_enable_take_address : option bool;
  aa_indirect_api : option bool;
  aa_error_handling : option DataTransformationErrorHandling;
  aa_port_arg_values : list PortDefinedArgumentValue;
  aa_supported_features : list CommunicationBufferLocking;
  aa_transformer_status_forwarding : option DataTransformationStatusForwarding }.
(** _create_port_api_option_internal, element.py:8526-8549; PortApiOption.__init__, 7726-7770 *)
Definition create_port_api_option_internal (w : owner) (p : PortPrototypeElement) (a : api_args) : result PortApiOption :=
  match own_port_ref w p with
  | None => Err ValueError
  | Some r =>
      let* r := check_and_set_reference (RefObj rc_PortPrototypeRef r) rc_PortPrototypeRef in
      Ok (mkPortApiOption (aa_enable_take_address a) (aa_error_handling a) (aa_indirect_api a) (aa_port_arg_values a) (Some r)
            (aa_supported_features a) (aa_transformer_status_forwarding a))
  end.
(** sorted(swc.ports, key=lambda x: x.name.lower()), element.py:8511: sorting by insertion, which
    like sorted keeps the order of ports with equal keys; str.lower for ASCII text *)
Definition port_key (p : PortPrototypeElement) : string := lower (port_name p).
Fixpoint insert_port (p : PortPrototypeElement) (l : list PortPrototypeElement) : list PortPrototypeElement :=
  match l with
  | [] => [p]
  | q :: r => if String.leb (port_key p) (port_key q) then p :: q :: r else q :: insert_port p r
  end.
Fixpoint sort_ports (l : list PortPrototypeElement) : list PortPrototypeElement :=
  match l with [] => [] | p :: r => insert_port p (sort_ports r) end.
(** The argument port_name: a str or a list of str *)
Inductive port_selection := OnePort (s : string) | Ports (l : list string).
(** The names to process, element.py:8498-8509; as a dictionary, repeated names count once, which
    does not matter for what follows *)
Definition selected (w : owner) (s : port_selection) : list string :=
  match s with
  | OnePort n => if String.eqb n "*" then map port_name (ow_ports w) else [n]
  | Ports l => l
  end.
Definition names_one (names : list string) (n : string) : bool := existsb (String.eqb n) names.
(** The loop over the sorted ports, element.py:8511-8521 *)
Fixpoint add_options (w : owner) (names : list string) (a : api_args) (ports : list PortPrototypeElement) (options : list (string * PortApiOption))
  : list (string * PortApiOption) * result unit :=
  match ports with
  | [] => (options, Ok tt)
  | p :: r =>
      if names_one names (port_name p) then
        match create_port_api_option_internal w p a with
        | Err x => (options, Err x)
        | Ok e => add_options w names a r (append_port_api_option options e)
        end
      else add_options w names a r options
  end.
(** The behavior with other port API options *)
Definition set_options (b : SwcInternalBehavior) (l : list (string * PortApiOption)) : SwcInternalBehavior :=
  mkSwcInternalBehavior (SwcInternalBehavior_ident b) (SwcInternalBehavior_data_type_mappings b) (SwcInternalBehavior_exclusive_areas b)
    (SwcInternalBehavior_events b) l (SwcInternalBehavior_runnables b).
(** create_port_api_options, element.py:8477-8524: names of no port raise ValueError at the end *)
Definition create_port_api_options (o : option owner) (b : SwcInternalBehavior) (s : port_selection) (a : api_args) : SwcInternalBehavior * result unit :=
  match get_valid_parent o with
  | Err x => (b, Err x)
  | Ok w =>
      let names := selected w s in
      let (l, r) := add_options w names a (sort_ports (ow_ports w)) (SwcInternalBehavior_port_api_options b) in
      (set_options b l,
       let* _ := r in
       if forallb (fun n => names_one (map port_name (ow_ports w)) n) names then Ok tt else Err ValueError)
  end.
