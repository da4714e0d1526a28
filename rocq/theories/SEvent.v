(** What the events and port API options of a behavior must be, independently of how they are made. *)
From Verif Require Import Base MHeap SHeap MNames MWork MNum MXml MEnum MRefTab MRef MCodec MElem0 MElem1 MElem2 MElem4 MElemE MElem5 MElemF MArxml MFind SFind MEvent.
From Coq Require Import Sorted.

(** The text names a port and, unless the part after the slash is empty, something inside its
    interface; what follows a second slash does not matter. *)
Inductive says : string -> string -> option string -> Prop :=
| says_port p : valid_name p -> says p p None
| says_only p rest : valid_name p -> says (join "/" (p :: "" :: rest)) p None
| says_element p e rest : valid_name p -> valid_name e -> says (join "/" (p :: e :: rest)) p (Some e).
(** The element of a list that is meant: the only one if no name is given. *)
Definition picks {A} (name_of : A -> string) (l : list A) (o : option string) (a : A) : Prop :=
  match o with None => l = [a] | Some n => In a l /\ name_of a = n end.
Definition requires (p : PortPrototypeElement) : Prop := match p with PortPrototypeElement_P _ => False | _ => True end.
Definition provides (p : PortPrototypeElement) : Prop := match p with PortPrototypeElement_R _ => False | _ => True end.
(** The reference leads to the element at the path. *)
Definition leads_to (ws : list package) (r : option ref) (ns : list string) (e : ARElement) : Prop :=
  exists x, r = Some x /\ tree_find ws (rf_value x) = Ok (Some (path_string ns, FElement e)) /\ at_path ws ns (FElement e).
(** A reference to something named [n] in the element at [ns]. *)
Definition ref_inside (ns : list string) (n : string) (d : IdentifiableSubTypes) : option ref := Some (mkRef (path_string (ns ++ [n])) d).

Section Surroundings.
Context (pl : place) (self : list string) (ports : list PortPrototypeElement).
(** The reference to the mode group of the interface at [ns]; None if the group does not know its
    interface. *)
Definition ref_to_group (ns : list string) (g : ModeDeclarationGroupPrototype) : option ref :=
  if pl_adopted pl (path_string ns) then ref_inside ns (group_name g) IdentifiableSubTypes_MODE_DECLARATION_GROUP_PROTOTYPE else None.
(** The text names a mode of a require-port: the reference to it. *)
Inductive mode_of : string -> RModeInAtomicSwcInstanceRef -> Prop :=
| mode_of_port p ns i g gs grp m : In p ports -> requires p -> valid_name (port_name p) -> mem_char slash (mode_name m) = false ->
    leads_to (pl_packages pl) (port_interface_ref p) ns (AR_ModeSwitchInterface i) -> ModeSwitchInterface_mode_group i = Some g ->
    leads_to (pl_packages pl) (ModeDeclarationGroupPrototype_type_ref g) gs (AR_ModeDeclarationGroup grp) ->
    In m (ModeDeclarationGroup_mode_declarations grp) ->
    mode_of (port_name p ++ "/" ++ mode_name m)%string
      (mkRModeInAtomicSwcInstanceRef (Some (ref_to_port self p)) (ref_to_group ns g)
         (ref_inside gs (mode_name m) IdentifiableSubTypes_MODE_DECLARATION)).
(** The reference to a data element of a port, and to an operation of a port. *)
Definition data_of (p : PortPrototypeElement) (ns : list string) (d : VariableDataPrototype) : RVariableInAtomicSwcInstanceRef :=
  mkRVariableInAtomicSwcInstanceRef (Some (ref_to_port self p)) (ref_inside ns (data_name d) IdentifiableSubTypes_VARIABLE_DATA_PROTOTYPE).
Definition operation_of (p : PortPrototypeElement) (ns : list string) (d : ClientServerOperation) : POperationInAtomicSwcInstanceRef :=
  mkPOperationInAtomicSwcInstanceRef (Some (ref_to_port self p)) (ref_inside ns (operation_name d) IdentifiableSubTypes_CLIENT_SERVER_OPERATION).
(** The text names a data element of a port that receives: the port, the path of its interface and
    the element.  Likewise an operation of a port that provides. *)
Inductive data_named : string -> PortPrototypeElement -> list string -> VariableDataPrototype -> Prop :=
| data_is_named text p o ns i d : says text (port_name p) o -> In p ports -> requires p ->
    leads_to (pl_packages pl) (port_interface_ref p) ns (AR_SenderReceiverInterface i) ->
    picks data_name (SenderReceiverInterface_data_elements i) o d -> data_named text p ns d.
Inductive operation_named : string -> PortPrototypeElement -> list string -> ClientServerOperation -> Prop :=
| operation_is_named text p o ns i d : says text (port_name p) o -> In p ports -> provides p ->
    leads_to (pl_packages pl) (port_interface_ref p) ns (AR_ClientServerInterface i) ->
    picks operation_name (ClientServerInterface_operations i) o d -> operation_named text p ns d.
(** The event a call asks for: what its default name is made of after prefix and runnable, and the
    event for given common attributes. *)
Inductive asks : event_call -> list string -> (identifiable -> list RModeInAtomicSwcInstanceRef -> option ref -> RteEvent) -> Prop :=
| asks_background : asks CallBackground [] (fun i m s => RteEvent_BackgroundEvent (mkBackgroundEvent i m s))
| asks_init : asks CallInit [] (fun i m s => RteEvent_InitEvent (mkInitEvent i m s))
| asks_timing period offset : asks (CallTiming period offset) []
    (fun i m s => RteEvent_TimingEvent (mkTimingEvent i m s (option_map as_float offset) (option_map as_float period)))
| asks_data_error text p ns d : data_named text p ns d -> asks (CallDataReceiveError text) [port_name p; data_name d]
    (fun i m s => RteEvent_DataReceiveErrorEvent (mkDataReceiveErrorEvent i m s (Some (data_of p ns d))))
| asks_data text p ns d : data_named text p ns d -> asks (CallDataReceived text) [port_name p; data_name d]
    (fun i m s => RteEvent_DataReceivedEvent (mkDataReceivedEvent i m s (Some (data_of p ns d))))
| asks_operation text p ns d : operation_named text p ns d -> asks (CallOperationInvoked text) [port_name p; operation_name d]
    (fun i m s => RteEvent_OperationInvokedEvent (mkOperationInvokedEvent i m s (Some (operation_of p ns d))))
| asks_manager p ns i g : In p ports -> provides p -> leads_to (pl_packages pl) (port_interface_ref p) ns (AR_ModeSwitchInterface i) ->
    ModeSwitchInterface_mode_group i = Some g -> asks (CallModeManagerError (port_name p)) [port_name p; group_name g]
    (fun i m s => RteEvent_SwcModeManagerErrorEvent (mkSwcModeManagerErrorEvent i m s
       (Some (mkPModeGroupInAtomicSwcInstanceRef (Some (ref_to_port self p)) (ref_to_group ns g)))))
| asks_switch text r a : mode_of text r -> asks (CallModeSwitch (ModeText text) a) []
    (fun i m s => RteEvent_SwcModeSwitchEvent (mkSwcModeSwitchEvent i m s a (Some (OneMode r))))
| asks_transition text1 text2 r1 r2 a : mode_of text1 r1 -> mode_of text2 r2 -> asks (CallModeSwitch (ModeTexts [text1; text2]) a) []
    (fun i m s => RteEvent_SwcModeSwitchEvent (mkSwcModeSwitchEvent i m s a (Some (TwoModes r1 r2)))).
End Surroundings.

(** The setting that holds the name prefix for a kind of event. *)
Definition prefix_setting (c : event_call) : string :=
  match c with
  | CallBackground => "background_event_prefix"
  | CallInit => "init_event_prefix"
  | CallTiming _ _ => "timing_event_prefix"
  | CallDataReceiveError _ => "data_receive_error_event_prefix"
  | CallDataReceived _ => "data_receive_event_prefix"
  | CallOperationInvoked _ => "operation_invoked_event_prefix"
  | CallModeManagerError _ => "swc_mode_manager_error_event_prefix"
  | CallModeSwitch _ _ => "swc_mode_switch_event_prefix"
  | CallDataSendCompleted _ | CallDataWriteCompleted _ => ""
  end.
(** The name asked for: the one given, or prefix, runnable and parts joined with underscores. *)
Definition name_asked (pl : place) (c : event_call) (runnable : string) (parts : list string) (name : option string) (base : string) : Prop :=
  name = Some base \/
  (name = None /\ exists s prefix, pl_settings pl = Some s /\ get_value s (prefix_setting c) = Ok prefix /\ prefix <> "" /\
     base = join "_" (prefix :: runnable :: parts)).
(** The reference to a runnable of the behavior of the component at [self]. *)
Definition ref_to_runnable (self : list string) (b : SwcInternalBehavior) (r : RunnableEntity) : ref :=
  mkRef (path_string (self ++ [id_name (SwcInternalBehavior_ident b); runnable_name r])) IdentifiableSubTypes_RUNNABLE_ENTITY.
(** The same behavior with other events; the same events but for one called [base], which may now be
    called base_0. *)
Definition same_but_events (b b' : SwcInternalBehavior) : Prop :=
  SwcInternalBehavior_ident b' = SwcInternalBehavior_ident b /\
  SwcInternalBehavior_data_type_mappings b' = SwcInternalBehavior_data_type_mappings b /\
  SwcInternalBehavior_exclusive_areas b' = SwcInternalBehavior_exclusive_areas b /\
  SwcInternalBehavior_port_api_options b' = SwcInternalBehavior_port_api_options b /\
  SwcInternalBehavior_runnables b' = SwcInternalBehavior_runnables b.
Definition one_renamed (base : string) (l l' : list RteEvent) : Prop :=
  (~ In base (map event_name l) /\ l' = l) \/
  exists x e y, l = x ++ e :: y /\ event_name e = base /\ l' = x ++ rename_event (base ++ "_0")%string e :: y.
(** The component stands at [self]. *)
Definition stands_at (w : owner) (pl : place) (self : list string) : Prop :=
  ow_place w = Some pl /\ self <> [] /\ pl_path pl = path_string self.
(** Names within an interface or a mode group. *)
Definition inner_names (e : ARElement) : list string :=
  match e with
  | AR_SenderReceiverInterface i => map data_name (SenderReceiverInterface_data_elements i)
  | AR_ClientServerInterface i => map operation_name (ClientServerInterface_operations i)
  | AR_ModeDeclarationGroup g => map mode_name (ModeDeclarationGroup_mode_declarations g)
  | _ => []
  end.
(** No two things of one scope share a name. *)
Definition distinct_names (w : owner) (pl : place) (b : SwcInternalBehavior) : Prop :=
  NoDup (map runnable_name (SwcInternalBehavior_runnables b)) /\ NoDup (map port_name (ow_ports w)) /\
  forall ns e, at_path (pl_packages pl) ns (FElement e) -> NoDup (inner_names e).
(** Calls after one another, whatever their outcome. *)
Definition a_call : Type := event_call * string * option string * keywords.
Definition call_on (o : option owner) (b : SwcInternalBehavior) (x : a_call) : SwcInternalBehavior :=
  let '(c, r, n, k) := x in fst (create_event o b c r n k).
Definition call_ok (o : option owner) (b : SwcInternalBehavior) (x : a_call) : bool :=
  let '(c, r, n, k) := x in match snd (create_event o b c r n k) with Ok _ => true | Err _ => false end.
(** The number of successful calls of a history. *)
Fixpoint successes (o : option owner) (b : SwcInternalBehavior) (l : list a_call) : nat :=
  match l with
  | [] => O
  | x :: r => (if call_ok o b x then 1 else 0)%nat + successes o (call_on o b x) r
  end.

(** ** Port API options *)
(** The ports a selection means. *)
Definition means_port (s : port_selection) (n : string) : Prop :=
  match s with OnePort m => m = "*" \/ n = m | Ports l => In n l end.
(** The option for a port. *)
Definition option_for (self : list string) (p : PortPrototypeElement) (a : api_args) : PortApiOption :=
  mkPortApiOption (aa_enable_take_address a) (aa_error_handling a) (aa_indirect_api a) (aa_port_arg_values a) (Some (ref_to_port self p))
    (aa_supported_features a) (aa_transformer_status_forwarding a).
(** Case-insensitive order of names. *)
Definition before (a b : string) : Prop := String.leb (lower a) (lower b) = true.
(** Every name of the selection is a port. *)
Definition all_known (w : owner) (s : port_selection) : Prop :=
  match s with
  | OnePort n => n = "*" \/ In n (map port_name (ow_ports w))
  | Ports l => forall n, In n l -> In n (map port_name (ow_ports w))
  end.
