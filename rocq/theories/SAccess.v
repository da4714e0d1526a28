(** Which access points a runnable must get for a text, independently of how they are made. *)
From Verif Require Import Base MHeap SHeap MNames MWork MNum MXml MEnum MRefTab MRef MCodec MElem0 MElem1 MElemA MElemB MElemC MElem2 MElemD MElem3 MElem4 MElemE MElem5 MElemF MArxml MFind SFind MValue MEvent SEvent MPort SPort MAccess.
From Verif Require SLiteral.
Open Scope list_scope.

(** ** Texts *)
(** A port, or a port and the name of something inside its interface; an empty name is no name. *)
Inductive names_element : string -> string -> option string -> Prop :=
| names_port p : mem_char slash p = false -> names_element p p None
| names_port_only p : mem_char slash p = false -> names_element (p ++ "/") p None
| names_both p e : mem_char slash p = false -> e <> "" -> names_element (p ++ "/" ++ e) p (Some e).
(** The word in front of a colon, in capitals, and what follows it. *)
Inductive text_says : string -> option string -> string -> option string -> Prop :=
| text_plain t p e : mem_char colon t = false -> names_element t p e -> text_says t None p e
| text_prefixed w spaces t p e : mem_char colon w = false -> SLiteral.blank spaces -> SLiteral.no_leading_blank t -> names_element t p e ->
    text_says (w ++ ":" ++ spaces ++ t) (Some (upper w)) p e.
(** The words there are; a text without a word means what one of the words does that say nothing for
    the kind of port. *)
Definition words : list string := ["ASYNC"; "SYNC"; "READ"; "WRITE"; "ARGUMENT"; "ARG"; "VALUE"; "VAL"; "SEND"; "ACCESS"; "SWITCH"].
Definition known (w : option string) : Prop := match w with None => True | Some s => In s words end.
Definition word_of (w : option string) (l : list string) : Prop := exists s, w = Some s /\ In s l.

(** ** Access points *)
Inductive data_kind := ReadAccess | ReceiveByArgument | ReceiveByValue | WriteAccess | SendPoint.
Inductive point :=
| DataPoint (k : data_kind) (a : VariableAccess)
| ModePoint (a : ModeAccessPoint)
| SwitchPoint (a : ModeSwitchPoint)
| ParameterPoint (a : ParameterAccess)
| CallPoint (a : ServerCallPointElement).
(** The kind of data access: READ and WRITE mean implicit access whatever the direction of the port,
    VALUE and VAL reception by value. *)
Definition data_kind_for (p : PortPrototypeElement) (w : option string) (k : data_kind) : Prop :=
  let implicit := word_of w ["READ"; "WRITE"] in
  match p with
  | PortPrototypeElement_R _ =>
      let by_value := word_of w ["VALUE"; "VAL"] in
      match k with
      | ReadAccess => implicit
      | ReceiveByValue => by_value
      | ReceiveByArgument => ~ implicit /\ ~ by_value
      | _ => False
      end
  | PortPrototypeElement_P _ => match k with WriteAccess => implicit | SendPoint => ~ implicit | _ => False end
  | PortPrototypeElement_PR _ => False
  end.
Definition data_prefix (k : data_kind) : string :=
  match k with
  | ReadAccess => "data_read_access_prefix"
  | ReceiveByArgument | ReceiveByValue => "data_receive_point_prefix"
  | WriteAccess => "data_write_access_prefix"
  | SendPoint => "data_send_point_prefix"
  end.
Definition data_interface (e : ARElement) (ds : list VariableDataPrototype) : Prop :=
  (exists i, e = AR_SenderReceiverInterface i /\ ds = SenderReceiverInterface_data_elements i) \/
  (exists i, e = AR_NvDataInterface i /\ ds = NvDataInterface_data_elements i).

(** ** Common attributes *)
Inductive means_text : arg -> string -> Prop :=
| text_str s : means_text (AStr s) s
| text_int z : means_text (ANum (NInt z)) (zstr z)
| text_true : means_text (ABool true) "True"
| text_false : means_text (ABool false) "False".
Inductive means_description : arg -> list lang_text -> Prop :=
| description_object l : means_description (AObj (OOverviewParagraph l)) l
| description_str s : means_description (AStr s) [mkLang Language_FOR_ALL [PText s]]
| description_pair g s : means_description (ATuple [AObj (OLanguage g); AStr s]) [mkLang g [PText s]].
Definition means_long_name a x := a = AObj (OLongName x).
Definition means_scope a x := a = AObj (OVariableAccessScope x).
Definition means_provision a x := a = AObj (ORteApiReturnValueProvision x).
Inductive means_props : arg -> SwDataDefProps -> Prop :=
| props_object e : means_props (AObj (OSwDataDefProps e)) e
| props_conditional e : means_props (AObj (OSwDataDefPropsConditional e)) (mkSwDataDefProps [e]).
(** A text, or a reference of that class or with that destination. *)
Inductive means_area : arg -> ref -> Prop :=
| area_text s : means_area (AStr s) (mkRef s IdentifiableSubTypes_EXCLUSIVE_AREA_NESTING_ORDER)
| area_ref c r : rf_dest r = IdentifiableSubTypes_EXCLUSIVE_AREA_NESTING_ORDER -> means_area (AObj (ORef c r)) r.
(** The name given, or the prefix of the settings, the port and the part joined with underscores. *)
Inductive has_name (s : settings) (setting port part : string) (kw : keyword_args) : string -> Prop :=
| named_given n : given "name" kw = Some (AStr n) -> has_name s setting port part kw n
| named_default prefix : given "name" kw = None -> assoc setting s = Some prefix -> has_name s setting port part kw (prefix ++ "_" ++ port ++ "_" ++ part).
(** Name, long name, description, category and UUID as given; nothing else (admin data is ignored). *)
Definition identity (name : string) (kw : keyword_args) (i : identifiable) : Prop :=
  id_name i = name /\ holds means_long_name kw "long_name" (id_long_name i) /\ holds means_description kw "desc" (id_desc i) /\
  holds means_text kw "category" (id_category i) /\ holds means_text kw "uuid" (id_uuid i) /\
  id_introduction i = None /\ id_admin_data i = None /\ id_annotations i = None.
Definition common : list string := ["name"; "desc"; "category"; "uuid"; "admin_data"; "long_name"].

Section Surroundings.
Context (pl : place) (self : list string) (ports : list PortPrototypeElement) (s : settings).
(** The access point for a text and a dict of further arguments. *)
Inductive grants : string -> keyword_args -> point -> Prop :=
| grants_data text w p o ns e ds d k kw v : text_says text w (port_name p) o -> known w -> In p ports ->
    leads_to (pl_packages pl) (port_interface_ref p) ns e -> data_interface e ds -> picks data_name ds o d -> data_kind_for p w k ->
    (exists name, has_name s (data_prefix k) (port_name p) (data_name d) kw name /\ identity name kw (VariableAccess_ident v)) ->
    VariableAccess_accessed_variable v = Some (mkAutosarVariableRef None
      (Some (mkVariableInAtomicSWCTypeInstanceRef (Some (ref_to_port self p)) None []
               (ref_inside ns (data_name d) IdentifiableSubTypes_VARIABLE_DATA_PROTOTYPE))) None) ->
    holds means_scope kw "scope" (VariableAccess_scope v) -> only ("scope" :: common) kw ->
    grants text kw (DataPoint k v)
| grants_mode text w p o ns i g kw group : text_says text w (port_name p) o -> known w -> In p ports ->
    leads_to (pl_packages pl) (port_interface_ref p) ns (AR_ModeSwitchInterface i) -> ModeSwitchInterface_mode_group i = Some g ->
    picks group_name [g] o g -> ~ word_of w ["ACCESS"; "SWITCH"] ->
    match p with
    | PortPrototypeElement_R _ => group = ModeGroup_R (mkRModeGroupInAtomicSwcInstanceRef (Some (ref_to_port self p)) (ref_to_group pl ns g))
    | PortPrototypeElement_P _ => group = ModeGroup_P (mkPModeGroupInAtomicSwcInstanceRef (Some (ref_to_port self p)) (ref_to_group pl ns g))
    | PortPrototypeElement_PR _ => False
    end ->
    grants text kw (ModePoint (mkModeAccessPoint None (Some group)))
| grants_mode_named text w p o ns i g kw group n : text_says text w (port_name p) o -> In p ports ->
    leads_to (pl_packages pl) (port_interface_ref p) ns (AR_ModeSwitchInterface i) -> ModeSwitchInterface_mode_group i = Some g ->
    picks group_name [g] o g -> w = Some "ACCESS" ->
    match p with
    | PortPrototypeElement_R _ => group = ModeGroup_R (mkRModeGroupInAtomicSwcInstanceRef (Some (ref_to_port self p)) (ref_to_group pl ns g))
    | PortPrototypeElement_P _ => group = ModeGroup_P (mkPModeGroupInAtomicSwcInstanceRef (Some (ref_to_port self p)) (ref_to_group pl ns g))
    | PortPrototypeElement_PR _ => False
    end ->
    (exists name, has_name s "mode_access_point_prefix" (port_name p) (group_name g) kw name /\ identity name kw (ModeAccessPointIdent_ident n)) ->
    holds means_provision kw "return_value_provision" (ModeAccessPointIdent_return_value_provision n) ->
    only ("return_value_provision" :: common) kw ->
    grants text kw (ModePoint (mkModeAccessPoint (Some n) (Some group)))
| grants_switch text w p o ns i g kw a : text_says text w (port_name (PortPrototypeElement_P p)) o -> In (PortPrototypeElement_P p) ports ->
    leads_to (pl_packages pl) (port_interface_ref (PortPrototypeElement_P p)) ns (AR_ModeSwitchInterface i) -> ModeSwitchInterface_mode_group i = Some g ->
    picks group_name [g] o g -> w = Some "SWITCH" ->
    (exists name, has_name s "mode_switch_point_prefix" (port_name (PortPrototypeElement_P p)) (group_name g) kw name /\ identity name kw (ModeSwitchPoint_ident a)) ->
    ModeSwitchPoint_mode_group a = Some (mkPModeGroupInAtomicSwcInstanceRef (Some (ref_to_port self (PortPrototypeElement_P p))) (ref_to_group pl ns g)) ->
    holds means_provision kw "return_value_provision" (ModeSwitchPoint_return_value_provision a) ->
    only ("return_value_provision" :: common) kw ->
    grants text kw (SwitchPoint a)
| grants_parameter text w p n ns i d kw a : text_says text w (port_name p) (Some n) -> known w -> In p ports ->
    leads_to (pl_packages pl) (port_interface_ref p) ns (AR_ParameterInterface i) ->
    In d (ParameterInterface_parameters i) -> parameter_name d = n ->
    (exists name, has_name s "parameter_access_prefix" (port_name p) n kw name /\ identity name kw (ParameterAccess_ident a)) ->
    ParameterAccess_accessed_parameter a = Some (mkAutosarParameterRef
      (Some (mkParameterInAtomicSwcTypeInstanceRef (Some (ref_to_port self p)) None None
               (ref_inside ns n IdentifiableSubTypes_PARAMETER_DATA_PROTOTYPE))) None) ->
    holds means_provision kw "return_value_provision" (ParameterAccess_return_value_provision a) ->
    holds means_props kw "sw_data_def_props" (ParameterAccess_sw_data_def_props a) ->
    only ("sw_data_def_props" :: "return_value_provision" :: common) kw ->
    grants text kw (ParameterPoint a)
| grants_async text w p o ns i d kw a : text_says text w (port_name p) o -> In p ports -> requires p ->
    leads_to (pl_packages pl) (port_interface_ref p) ns (AR_ClientServerInterface i) ->
    picks operation_name (ClientServerInterface_operations i) o d -> w = Some "ASYNC" ->
    (exists name, has_name s "server_call_point_prefix" (port_name p) (operation_name d) kw name /\ identity name kw (AsynchronousServerCallPoint_ident a)) ->
    AsynchronousServerCallPoint_operation a =
      Some (mkROperationInAtomicSwcInstanceRef (Some (ref_to_port self p)) (ref_inside ns (operation_name d) IdentifiableSubTypes_CLIENT_SERVER_OPERATION)) ->
    holds means_provision kw "return_value_provision" (AsynchronousServerCallPoint_return_value_provision a) ->
    holds means_float kw "timeout" (AsynchronousServerCallPoint_timeout a) ->
    only ("timeout" :: "return_value_provision" :: common) kw ->
    grants text kw (CallPoint (ServerCallPointElement_Async a))
| grants_sync text w p o ns i d kw a : text_says text w (port_name p) o -> known w -> In p ports -> requires p ->
    leads_to (pl_packages pl) (port_interface_ref p) ns (AR_ClientServerInterface i) ->
    picks operation_name (ClientServerInterface_operations i) o d -> w <> Some "ASYNC" ->
    (exists name, has_name s "server_call_point_prefix" (port_name p) (operation_name d) kw name /\ identity name kw (SynchronousServerCallPoint_ident a)) ->
    SynchronousServerCallPoint_operation a =
      Some (mkROperationInAtomicSwcInstanceRef (Some (ref_to_port self p)) (ref_inside ns (operation_name d) IdentifiableSubTypes_CLIENT_SERVER_OPERATION)) ->
    holds means_provision kw "return_value_provision" (SynchronousServerCallPoint_return_value_provision a) ->
    holds means_float kw "timeout" (SynchronousServerCallPoint_timeout a) ->
    holds means_area kw "called_from_within_exclusive_area" (SynchronousServerCallPoint_called_from_within_exclusive_area a) ->
    only ("operation" :: "timeout" :: "called_from_within_exclusive_area" :: "return_value_provision" :: common) kw ->
    grants text kw (CallPoint (ServerCallPointElement_Sync a)).
(** The text is accepted but grants nothing: a mode switch point for a require-port, any mode access
    for a PR-port, an operation of a provide-port. *)
Inductive grants_nothing : string -> Prop :=
| no_switch text w p o ns i g : text_says text w (port_name (PortPrototypeElement_R p)) o -> In (PortPrototypeElement_R p) ports ->
    leads_to (pl_packages pl) (port_interface_ref (PortPrototypeElement_R p)) ns (AR_ModeSwitchInterface i) -> ModeSwitchInterface_mode_group i = Some g ->
    picks group_name [g] o g -> w = Some "SWITCH" -> grants_nothing text
| no_mode text w p o ns i g : text_says text w (port_name (PortPrototypeElement_PR p)) o -> known w -> In (PortPrototypeElement_PR p) ports ->
    leads_to (pl_packages pl) (port_interface_ref (PortPrototypeElement_PR p)) ns (AR_ModeSwitchInterface i) -> ModeSwitchInterface_mode_group i = Some g ->
    picks group_name [g] o g -> grants_nothing text
| no_call text w p o ns i d : text_says text w (port_name (PortPrototypeElement_P p)) o -> known w -> In (PortPrototypeElement_P p) ports ->
    leads_to (pl_packages pl) (port_interface_ref (PortPrototypeElement_P p)) ns (AR_ClientServerInterface i) ->
    picks operation_name (ClientServerInterface_operations i) o d -> grants_nothing text.
End Surroundings.

(** ** The runnable afterwards *)
(** The same list, but the last element called [base], if there is one, is now called base_0. *)
Definition last_renamed {A} (name_of : A -> string) (rename : string -> A -> A) (base : string) (l l' : list A) : Prop :=
  (~ In base (map name_of l) /\ l' = l) \/
  exists x a y, l = x ++ a :: y /\ name_of a = base /\ ~ In base (map name_of y) /\ l' = x ++ rename (base ++ "_0")%string a :: y.
Definition added {A} (name_of : A -> string) (rename : string -> A -> A) (l : list A) (a : A) (l' : list A) : Prop :=
  exists olds, last_renamed name_of rename (name_of a) l olds /\ l' = olds ++ [a].
(** Everything that is no access point of these kinds. *)
Definition same_rest (r r' : RunnableEntity) : Prop :=
  RunnableEntity_ident r' = RunnableEntity_ident r /\
  RunnableEntity_activation_reasons r' = RunnableEntity_activation_reasons r /\
  RunnableEntity_can_enter_leave r' = RunnableEntity_can_enter_leave r /\
  RunnableEntity_exclusive_area_nesting_order r' = RunnableEntity_exclusive_area_nesting_order r /\
  RunnableEntity_minimum_start_interval r' = RunnableEntity_minimum_start_interval r /\
  RunnableEntity_reentrancy_level r' = RunnableEntity_reentrancy_level r /\
  RunnableEntity_runs_insides r' = RunnableEntity_runs_insides r /\
  RunnableEntity_sw_addr_method r' = RunnableEntity_sw_addr_method r /\
  RunnableEntity_argument r' = RunnableEntity_argument r /\
  RunnableEntity_async_server_call_result_point r' = RunnableEntity_async_server_call_result_point r /\
  RunnableEntity_can_be_invoked_concurrently r' = RunnableEntity_can_be_invoked_concurrently r /\
  RunnableEntity_external_triggering_point r' = RunnableEntity_external_triggering_point r /\
  RunnableEntity_internal_triggering_point r' = RunnableEntity_internal_triggering_point r /\
  RunnableEntity_read_local_variable r' = RunnableEntity_read_local_variable r /\
  RunnableEntity_symbol r' = RunnableEntity_symbol r /\
  RunnableEntity_wait_point r' = RunnableEntity_wait_point r /\
  RunnableEntity_write_local_variable r' = RunnableEntity_write_local_variable r.
(** The list of one kind: one more if the access point is of that kind. *)
Definition slot {A} (name_of : A -> string) (rename : string -> A -> A) (o : option A) (l l' : list A) : Prop :=
  match o with Some a => added name_of rename l a l' | None => l' = l end.
(** The runnable with one more access point in the list for it, all else unchanged. *)
Definition gains (r : RunnableEntity) (a : point) (r' : RunnableEntity) : Prop :=
  same_rest r r' /\
  slot variable_access_name rename_variable_access (match a with DataPoint ReadAccess a => Some a | _ => None end)
    (RunnableEntity_data_read_access r) (RunnableEntity_data_read_access r') /\
  slot variable_access_name rename_variable_access (match a with DataPoint ReceiveByArgument a => Some a | _ => None end)
    (RunnableEntity_data_receive_point_by_argument r) (RunnableEntity_data_receive_point_by_argument r') /\
  slot variable_access_name rename_variable_access (match a with DataPoint ReceiveByValue a => Some a | _ => None end)
    (RunnableEntity_data_receive_point_by_value r) (RunnableEntity_data_receive_point_by_value r') /\
  slot variable_access_name rename_variable_access (match a with DataPoint SendPoint a => Some a | _ => None end)
    (RunnableEntity_data_send_point r) (RunnableEntity_data_send_point r') /\
  slot variable_access_name rename_variable_access (match a with DataPoint WriteAccess a => Some a | _ => None end)
    (RunnableEntity_data_write_access r) (RunnableEntity_data_write_access r') /\
  slot mode_switch_point_name rename_mode_switch_point (match a with SwitchPoint a => Some a | _ => None end)
    (RunnableEntity_mode_switch_point r) (RunnableEntity_mode_switch_point r') /\
  slot parameter_access_name rename_parameter_access (match a with ParameterPoint a => Some a | _ => None end)
    (RunnableEntity_parameter_access r) (RunnableEntity_parameter_access r') /\
  slot server_call_point_name rename_server_call_point (match a with CallPoint a => Some a | _ => None end)
    (RunnableEntity_server_call_point r) (RunnableEntity_server_call_point r') /\
  RunnableEntity_mode_access_point r' = RunnableEntity_mode_access_point r ++ (match a with ModePoint a => [a] | _ => [] end).
(** The runnable with the access points of several texts, each with the dict the caller passed. *)
Definition dict (h : heap) (args : option nat) : keyword_args := match args with Some d => h d | None => [] end.
Inductive all_granted pl self ports s (h : heap) : list access_item -> RunnableEntity -> RunnableEntity -> Prop :=
| all_none r : all_granted pl self ports s h [] r r
| all_point text args a l r r1 r2 : grants pl self ports s text (dict h args) a -> gains r a r1 -> all_granted pl self ports s h l r1 r2 ->
    all_granted pl self ports s h (AccessItem text args :: l) r r2
| all_nothing text args l r r2 : grants_nothing pl ports text -> all_granted pl self ports s h l r r2 ->
    all_granted pl self ports s h (AccessItem text args :: l) r r2.
(** The dicts passed, one after the other. *)
Definition dicts (l : list access_item) : list nat :=
  flat_map (fun x => match x with AccessItem _ (Some d) => [d] | _ => [] end) l.

(** No two ports, and no two parts of one interface, share a name. *)
Definition part_names (e : ARElement) : list string :=
  match e with
  | AR_SenderReceiverInterface i => map data_name (SenderReceiverInterface_data_elements i)
  | AR_NvDataInterface i => map data_name (NvDataInterface_data_elements i)
  | AR_ParameterInterface i => map parameter_name (ParameterInterface_parameters i)
  | AR_ClientServerInterface i => map operation_name (ClientServerInterface_operations i)
  | _ => []
  end.
Definition distinct (w : owner) (pl : place) : Prop :=
  NoDup (map port_name (ow_ports w)) /\ forall ns e, at_path (pl_packages pl) ns (FElement e) -> NoDup (part_names e).

(** The number of access points. *)
Definition points (r : RunnableEntity) : nat :=
  (List.length (RunnableEntity_data_read_access r) + List.length (RunnableEntity_data_receive_point_by_argument r) +
   List.length (RunnableEntity_data_receive_point_by_value r) + List.length (RunnableEntity_data_send_point r) +
   List.length (RunnableEntity_data_write_access r) + List.length (RunnableEntity_mode_access_point r) +
   List.length (RunnableEntity_mode_switch_point r) + List.length (RunnableEntity_parameter_access r) +
   List.length (RunnableEntity_server_call_point r))%nat.
(** One access point after the other. *)
Inductive gains_all : RunnableEntity -> list point -> RunnableEntity -> Prop :=
| gains_none r : gains_all r [] r
| gains_more r a r1 l r2 : gains r a r1 -> gains_all r1 l r2 -> gains_all r (a :: l) r2.
(** Calls after one another, whatever their outcome, each with the dicts as the caller left them. *)
Definition calls_on (o : option owner) (r : RunnableEntity) (calls : list (heap * list access_item)) : RunnableEntity :=
  fold_left (fun r c => fst (fst (create_port_access o r (fst c) (snd c)))) calls r.
