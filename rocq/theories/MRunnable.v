(** Creating the internal behavior of a component, its exclusive areas and its runnables.
    Source: /repo/src/autosar/xml/element.py and xml/base.py.  No proofs in this file.
    The behavior is a value; what it sees of its surroundings is passed as [owner] (MEvent.v).
    Simplifications: objects have no identity, the objects of a list are different objects; names are
    str. *)
From Verif Require Import Base MNames MNum MXml MEnum MRefTab MRef MCodec MElem0 MElem1 MElemA MElemB MElemC MElem2 MElemD MElem3 MElem4 MElemE MElem5 MElemF MArxml MFind MValue MEvent MPort MAccess.

(** ** Arguments that are one object or several *)
(** isinstance(a, Iterable), and what iterating yields: the keys of a dict, the characters of a str;
    SwDataDefProps.__iter__, element.py:1825-1829 *)
Definition iterable (a : arg) : option (list arg) :=
  match a with
  | AList l | ATuple l => Some l
  | ADict l => Some (map (fun x => AStr (fst x)) l)
  | AStr s => Some (map (fun c => AStr (String c "")) (list_ascii_of_string s))
  | AObj (OSwDataDefProps p) => Some (map (fun e => AObj (OSwDataDefPropsConditional e)) (SwDataDefProps_variants p))
  | _ => None
  end.
(** if a is not None: if isinstance(a, Iterable): for elem in a: append(elem) else: append(a), where
    append has a type check; element.py:6496-6605 and alike *)
Definition objects {A} (pick : lib_object -> option A) (a : arg) : result (list A) :=
  match a with
  | ANone => Ok []
  | _ => mapM (strict pick) match iterable a with Some l => l | None => [a] end
  end.
(** if a is not None: if isinstance(a, list): for elem in a: append(elem) else: append(a);
    element.py:6014-6025, 6034-6039 *)
Definition one_or_list {A} (convert : arg -> result A) (a : arg) : result (list A) :=
  match a with
  | ANone => Ok []
  | AList l => mapM convert l
  | _ => let* x := convert a in Ok [x]
  end.
(** isinstance(a, <reference class>) *)
Definition as_ref (c : ref_class) (a : arg) : option ref :=
  match a with
  | AObj (ORef c' r) => if String.eqb (rc_name c') (rc_name c) then Some r else None
  | _ => None
  end.
(** _assign_optional with a reference class of any value, xml/base.py:48-64, 112-134 *)
Definition opt_ref (c : ref_class) : arg -> result (option ref) :=
  optional (fun a => match a with
                     | AStr s => check_and_set_reference (RefStr s) c
                     | AObj (ORef c' r) => check_and_set_reference (RefObj c' r) c
                     | _ => Err TypeError
                     end).
(** _assign_optional_strict with str, xml/base.py:88-110 *)
Definition opt_text_strict : arg -> result (option string) :=
  optional (fun a => match a with AStr s => Ok s | _ => Err TypeError end).

(** ** ExecutableEntity *)
(** append_can_enter_leave and append_runs_insides, element.py:6051-6060, 6071-6080;
    ExclusiveAreaRefConditional.__init__, 5962-5965 *)
Definition exclusive_area (a : arg) : result ExclusiveAreaRefConditional :=
  match a with
  | AObj (OExclusiveAreaRefConditional e) => Ok e
  | AStr s => let* r := check_and_set_reference (RefStr s) rc_ExclusiveAreaRef in Ok (mkExclusiveAreaRefConditional (Some r))
  | _ => match as_ref rc_ExclusiveAreaRef a with
         | Some r => let* r := check_and_set_reference (RefObj rc_ExclusiveAreaRef r) rc_ExclusiveAreaRef in
                     Ok (mkExclusiveAreaRefConditional (Some r))
         | None => Err TypeError
         end
  end.
(** exclusive_area_nesting_order, element.py:6026-6031, 6062-6069: anything but a reference or a list
    is ignored *)
Definition nesting_orders (a : arg) : result (list ref) :=
  match as_ref rc_ExclusiveAreaNestingOrderRef a with
  | Some r => Ok [r]
  | None => match a with
            | AList l => mapM (fun x => match as_ref rc_ExclusiveAreaNestingOrderRef x with Some r => Ok r | None => Err TypeError end) l
            | _ => Ok []
            end
  end.

(** ** RunnableEntity *)
(** The keyword parameters of ExecutableEntity and RunnableEntity, element.py:5993-6002, 6431-6452 *)
Definition runnable_keywords : list string :=
  ["argument"; "async_server_call_result_point"; "can_be_invoked_concurrently"; "data_read_access"; "data_receive_point_by_argument";
   "data_receive_point_by_value"; "data_send_point"; "data_write_access"; "external_triggering_point"; "internal_triggering_point";
   "mode_access_point"; "mode_switch_point"; "parameter_access"; "read_local_variable"; "write_local_variable"; "server_call_point";
   "wait_point"; "symbol"; "activation_reasons"; "can_enter_leave"; "exclusive_area_nesting_order"; "minimum_start_interval";
   "reentrancy_level"; "runs_insides"; "sw_addr_method"] ++ identifiable_keywords.
(** The lists of variable accesses, element.py:6957-7012, 7069-7089 *)
Definition variable_accesses (a : arg) : result (list VariableAccess) :=
  let* l := objects (fun o => match o with OVariableAccess e => Some e | _ => None end) a in Ok (append_variable_accesses l).
(** append_async_server_call_result_point, element.py:6943-6955 *)
Definition result_points (a : arg) : result (list AsynchronousServerCallResultPoint) :=
  let* l := objects (fun o => match o with OAsynchronousServerCallResultPoint e => Some e | _ => None end) a in
  Ok (append_each result_point_name rename_result_point l).
(** append_internal_triggering_point, element.py:7025-7034 *)
Definition internal_triggering_points (a : arg) : result (list InternalTriggeringPoint) :=
  let* l := objects (fun o => match o with OInternalTriggeringPoint e => Some e | _ => None end) a in
  Ok (append_each triggering_point_name rename_triggering_point l).
(** append_mode_switch_point, element.py:7047-7056 *)
Definition mode_switch_points (a : arg) : result (list ModeSwitchPoint) :=
  let* l := objects (fun o => match o with OModeSwitchPoint e => Some e | _ => None end) a in
  Ok (append_each mode_switch_point_name rename_mode_switch_point l).
(** append_parameter_access, element.py:7058-7067 *)
Definition parameter_accesses (a : arg) : result (list ParameterAccess) :=
  let* l := objects (fun o => match o with OParameterAccess e => Some e | _ => None end) a in
  Ok (append_each parameter_access_name rename_parameter_access l).
(** append_server_call_point, element.py:7091-7101 *)
Definition server_call_points (a : arg) : result (list ServerCallPointElement) :=
  let* l := objects (fun o => match o with OServerCallPoint e => Some e | _ => None end) a in
  Ok (append_each server_call_point_name rename_server_call_point l).
(** append_wait_point, element.py:7103-7112 *)
Definition wait_points (a : arg) : result (list WaitPoint) :=
  let* l := objects (fun o => match o with OWaitPoint e => Some e | _ => None end) a in
  Ok (append_each wait_point_name rename_wait_point l).
(** RunnableEntity(name, **kw): RunnableEntity.__init__, element.py:6431-6605, append_argument,
    6934-6941, append_external_triggering_point, 7014-7023, append_mode_access_point, 7036-7045;
    ExecutableEntity.__init__, 5993-6040, append_activation_reason, 6042-6049 *)
Definition new_runnable (name : string) (kw : keyword_args) : result RunnableEntity :=
  let* _ := check_keywords runnable_keywords kw in
  let arg k := kwarg k kw in
  let* ident := new_identifiable name kw in
  let* activation_reasons := one_or_list (strict (fun o => match o with OExecutableEntityActivationReason e => Some e | _ => None end)) (arg "activation_reasons") in
  let* can_enter_leave := one_or_list exclusive_area (arg "can_enter_leave") in
  let* nesting := nesting_orders (arg "exclusive_area_nesting_order") in
  let* minimum_start_interval := opt_float (arg "minimum_start_interval") in
  let* reentrancy_level := optional (strict (fun o => match o with OReentrancyLevel e => Some e | _ => None end)) (arg "reentrancy_level") in
  let* runs_insides := one_or_list exclusive_area (arg "runs_insides") in
  let* sw_addr_method := opt_ref rc_SwAddrMethodRef (arg "sw_addr_method") in
  let* concurrently := opt_bool (arg "can_be_invoked_concurrently") in
  let* symbol := opt_text_strict (arg "symbol") in
  let* argument := objects (fun o => match o with ORunnableEntityArgument e => Some e | _ => None end) (arg "argument") in
  let* result_point := result_points (arg "async_server_call_result_point") in
  let* read := variable_accesses (arg "data_read_access") in
  let* by_argument := variable_accesses (arg "data_receive_point_by_argument") in
  let* by_value := variable_accesses (arg "data_receive_point_by_value") in
  let* send := variable_accesses (arg "data_send_point") in
  let* write := variable_accesses (arg "data_write_access") in
  let* external := objects (fun o => match o with OExternalTriggeringPoint e => Some e | _ => None end) (arg "external_triggering_point") in
  let* internal := internal_triggering_points (arg "internal_triggering_point") in
  let* mode_access := objects (fun o => match o with OModeAccessPoint e => Some e | _ => None end) (arg "mode_access_point") in
  let* mode_switch := mode_switch_points (arg "mode_switch_point") in
  let* parameter := parameter_accesses (arg "parameter_access") in
  let* read_local := variable_accesses (arg "read_local_variable") in
  let* write_local := variable_accesses (arg "write_local_variable") in
  let* server_call := server_call_points (arg "server_call_point") in
  let* wait := wait_points (arg "wait_point") in
  Ok (mkRunnableEntity ident activation_reasons can_enter_leave nesting minimum_start_interval reentrancy_level runs_insides sw_addr_method
        argument result_point concurrently read by_argument by_value send write external internal mode_access mode_switch parameter
        read_local server_call symbol wait write_local).

(** ** The behavior *)
(** append_runnable, element.py:7958-7966 *)
Definition append_runnable (b : SwcInternalBehavior) (r : RunnableEntity) : SwcInternalBehavior :=
  mkSwcInternalBehavior (SwcInternalBehavior_ident b) (SwcInternalBehavior_data_type_mappings b) (SwcInternalBehavior_exclusive_areas b)
    (SwcInternalBehavior_events b) (SwcInternalBehavior_port_api_options b) (SwcInternalBehavior_runnables b ++ [r]).
(** append_exclusive_area, element.py:7861-7869 *)
Definition append_exclusive_area (b : SwcInternalBehavior) (e : ExclusiveArea) : SwcInternalBehavior :=
  mkSwcInternalBehavior (SwcInternalBehavior_ident b) (SwcInternalBehavior_data_type_mappings b) (SwcInternalBehavior_exclusive_areas b ++ [e])
    (SwcInternalBehavior_events b) (SwcInternalBehavior_port_api_options b) (SwcInternalBehavior_runnables b).
(** create_exclusive_area, element.py:7842-7850 *)
Definition create_exclusive_area (b : SwcInternalBehavior) (name : string) (kw : keyword_args) : SwcInternalBehavior * result ExclusiveArea :=
  match (let* _ := check_keywords identifiable_keywords kw in new_identifiable name kw) with
  | Err e => (b, Err e)
  | Ok i => (append_exclusive_area b (mkExclusiveArea i), Ok (mkExclusiveArea i))
  end.
(** area.name, element.py:182 *)
Definition area_name (a : ExclusiveArea) : string := id_name (ExclusiveArea_ident a).
(** ExclusiveArea.ref for an area of the behavior, element.py:7797-7803 *)
Definition area_ref (o : option owner) (b : SwcInternalBehavior) (a : ExclusiveArea) : option ref :=
  option_map (fun p => mkRef (below (below p (id_name (SwcInternalBehavior_ident b))) (area_name a)) IdentifiableSubTypes_EXCLUSIVE_AREA) (owner_path o).
(** The keys of the dict names, element.py:8015-8021.  The order, and repeated names, only matter for
    the text of the exception. *)
Definition texts (a : arg) : list string :=
  let text x := match x with AStr s => [s] | _ => [] end in
  match a with
  | AStr s => [s]
  | _ => match iterable a with Some l => flat_map text l | None => [] end
  end.
(** The argument can_enter_leave for the constructor, element.py:8014-8033 *)
Definition named_areas (o : option owner) (b : SwcInternalBehavior) (a : arg) : result arg :=
  match texts a with
  | [] => Ok a
  | names =>
      let areas := filter (fun x => existsb (String.eqb (area_name x)) names) (SwcInternalBehavior_exclusive_areas b) in
      if forallb (fun n => existsb (String.eqb n) (map area_name areas)) names
      then Ok (AList (map (fun x => match area_ref o b x with Some r => AObj (ORef rc_ExclusiveAreaRef r) | None => ANone end) areas))
      else Err ValueError
  end.
(** The argument symbol for the constructor, element.py:7993, 8012-8013 *)
Definition default_symbol (name : string) (kw : keyword_args) : arg :=
  match assoc "symbol" kw with
  | None | Some (AStr "") => AStr name
  | Some a => a
  end.
(** create_runnable, element.py:7989-8049; kw are all arguments but the name *)
Definition create_runnable (o : option owner) (b : SwcInternalBehavior) (name : string) (kw : keyword_args) : SwcInternalBehavior * result RunnableEntity :=
  match (let* _ := no_clash ["self"; "name"] kw in
         let* areas := named_areas o b (kwarg "can_enter_leave" kw) in
         new_runnable name (assoc_set "can_enter_leave" areas (assoc_set "symbol" (default_symbol name kw) kw))) with
  | Err e => (b, Err e)
  | Ok r => (append_runnable b r, Ok r)
  end.

(** ** The component *)
(** data_type_mappings, element.py:7827-7834, 7852-7859 *)
Definition mapping_sets (a : arg) : result (list ref) :=
  let one x := match as_ref rc_DataTypeMappingSetRef x with Some r => Ok r | None => Err TypeError end in
  match a with
  | ANone => Ok []
  | AStr s => let* r := ref_new rc_DataTypeMappingSetRef s None in Ok [r]
  | _ => mapM one match iterable a with Some l => l | None => [a] end
  end.
(** SwcInternalBehavior(name, **kw): SwcInternalBehavior.__init__, element.py:7883-7930, and
    InternalBehavior.__init__, 7811-7840 *)
Definition new_behavior (name : string) (kw : keyword_args) : result SwcInternalBehavior :=
  let* _ := check_keywords (["events"; "runnables"; "port_api_options"; "data_type_mappings"; "exclusive_areas"] ++ identifiable_keywords) kw in
  let* ident := new_identifiable name kw in
  let* mappings := mapping_sets (kwarg "data_type_mappings" kw) in
  let* areas := objects (fun o => match o with OExclusiveArea e => Some e | _ => None end) (kwarg "exclusive_areas" kw) in
  let* events := objects (fun o => match o with ORteEvent e => Some e | _ => None end) (kwarg "events" kw) in
  let* runnables := objects (fun o => match o with ORunnableEntity e => Some e | _ => None end) (kwarg "runnables" kw) in
  let* options := objects (fun o => match o with OPortApiOption e => Some e | _ => None end) (kwarg "port_api_options" kw) in
  Ok (mkSwcInternalBehavior ident mappings areas events (fold_left append_port_api_option options []) runnables).
(** internal_behavior.setter, element.py:5161-5168 *)
Definition set_internal_behavior (c : ApplicationSoftwareComponentType) (b : SwcInternalBehavior) : ApplicationSoftwareComponentType :=
  mkApplicationSoftwareComponentType (ApplicationSoftwareComponentType_ident c) (ApplicationSoftwareComponentType_ports c)
    (Some b) (ApplicationSoftwareComponentType_symbol_props c).
(** create_internal_behavior, element.py:5170-5182 *)
Definition create_internal_behavior (c : ApplicationSoftwareComponentType) (name : option string) (kw : keyword_args)
  : ApplicationSoftwareComponentType * result SwcInternalBehavior :=
  let n := match name with None => String.append (id_name (ApplicationSoftwareComponentType_ident c)) "_InternalBehavior" | Some n => n end in
  match (let* _ := no_clash ["self"; "name"] kw in new_behavior n kw) with
  | Err e => (c, Err e)
  | Ok b => (set_internal_behavior c b, Ok b)
  end.
