(** Creating the access points of a runnable from texts that name ports and elements.
    Source: /repo/src/autosar/xml/element.py.  No proofs in this file.
    The runnable is a value; what it sees of its surroundings is passed as [owner] (MEvent.v).
    Dicts with further arguments are shared with the caller and are changed by the code: they live in
    a [heap] and are passed by their number.
    Simplification: access points have no identity. *)
From Verif Require Import Base MNames MWork MNum MXml MEnum MRefTab MRef MCodec MElem0 MElem1 MElemA MElemB MElemC MElem2 MElemD MElem3 MElem4 MElemE MElem5 MElemF MArxml MFind MValue MEvent MPort.

(** ** The lists of a runnable *)
(** The runnable with another list of one kind, element.py:6450-6489 *)
Definition set_data_read_access (r : RunnableEntity) (l : list VariableAccess) : RunnableEntity :=
  mkRunnableEntity (RunnableEntity_ident r) (RunnableEntity_activation_reasons r) (RunnableEntity_can_enter_leave r) (RunnableEntity_exclusive_area_nesting_order r) (RunnableEntity_minimum_start_interval r) (RunnableEntity_reentrancy_level r) (RunnableEntity_runs_insides r) (RunnableEntity_sw_addr_method r) (RunnableEntity_argument r) (RunnableEntity_async_server_call_result_point r) (RunnableEntity_can_be_invoked_concurrently r) l (RunnableEntity_data_receive_point_by_argument r) (RunnableEntity_data_receive_point_by_value r) (RunnableEntity_data_send_point r) (RunnableEntity_data_write_access r) (RunnableEntity_external_triggering_point r) (RunnableEntity_internal_triggering_point r) (RunnableEntity_mode_access_point r) (RunnableEntity_mode_switch_point r) (RunnableEntity_parameter_access r) (RunnableEntity_read_local_variable r) (RunnableEntity_server_call_point r) (RunnableEntity_symbol r) (RunnableEntity_wait_point r) (RunnableEntity_write_local_variable r).
Definition set_data_receive_point_by_argument (r : RunnableEntity) (l : list VariableAccess) : RunnableEntity :=
  mkRunnableEntity (RunnableEntity_ident r) (RunnableEntity_activation_reasons r) (RunnableEntity_can_enter_leave r) (RunnableEntity_exclusive_area_nesting_order r) (RunnableEntity_minimum_start_interval r) (RunnableEntity_reentrancy_level r) (RunnableEntity_runs_insides r) (RunnableEntity_sw_addr_method r) (RunnableEntity_argument r) (RunnableEntity_async_server_call_result_point r) (RunnableEntity_can_be_invoked_concurrently r) (RunnableEntity_data_read_access r) l (RunnableEntity_data_receive_point_by_value r) (RunnableEntity_data_send_point r) (RunnableEntity_data_write_access r) (RunnableEntity_external_triggering_point r) (RunnableEntity_internal_triggering_point r) (RunnableEntity_mode_access_point r) (RunnableEntity_mode_switch_point r) (RunnableEntity_parameter_access r) (RunnableEntity_read_local_variable r) (RunnableEntity_server_call_point r) (RunnableEntity_symbol r) (RunnableEntity_wait_point r) (RunnableEntity_write_local_variable r).
Definition set_data_receive_point_by_value (r : RunnableEntity) (l : list VariableAccess) : RunnableEntity :=
  mkRunnableEntity (RunnableEntity_ident r) (RunnableEntity_activation_reasons r) (RunnableEntity_can_enter_leave r) (RunnableEntity_exclusive_area_nesting_order r) (RunnableEntity_minimum_start_interval r) (RunnableEntity_reentrancy_level r) (RunnableEntity_runs_insides r) (RunnableEntity_sw_addr_method r) (RunnableEntity_argument r) (RunnableEntity_async_server_call_result_point r) (RunnableEntity_can_be_invoked_concurrently r) (RunnableEntity_data_read_access r) (RunnableEntity_data_receive_point_by_argument r) l (RunnableEntity_data_send_point r) (RunnableEntity_data_write_access r) (RunnableEntity_external_triggering_point r) (RunnableEntity_internal_triggering_point r) (RunnableEntity_mode_access_point r) (RunnableEntity_mode_switch_point r) (RunnableEntity_parameter_access r) (RunnableEntity_read_local_variable r) (RunnableEntity_server_call_point r) (RunnableEntity_symbol r) (RunnableEntity_wait_point r) (RunnableEntity_write_local_variable r).
Definition set_data_send_point (r : RunnableEntity) (l : list VariableAccess) : RunnableEntity :=
  mkRunnableEntity (RunnableEntity_ident r) (RunnableEntity_activation_reasons r) (RunnableEntity_can_enter_leave r) (RunnableEntity_exclusive_area_nesting_order r) (RunnableEntity_minimum_start_interval r) (RunnableEntity_reentrancy_level r) (RunnableEntity_runs_insides r) (RunnableEntity_sw_addr_method r) (RunnableEntity_argument r) (RunnableEntity_async_server_call_result_point r) (RunnableEntity_can_be_invoked_concurrently r) (RunnableEntity_data_read_access r) (RunnableEntity_data_receive_point_by_argument r) (RunnableEntity_data_receive_point_by_value r) l (RunnableEntity_data_write_access r) (RunnableEntity_external_triggering_point r) (RunnableEntity_internal_triggering_point r) (RunnableEntity_mode_access_point r) (RunnableEntity_mode_switch_point r) (RunnableEntity_parameter_access r) (RunnableEntity_read_local_variable r) (RunnableEntity_server_call_point r) (RunnableEntity_symbol r) (RunnableEntity_wait_point r) (RunnableEntity_write_local_variable r).
Definition set_data_write_access (r : RunnableEntity) (l : list VariableAccess) : RunnableEntity :=
  mkRunnableEntity (RunnableEntity_ident r) (RunnableEntity_activation_reasons r) (RunnableEntity_can_enter_leave r) (RunnableEntity_exclusive_area_nesting_order r) (RunnableEntity_minimum_start_interval r) (RunnableEntity_reentrancy_level r) (RunnableEntity_runs_insides r) (RunnableEntity_sw_addr_method r) (RunnableEntity_argument r) (RunnableEntity_async_server_call_result_point r) (RunnableEntity_can_be_invoked_concurrently r) (RunnableEntity_data_read_access r) (RunnableEntity_data_receive_point_by_argument r) (RunnableEntity_data_receive_point_by_value r) (RunnableEntity_data_send_point r) l (RunnableEntity_external_triggering_point r) (RunnableEntity_internal_triggering_point r) (RunnableEntity_mode_access_point r) (RunnableEntity_mode_switch_point r) (RunnableEntity_parameter_access r) (RunnableEntity_read_local_variable r) (RunnableEntity_server_call_point r) (RunnableEntity_symbol r) (RunnableEntity_wait_point r) (RunnableEntity_write_local_variable r).
Definition set_mode_access_point (r : RunnableEntity) (l : list ModeAccessPoint) : RunnableEntity :=
  mkRunnableEntity (RunnableEntity_ident r) (RunnableEntity_activation_reasons r) (RunnableEntity_can_enter_leave r) (RunnableEntity_exclusive_area_nesting_order r) (RunnableEntity_minimum_start_interval r) (RunnableEntity_reentrancy_level r) (RunnableEntity_runs_insides r) (RunnableEntity_sw_addr_method r) (RunnableEntity_argument r) (RunnableEntity_async_server_call_result_point r) (RunnableEntity_can_be_invoked_concurrently r) (RunnableEntity_data_read_access r) (RunnableEntity_data_receive_point_by_argument r) (RunnableEntity_data_receive_point_by_value r) (RunnableEntity_data_send_point r) (RunnableEntity_data_write_access r) (RunnableEntity_external_triggering_point r) (RunnableEntity_internal_triggering_point r) l (RunnableEntity_mode_switch_point r) (RunnableEntity_parameter_access r) (RunnableEntity_read_local_variable r) (RunnableEntity_server_call_point r) (RunnableEntity_symbol r) (RunnableEntity_wait_point r) (RunnableEntity_write_local_variable r).
Definition set_mode_switch_point (r : RunnableEntity) (l : list ModeSwitchPoint) : RunnableEntity :=
  mkRunnableEntity (RunnableEntity_ident r) (RunnableEntity_activation_reasons r) (RunnableEntity_can_enter_leave r) (RunnableEntity_exclusive_area_nesting_order r) (RunnableEntity_minimum_start_interval r) (RunnableEntity_reentrancy_level r) (RunnableEntity_runs_insides r) (RunnableEntity_sw_addr_method r) (RunnableEntity_argument r) (RunnableEntity_async_server_call_result_point r) (RunnableEntity_can_be_invoked_concurrently r) (RunnableEntity_data_read_access r) (RunnableEntity_data_receive_point_by_argument r) (RunnableEntity_data_receive_point_by_value r) (RunnableEntity_data_send_point r) (RunnableEntity_data_write_access r) (RunnableEntity_external_triggering_point r) (RunnableEntity_internal_triggering_point r) (RunnableEntity_mode_access_point r) l (RunnableEntity_parameter_access r) (RunnableEntity_read_local_variable r) (RunnableEntity_server_call_point r) (RunnableEntity_symbol r) (RunnableEntity_wait_point r) (RunnableEntity_write_local_variable r).
Definition set_parameter_access (r : RunnableEntity) (l : list ParameterAccess) : RunnableEntity :=
  mkRunnableEntity (RunnableEntity_ident r) (RunnableEntity_activation_reasons r) (RunnableEntity_can_enter_leave r) (RunnableEntity_exclusive_area_nesting_order r) (RunnableEntity_minimum_start_interval r) (RunnableEntity_reentrancy_level r) (RunnableEntity_runs_insides r) (RunnableEntity_sw_addr_method r) (RunnableEntity_argument r) (RunnableEntity_async_server_call_result_point r) (RunnableEntity_can_be_invoked_concurrently r) (RunnableEntity_data_read_access r) (RunnableEntity_data_receive_point_by_argument r) (RunnableEntity_data_receive_point_by_value r) (RunnableEntity_data_send_point r) (RunnableEntity_data_write_access r) (RunnableEntity_external_triggering_point r) (RunnableEntity_internal_triggering_point r) (RunnableEntity_mode_access_point r) (RunnableEntity_mode_switch_point r) l (RunnableEntity_read_local_variable r) (RunnableEntity_server_call_point r) (RunnableEntity_symbol r) (RunnableEntity_wait_point r) (RunnableEntity_write_local_variable r).
Definition set_server_call_point (r : RunnableEntity) (l : list ServerCallPointElement) : RunnableEntity :=
  mkRunnableEntity (RunnableEntity_ident r) (RunnableEntity_activation_reasons r) (RunnableEntity_can_enter_leave r) (RunnableEntity_exclusive_area_nesting_order r) (RunnableEntity_minimum_start_interval r) (RunnableEntity_reentrancy_level r) (RunnableEntity_runs_insides r) (RunnableEntity_sw_addr_method r) (RunnableEntity_argument r) (RunnableEntity_async_server_call_result_point r) (RunnableEntity_can_be_invoked_concurrently r) (RunnableEntity_data_read_access r) (RunnableEntity_data_receive_point_by_argument r) (RunnableEntity_data_receive_point_by_value r) (RunnableEntity_data_send_point r) (RunnableEntity_data_write_access r) (RunnableEntity_external_triggering_point r) (RunnableEntity_internal_triggering_point r) (RunnableEntity_mode_access_point r) (RunnableEntity_mode_switch_point r) (RunnableEntity_parameter_access r) (RunnableEntity_read_local_variable r) l (RunnableEntity_symbol r) (RunnableEntity_wait_point r) (RunnableEntity_write_local_variable r).
(** append_data_read_access, element.py:6957-6966 *)
Definition append_data_read_access (r : RunnableEntity) (e : VariableAccess) : RunnableEntity :=
  set_data_read_access r (append_named variable_access_name rename_variable_access (RunnableEntity_data_read_access r) e).
(** append_data_receive_point_by_argument, element.py:6968-6978 *)
Definition append_data_receive_point_by_argument (r : RunnableEntity) (e : VariableAccess) : RunnableEntity :=
  set_data_receive_point_by_argument r (append_named variable_access_name rename_variable_access (RunnableEntity_data_receive_point_by_argument r) e).
(** append_data_receive_point_by_value, element.py:6980-6990 *)
Definition append_data_receive_point_by_value (r : RunnableEntity) (e : VariableAccess) : RunnableEntity :=
  set_data_receive_point_by_value r (append_named variable_access_name rename_variable_access (RunnableEntity_data_receive_point_by_value r) e).
(** append_data_send_point, element.py:6992-7001 *)
Definition append_data_send_point (r : RunnableEntity) (e : VariableAccess) : RunnableEntity :=
  set_data_send_point r (append_named variable_access_name rename_variable_access (RunnableEntity_data_send_point r) e).
(** append_data_write_access, element.py:7003-7012 *)
Definition append_data_write_access (r : RunnableEntity) (e : VariableAccess) : RunnableEntity :=
  set_data_write_access r (append_named variable_access_name rename_variable_access (RunnableEntity_data_write_access r) e).
(** append_mode_access_point, element.py:7036-7045 *)
Definition append_mode_access_point (r : RunnableEntity) (e : ModeAccessPoint) : RunnableEntity :=
  set_mode_access_point r (RunnableEntity_mode_access_point r ++ [e]).
(** append_mode_switch_point, element.py:7047-7056 *)
Definition append_mode_switch_point (r : RunnableEntity) (e : ModeSwitchPoint) : RunnableEntity :=
  set_mode_switch_point r (append_named mode_switch_point_name rename_mode_switch_point (RunnableEntity_mode_switch_point r) e).
(** append_parameter_access, element.py:7058-7067 *)
Definition append_parameter_access (r : RunnableEntity) (e : ParameterAccess) : RunnableEntity :=
  set_parameter_access r (append_named parameter_access_name rename_parameter_access (RunnableEntity_parameter_access r) e).
(** append_server_call_point, element.py:7091-7101 *)
Definition append_server_call_point (r : RunnableEntity) (e : ServerCallPointElement) : RunnableEntity :=
  set_server_call_point r (append_named server_call_point_name rename_server_call_point (RunnableEntity_server_call_point r) e).

(** ** Constructors with further arguments *)
(** str(value), xml/base.py:140-141.  Simplification: the text of a float or an object is not modelled,
    TypeError stands for it. *)
Definition str_of_arg (a : arg) : result string :=
  match a with
  | AStr s => Ok s
  | ABool b => Ok (if b then "True" else "False")
  | ANum (NInt z) => Ok (zstr z)
  | _ => Err TypeError
  end.
(** desc, element.py:246-254; MultiLanguageOverviewParagraph.make, 737-743.  Simplification: the
    text of a pair is a str, the list of parts is not modelled. *)
Definition description (a : arg) : result (list lang_text) :=
  match a with
  | AObj (OOverviewParagraph l) => Ok l
  | AStr s => Ok [mkLang Language_FOR_ALL [PText s]]
  | ATuple [AObj (OLanguage g); AStr s] => Ok [mkLang g [PText s]]
  | _ => Err TypeError
  end.
(** The keyword parameters of Identifiable and MultiLanguageReferrable, element.py:213-215, 231-237 *)
Definition identifiable_keywords : list string := ["desc"; "category"; "uuid"; "admin_data"; "long_name"].
(** Identifiable.__init__, element.py:231-256, and MultiLanguageReferrable.__init__, 213-223; admin_data
    is not stored *)
Definition new_identifiable (name : string) (kw : keyword_args) : result identifiable :=
  let* long_name := optional (strict (fun o => match o with OLongName e => Some e | _ => None end)) (kwarg "long_name" kw) in
  let* desc := optional description (kwarg "desc" kw) in
  let* category := optional str_of_arg (kwarg "category" kw) in
  let* uuid := optional str_of_arg (kwarg "uuid" kw) in
  Ok (mkIdent name long_name desc category None None None uuid).
(** VariableInAtomicSWCTypeInstanceRef.__init__, element.py:5779-5804, as called by make_from_port,
    5869-5882, and AutosarVariableRef.__init__, 5824-5844 *)
Definition port_variable_ref (port data : option ref) : result AutosarVariableRef :=
  let* p := assign rc_PortPrototypeRef port rc_PortPrototypeRef in
  let* d := assign rc_VariableDataPrototypeRef data rc_DataPrototypeRef in
  Ok (mkAutosarVariableRef None (Some (mkVariableInAtomicSWCTypeInstanceRef p None [] d)) None).
(** VariableAccess.make_from_port_with_args, element.py:5885-5898, make_from_port, 5869-5882, and
    VariableAccess.__init__, 5853-5866 *)
Definition new_variable_access (name : string) (port data : option ref) (kw : keyword_args) : result VariableAccess :=
  let* _ := no_clash ["cls"; "self"; "port_prototype_ref"; "target_data_prototype_ref"; "accessed_variable"] kw in
  let* v := port_variable_ref port data in
  let* _ := check_keywords ("scope" :: identifiable_keywords) kw in
  let* i := new_identifiable name kw in
  let* scope := optional (strict (fun o => match o with OVariableAccessScope e => Some e | _ => None end)) (kwarg "scope" kw) in
  Ok (mkVariableAccess i (Some v) scope).
(** return_value_provision, element.py:6109 *)
Definition opt_return_value_provision := optional (strict (fun o => match o with ORteApiReturnValueProvision e => Some e | _ => None end)).
(** AbstractAccessPoint.__init__, element.py:6101-6109 *)
Definition new_access_point (name : string) (kw : keyword_args) : result (identifiable * option RteApiReturnValueProvision) :=
  let* i := new_identifiable name kw in
  let* p := opt_return_value_provision (kwarg "return_value_provision" kw) in
  Ok (i, p).
(** The keyword parameters of AbstractAccessPoint, element.py:6101-6104 *)
Definition access_point_keywords : list string := "return_value_provision" :: identifiable_keywords.
(** ModeAccessPointIdent.make_with_args, element.py:6246-6252 *)
Definition new_mode_access_ident (name : string) (kw : keyword_args) : result ModeAccessPointIdent :=
  let* _ := check_keywords access_point_keywords kw in
  let* (i, p) := new_access_point name kw in
  Ok (mkModeAccessPointIdent i p).
(** ModeSwitchPoint.__init__, element.py:6289-6298 *)
Definition new_mode_switch_point (name : string) (group : PModeGroupInAtomicSwcInstanceRef) (kw : keyword_args) : result ModeSwitchPoint :=
  let* _ := no_clash ["self"; "mode_group"] kw in
  let* _ := check_keywords access_point_keywords kw in
  let* (i, p) := new_access_point name kw in
  Ok (mkModeSwitchPoint i p (Some group)).
(** sw_data_def_props, element.py:6377-6383 *)
Definition props_of_arg (a : arg) : result SwDataDefProps :=
  match a with
  | AObj (OSwDataDefProps e) => Ok e
  | AObj (OSwDataDefPropsConditional e) => Ok (mkSwDataDefProps [e])
  | _ => Err TypeError
  end.
(** ParameterAccess.__init__, element.py:6363-6383, with AutosarParameterRef(autosar_parameter=...) *)
Definition new_parameter_access (name : string) (iref : ParameterInAtomicSwcTypeInstanceRef) (kw : keyword_args) : result ParameterAccess :=
  let* _ := no_clash ["self"; "accessed_parameter"] kw in
  let* _ := check_keywords ("sw_data_def_props" :: access_point_keywords) kw in
  let* (i, p) := new_access_point name kw in
  let* props := optional props_of_arg (kwarg "sw_data_def_props" kw) in
  Ok (mkParameterAccess i p (Some (mkAutosarParameterRef (Some iref) None)) props).
(** AsynchronousServerCallPoint(name, operation_iref, **args): ServerCallPoint.__init__, element.py:6117-6130 *)
Definition new_async_call_point (name : string) (operation : ROperationInAtomicSwcInstanceRef) (kw : keyword_args) : result AsynchronousServerCallPoint :=
  let* _ := no_clash ["self"; "operation"] kw in
  let* _ := check_keywords ("timeout" :: access_point_keywords) kw in
  let* (i, p) := new_access_point name kw in
  let* timeout := opt_float (kwarg "timeout" kw) in
  Ok (mkAsynchronousServerCallPoint i p (Some operation) timeout).
(** _assign_optional with ExclusiveAreaNestingOrderRef of any value, xml/base.py:48-64, 112-134 *)
Definition opt_nesting_order : arg -> result (option ref) :=
  optional (fun a => match a with
                     | AStr s => check_and_set_reference (RefStr s) rc_ExclusiveAreaNestingOrderRef
                     | AObj (ORef c r) => check_and_set_reference (RefObj c r) rc_ExclusiveAreaNestingOrderRef
                     | _ => Err TypeError
                     end).
(** SynchronousServerCallPoint.__init__, element.py:6180-6190; the operation is one of the keyword
    arguments *)
Definition new_sync_call_point (name : string) (kw : keyword_args) : result SynchronousServerCallPoint :=
  let* _ := check_keywords ("operation" :: "timeout" :: "called_from_within_exclusive_area" :: access_point_keywords) kw in
  let* (i, p) := new_access_point name kw in
  let* operation := optional (strict (fun o => match o with OROperationInAtomicSwcInstanceRef e => Some e | _ => None end)) (kwarg "operation" kw) in
  let* timeout := opt_float (kwarg "timeout" kw) in
  let* area := opt_nesting_order (kwarg "called_from_within_exclusive_area" kw) in
  Ok (mkSynchronousServerCallPoint i p operation timeout area).

(** ** Options *)
(** enum values: ar_enum.PortAccess, ReadResult, ModeAccess and CallPoint, xml/enumeration.py:81-88, 463-469, 540-556 *)
Inductive port_access := Explicit | Implicit.
Inductive read_result := ByArgument | ByValue.
Inductive mode_access := Access | Switch.
Inductive call_point := Async | Sync.
(** PortAccessOptions, element.py:6414-6422 *)
Record access_options := mkOptions {
  ao_access : port_access;
  ao_result : read_result;
  ao_mode : option mode_access;
  ao_call : call_point }.
Definition default_options := mkOptions Explicit ByArgument None Sync.
(** _parse_port_access_prefix on new options, element.py:6688-6711 *)
Definition parse_port_access_prefix (text : string) : result access_options :=
  let is := String.eqb text in
  if is "ASYNC" then Ok (mkOptions Explicit ByArgument None Async)
  else if is "SYNC" then Ok (mkOptions Explicit ByArgument None Sync)
  else if is "READ" || is "WRITE" then Ok (mkOptions Implicit ByArgument None Sync)
  else if is "ARGUMENT" || is "ARG" then Ok (mkOptions Explicit ByArgument None Sync)
  else if is "VALUE" || is "VAL" then Ok (mkOptions Explicit ByValue None Sync)
  else if is "SEND" then Ok (mkOptions Explicit ByArgument None Sync)
  else if is "ACCESS" then Ok (mkOptions Explicit ByArgument (Some Access) Sync)
  else if is "SWITCH" then Ok (mkOptions Explicit ByArgument (Some Switch) Sync)
  else Err ValueError.
(** ":" as a character *)
Definition colon : ascii := ":"%char.
(** text.partition(":"), the prefix, and the rest without leading white space, element.py:6673-6679 *)
Definition parse_access_text (text : string) : result (access_options * string) :=
  if mem_char colon text
  then let (prefix, rest) := partition_at colon text in
       let* o := parse_port_access_prefix (upper prefix) in Ok (o, lstrip rest)
  else Ok (default_options, text).

(** ** Dicts *)
(** The dicts of the caller *)
Definition heap := nat -> keyword_args.
Definition update (h : heap) (d : nat) (kw : keyword_args) : heap := fun e => if Nat.eqb e d then kw else h e.
(** del dict[key] *)
Definition without (k : string) (kw : keyword_args) : keyword_args := filter (fun x => negb (String.eqb (fst x) k)) kw.
(** if access_point_args is not None and "name" in access_point_args: name = ...; del ...,
    element.py:6760-6762, 6820-6822, 6875-6877, 6912-6914 *)
Definition take_name (h : heap) (args : option nat) : heap * option arg :=
  match args with
  | None => (h, None)
  | Some d => match assoc "name" (h d) with
              | None => (h, None)
              | Some a => (update h d (without "name" (h d)), Some a)
              end
  end.
(** The keyword arguments: none if there is no dict *)
Definition further (h : heap) (args : option nat) : keyword_args := match args with None => [] | Some d => h d end.
(** if name is None: name = "_".join([settings.get_value(...), port.name, element.name]).
    Simplification: TypeError for a name that is no str also for mode access points (the others raise
    it when the regular expression is made, element.py:316) *)
Definition point_name (s : settings) (setting port element : string) (given : option arg) : result string :=
  match given with
  | None | Some ANone => let* prefix := get_value s setting in Ok (join "_" [prefix; port; element])
  | Some (AStr n) => Ok n
  | Some _ => Err TypeError
  end.

(** ** Creating access points *)
(** The runnable and the dicts afterwards, and the outcome *)
Definition outcome : Type := RunnableEntity * heap * result unit.
(** A step that changes nothing *)
Definition step {A} (r : RunnableEntity) (h : heap) (x : result A) (k : A -> outcome) : outcome :=
  match x with Err e => (r, h, Err e) | Ok a => k a end.
(** The only element, or the last with the name: element.py:6748-6755, 6900-6907 *)
Definition pick_element {A} (name_of : A -> string) (l : list A) (name : string) : option A :=
  if String.eqb name "" then match l with [a] => Some a | _ => None end
  else first_named name_of name (rev l).
(** The value, RuntimeError if None: element.py:6756-6758, 6869-6871, 6908-6910 *)
Definition or_runtime_error {A} (x : option A) : result A := match x with Some a => Ok a | None => Err RuntimeError end.
(** The append call for a variable access: element.py:6763-6793; the setting with the name prefix *)
Definition data_point (p : PortPrototypeElement) (o : access_options) : result (string * (RunnableEntity -> VariableAccess -> RunnableEntity)) :=
  match p with
  | PortPrototypeElement_R _ =>
      match ao_access o with
      | Implicit => Ok ("data_read_access_prefix", append_data_read_access)
      | Explicit => Ok ("data_receive_point_prefix",
                        match ao_result o with ByValue => append_data_receive_point_by_value | ByArgument => append_data_receive_point_by_argument end)
      end
  | PortPrototypeElement_P _ =>
      match ao_access o with
      | Implicit => Ok ("data_write_access_prefix", append_data_write_access)
      | Explicit => Ok ("data_send_point_prefix", append_data_send_point)
      end
  | PortPrototypeElement_PR _ => Err TypeError
  end.
(** _create_data_based_port_access, element.py:6737-6793, for the data elements of the interface at
    [path] *)
Definition create_data_access (w : owner) (s : settings) (r : RunnableEntity) (h : heap) (p : PortPrototypeElement) (path : string)
    (ds : list VariableDataPrototype) (name : string) (o : access_options) (args : option nat) : outcome :=
  step r h (or_runtime_error (pick_element data_name ds name)) (fun d =>
  let (h, given) := take_name h args in
  step r h (let* (setting, append) := data_point p o in
            let* n := point_name s setting (port_name p) (data_name d) given in
            let* v := new_variable_access n (own_port_ref w p) (data_ref path d) (further h args) in
            Ok (append, v))
    (fun x => let (append, v) := x in (append r v, h, Ok tt))).
(** RModeGroupInAtomicSwcInstanceRef.__init__, element.py:5667-5677 *)
Definition new_r_mode_group (port group : option ref) : result RModeGroupInAtomicSwcInstanceRef :=
  let* c := assign rc_PortPrototypeRef port rc_AbstractRequiredPortPrototypeRef in
  let* t := assign rc_ModeDeclarationGroupPrototypeRef group rc_ModeDeclarationGroupPrototypeRef in
  Ok (mkRModeGroupInAtomicSwcInstanceRef c t).
(** PModeGroupInAtomicSwcInstanceRef.__init__, element.py:5584-5596 *)
Definition new_p_mode_group (port group : option ref) : result PModeGroupInAtomicSwcInstanceRef :=
  let* c := assign rc_PortPrototypeRef port rc_AbstractProvidedPortPrototypeRef in
  let* t := assign rc_ModeDeclarationGroupPrototypeRef group rc_ModeDeclarationGroupPrototypeRef in
  Ok (mkPModeGroupInAtomicSwcInstanceRef c t).
(** mode_group, element.py:6809-6817: AttributeError if the interface has none but a name is given *)
Definition pick_group (i : ModeSwitchInterface) (name : string) : result ModeDeclarationGroupPrototype :=
  match ModeSwitchInterface_mode_group i with
  | None => Err (if String.eqb name "" then RuntimeError else AttributeError)
  | Some g => if String.eqb name "" || String.eqb name (group_name g) then Ok g else Err RuntimeError
  end.
(** A mode access point, with an identity if asked for, element.py:6825-6831, 6834-6840 *)
Definition new_mode_access (s : settings) (p : PortPrototypeElement) (g : ModeDeclarationGroupPrototype) (group : ModeGroupInAtomicSwcInstanceRef)
    (m : option mode_access) (given : option arg) (kw : keyword_args) : result ModeAccessPoint :=
  match m with
  | None => Ok (mkModeAccessPoint None (Some group))
  | Some _ => let* n := point_name s "mode_access_point_prefix" (port_name p) (group_name g) given in
              let* i := new_mode_access_ident n kw in
              Ok (mkModeAccessPoint (Some i) (Some group))
  end.
(** _create_mode_based_port_access, element.py:6795-6850: a PR-port, and a mode switch point for a
    require-port, give nothing *)
Definition create_mode_access (w : owner) (pl : place) (s : settings) (r : RunnableEntity) (h : heap) (p : PortPrototypeElement) (path : string)
    (i : ModeSwitchInterface) (name : string) (o : access_options) (args : option nat) : outcome :=
  step r h (pick_group i name) (fun g =>
  let (h, given) := take_name h args in
  match p with
  | PortPrototypeElement_R _ =>
      step r h (new_r_mode_group (own_port_ref w p) (group_ref pl path g)) (fun iref =>
      match ao_mode o with
      | Some Switch => (r, h, Ok tt)
      | m => step r h (new_mode_access s p g (ModeGroup_R iref) m given (further h args)) (fun a => (append_mode_access_point r a, h, Ok tt))
      end)
  | PortPrototypeElement_P _ =>
      step r h (new_p_mode_group (own_port_ref w p) (group_ref pl path g)) (fun iref =>
      match ao_mode o with
      | Some Switch =>
          step r h (let* n := point_name s "mode_switch_point_prefix" (port_name p) (group_name g) given in new_mode_switch_point n iref (further h args))
            (fun a => (append_mode_switch_point r a, h, Ok tt))
      | m => step r h (new_mode_access s p g (ModeGroup_P iref) m given (further h args)) (fun a => (append_mode_access_point r a, h, Ok tt))
      end)
  | PortPrototypeElement_PR _ => (r, h, Ok tt)
  end).
(** parameter.name, element.py:182, and ParameterDataPrototype.ref, 2087-2093 *)
Definition parameter_name (d : ParameterDataPrototype) : string := id_name (ParameterDataPrototype_ident d).
Definition parameter_ref (path : string) (d : ParameterDataPrototype) : option ref :=
  Some (mkRef (below path (parameter_name d)) IdentifiableSubTypes_PARAMETER_DATA_PROTOTYPE).
(** target_data, element.py:6861-6871: port_interface.parameter does not exist *)
Definition pick_parameter (l : list ParameterDataPrototype) (name : string) : result ParameterDataPrototype :=
  if String.eqb name "" then match l with [_] => Err AttributeError | _ => Err RuntimeError end
  else or_runtime_error (first_named parameter_name name (rev l)).
(** ParameterInAtomicSwcTypeInstanceRef.__init__, element.py:6315-6335 *)
Definition new_parameter_iref (port data : option ref) : result ParameterInAtomicSwcTypeInstanceRef :=
  let* p := assign rc_PortPrototypeRef port rc_PortPrototypeRef in
  let* d := assign rc_ParameterDataPrototypeRef data rc_DataPrototypeRef in
  Ok (mkParameterInAtomicSwcTypeInstanceRef p None None d).
(** _create_parameter_port_access, element.py:6852-6888 *)
Definition create_parameter_access (w : owner) (s : settings) (r : RunnableEntity) (h : heap) (p : PortPrototypeElement) (path : string)
    (ds : list ParameterDataPrototype) (name : string) (args : option nat) : outcome :=
  step r h (let* d := pick_parameter ds name in
            let* iref := new_parameter_iref (own_port_ref w p) (parameter_ref path d) in
            Ok (d, iref)) (fun x => let (d, iref) := x in
  let (h, given) := take_name h args in
  step r h (let* n := point_name s "parameter_access_prefix" (port_name p) (parameter_name d) given in new_parameter_access n iref (further h args))
    (fun a => (append_parameter_access r a, h, Ok tt))).
(** ROperationInAtomicSwcInstanceRef.__init__, element.py:5625-5634 *)
Definition new_r_operation (port operation : option ref) : result ROperationInAtomicSwcInstanceRef :=
  let* c := assign rc_PortPrototypeRef port rc_AbstractRequiredPortPrototypeRef in
  let* t := assign rc_ClientServerOperationRef operation rc_ClientServerOperationRef in
  Ok (mkROperationInAtomicSwcInstanceRef c t).
(** access_point_args["operation"] = operation_iref, element.py:6924 *)
Definition put_operation (h : heap) (args : option nat) (iref : ROperationInAtomicSwcInstanceRef) : heap :=
  match args with
  | None => h
  | Some d => update h d (assoc_set "operation" (AObj (OROperationInAtomicSwcInstanceRef iref)) (h d))
  end.
(** _create_client_server_port_access, element.py:6890-6932: a provide-port gives nothing *)
Definition create_call_access (w : owner) (s : settings) (r : RunnableEntity) (h : heap) (p : PortPrototypeElement) (path : string)
    (ds : list ClientServerOperation) (name : string) (o : access_options) (args : option nat) : outcome :=
  step r h (or_runtime_error (pick_element operation_name ds name)) (fun d =>
  let (h, given) := take_name h args in
  match p with
  | PortPrototypeElement_P _ => (r, h, Ok tt)
  | _ =>
      step r h (let* n := point_name s "server_call_point_prefix" (port_name p) (operation_name d) given in
                let* iref := new_r_operation (own_port_ref w p) (operation_ref path d) in
                Ok (n, iref)) (fun x => let (n, iref) := x in
      match ao_call o with
      | Async => step r h (new_async_call_point n iref (further h args)) (fun a => (append_server_call_point r (ServerCallPointElement_Async a), h, Ok tt))
      | Sync =>
          let h := put_operation h args iref in
          let kw := match args with None => [("operation", AObj (OROperationInAtomicSwcInstanceRef iref))] | Some d => h d end in
          step r h (new_sync_call_point n kw) (fun a => (append_server_call_point r (ServerCallPointElement_Sync a), h, Ok tt))
      end)
  end).
(** _create_port_access_internal, element.py:6713-6735; what is found may be of any class *)
Definition create_access (w : owner) (pl : place) (s : settings) (r : RunnableEntity) (h : heap) (p : PortPrototypeElement) (path : string) (f : found)
    (name : string) (o : access_options) (args : option nat) : outcome :=
  match f with
  | FElement (AR_SenderReceiverInterface i) => create_data_access w s r h p path (SenderReceiverInterface_data_elements i) name o args
  | FElement (AR_NvDataInterface i) => create_data_access w s r h p path (NvDataInterface_data_elements i) name o args
  | FElement (AR_ModeSwitchInterface i) => create_mode_access w pl s r h p path i name o args
  | FElement (AR_ParameterInterface i) => create_parameter_access w s r h p path (ParameterInterface_parameters i) name args
  | FElement (AR_ClientServerInterface i) => create_call_access w s r h p path (ClientServerInterface_operations i) name o args
  | _ => (r, h, Err NotImplementedError)
  end.
(** An element of the argument: a text, or a tuple of a text and a dict or None; anything else raises
    the given exception *)
Inductive access_item := AccessItem (text : string) (args : option nat) | BadItem (x : exn).
(** The body of the loop of create_port_access, element.py:6668-6686; get_port_interface, 3098-3105 *)
Definition create_item (w : owner) (pl : place) (s : settings) (r : RunnableEntity) (h : heap) (x : access_item) : outcome :=
  match x with
  | BadItem x => (r, h, Err x)
  | AccessItem text args =>
      step r h (let* (o, port_arg) := parse_access_text text in
                let (port, name) := partition_slash port_arg in
                let* p := or_value_error (first_named port_name port (ow_ports w)) in
                let* (path, f) := get_interface pl p in
                Ok (o, name, p, path, f)) (fun y => let '(o, name, p, path, f) := y in
      create_access w pl s r h p path f name o args)
  end.
(** The loop: what was created before an exception stays *)
Fixpoint create_items (w : owner) (pl : place) (s : settings) (r : RunnableEntity) (h : heap) (l : list access_item) : outcome :=
  match l with
  | [] => (r, h, Ok tt)
  | x :: l => match create_item w pl s r h x with
              | (r, h, Ok _) => create_items w pl s r h l
              | (r, h, Err e) => (r, h, Err e)
              end
  end.
(** create_port_access, element.py:6615-6686; get_valid_parent, 7114-7120: RuntimeError for a runnable
    outside of a behavior or a behavior outside of a component ([None]).  One str or tuple is a list
    of one.  Simplification: the argument is iterable. *)
Definition create_port_access (o : option owner) (r : RunnableEntity) (h : heap) (l : list access_item) : outcome :=
  match o with
  | None => (r, h, Err RuntimeError)
  | Some w =>
      match ow_place w with
      | None => (r, h, Err ValueError)
      | Some pl => match pl_settings pl with
                   | None => (r, h, Err ValueError)
                   | Some s => create_items w pl s r h l
                   end
      end
  end.
