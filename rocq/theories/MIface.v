(** Creating port interfaces, their parts, and mode declaration groups.
    Source: /repo/src/autosar/xml/element.py.  No proofs in this file.
    Positional arguments other than the name are passed as keywords.  Interfaces are values; functions
    that change one return it beside the outcome, together with what ref() of the new part returns.
    [path] is the reference string of the object the part is created in, None outside of a package.
    Simplification: parts have no identity, so a part that is given to two interfaces is in both. *)
From Verif Require Import Base MNum MXml MEnum MRefTab MRef MCodec MElem0 MElem1 MElemA MElemB MElemC MElem2 MElemD MElem3 MElem4 MElemE MElem5 MElemF MArxml MFind MValue MEvent MPort MAccess MRunnable.
Open Scope list_scope.

(** ** Attribute values *)
(** _assign_optional_strict with bool, xml/base.py:88-110 *)
Definition opt_bool_strict : arg -> result (option bool) :=
  optional (fun a => match a with ABool b => Ok b | _ => Err TypeError end).
(** _assign_optional_strict with int, xml/base.py:88-110.  Simplification: a bool is stored as the int it
    equals. *)
Definition opt_int_strict : arg -> result (option Z) :=
  optional (fun a => match a with ABool b => Ok (if b then 1 else 0)%Z | ANum (NInt z) => Ok z | _ => Err TypeError end).
(** isinstance(value, <class>) for the classes that occur here, xml/base.py:102-110, element.py:3206, 3242,
    3267, 3418, 3429, 3505, 3562, 3671, 3800, 3811 *)
Definition variable_of (o : lib_object) : option VariableDataPrototype := match o with OVariableDataPrototype e => Some e | _ => None end.
Definition parameter_of (o : lib_object) : option ParameterDataPrototype := match o with OParameterDataPrototype e => Some e | _ => None end.
Definition argument_of (o : lib_object) : option ArgumentDataPrototype := match o with OArgumentDataPrototype e => Some e | _ => None end.
Definition policy_of (o : lib_object) : option InvalidationPolicy := match o with OInvalidationPolicy e => Some e | _ => None end.
Definition error_of (o : lib_object) : option ApplicationError := match o with OApplicationError e => Some e | _ => None end.
Definition operation_of (o : lib_object) : option ClientServerOperation := match o with OClientServerOperation e => Some e | _ => None end.
Definition group_of (o : lib_object) : option ModeDeclarationGroupPrototype := match o with OModeDeclarationGroupPrototype e => Some e | _ => None end.
Definition declaration_of (o : lib_object) : option ModeDeclaration := match o with OModeDeclaration e => Some e | _ => None end.
Definition transition_of (o : lib_object) : option ModeTransition := match o with OModeTransition e => Some e | _ => None end.
Definition behavior_of (o : lib_object) : option ModeErrorBehavior := match o with OModeErrorBehavior e => Some e | _ => None end.
Definition service_kind_of (o : lib_object) : option ServiceKind := match o with OServiceKind e => Some e | _ => None end.
Definition handle_invalid_of (o : lib_object) : option HandleInvalid := match o with OHandleInvalid e => Some e | _ => None end.
Definition direction_of (o : lib_object) : option ArgumentDirection := match o with OArgumentDirection e => Some e | _ => None end.
Definition arg_policy_of (o : lib_object) : option ServerArgImplPolicy := match o with OServerArgImplPolicy e => Some e | _ => None end.
Definition access_of (o : lib_object) : option SwCalibrationAccess := match o with OSwCalibrationAccess e => Some e | _ => None end.
Definition reaction_of (o : lib_object) : option ModeErrorReactionPolicy := match o with OModeErrorReactionPolicy e => Some e | _ => None end.
(** The reference string of a part whose parent is the object at [path], element.py:268-279 *)
Definition part_ref (path : option string) (name : string) (d : IdentifiableSubTypes) : option ref :=
  option_map (fun p => mkRef (below p name) d) path.

(** ** Data prototypes *)
(** The keyword parameters of DataPrototype and AutosarDataPrototype, element.py:2009-2012, 2029-2032 *)
Definition data_keywords : list string := ["type_ref"; "sw_data_def_props"] ++ identifiable_keywords.
(** DataPrototype.__init__, element.py:2009-2021, and AutosarDataPrototype.__init__, 2029-2036 *)
Definition new_data (name : string) (kw : keyword_args) : result (identifiable * option SwDataDefProps * option ref) :=
  let* i := new_identifiable name kw in
  let* props := optional props_of_arg (kwarg "sw_data_def_props" kw) in
  let* type_ref := opt_ref rc_AutosarDataTypeRef (kwarg "type_ref" kw) in
  Ok (i, props, type_ref).
(** VariableDataPrototype.__init__, element.py:2045-2052 *)
Definition new_variable (name : string) (kw : keyword_args) : result VariableDataPrototype :=
  let* _ := check_keywords ("init_value" :: data_keywords) kw in
  let* (i, props, type_ref) := new_data name kw in
  let* init_value := opt_value_specification (kwarg "init_value" kw) in
  Ok (mkVariableDataPrototype i props type_ref init_value).
(** ParameterDataPrototype.__init__, element.py:2078-2085 *)
Definition new_parameter (name : string) (kw : keyword_args) : result ParameterDataPrototype :=
  let* _ := check_keywords ("init_value" :: data_keywords) kw in
  let* (i, props, type_ref) := new_data name kw in
  let* init_value := opt_value_specification (kwarg "init_value" kw) in
  Ok (mkParameterDataPrototype i props type_ref init_value).
(** ArgumentDataPrototype.__init__, element.py:2102-2113 *)
Definition new_argument (name : string) (direction : arg) (kw : keyword_args) : result ArgumentDataPrototype :=
  let* _ := check_keywords ("server_arg_impl_policy" :: data_keywords) kw in
  let* (i, props, type_ref) := new_data name kw in
  let* d := optional (strict direction_of) direction in
  let* policy := optional (strict arg_policy_of) (kwarg "server_arg_impl_policy" kw) in
  Ok (mkArgumentDataPrototype i props type_ref d policy).

(** ** Port interfaces *)
(** The keyword parameters of PortInterface, element.py:3334-3338 *)
Definition interface_keywords : list string := ["is_service"; "service_kind"] ++ identifiable_keywords.
(** PortInterface.__init__, element.py:3334-3344 *)
Definition new_interface (name : string) (kw : keyword_args) : result (identifiable * option bool * option ServiceKind) :=
  let* i := new_identifiable name kw in
  let* is_service := opt_bool_strict (kwarg "is_service" kw) in
  let* service_kind := optional (strict service_kind_of) (kwarg "service_kind" kw) in
  Ok (i, is_service, service_kind).
(** InvalidationPolicy.__init__, element.py:3361-3367 *)
Definition new_policy (kw : keyword_args) : result InvalidationPolicy :=
  let* _ := check_keywords ["data_element_ref"; "handle_invalid"] kw in
  let* r := opt_ref rc_VariableDataPrototypeRef (kwarg "data_element_ref" kw) in
  let* h := optional (strict handle_invalid_of) (kwarg "handle_invalid" kw) in
  Ok (mkInvalidationPolicy r h).
(** data_elements of SenderReceiverInterface, element.py:3385-3393: the message of the TypeError uses a
    variable that has no value yet *)
Definition sender_receiver_elements (a : arg) : result (list VariableDataPrototype) :=
  match a with
  | ANone => Ok []
  | AList l => mapM (strict variable_of) l
  | AObj (OVariableDataPrototype e) => Ok [e]
  | _ => Err UnboundLocalError
  end.
(** SenderReceiverInterface.__init__, element.py:3376-3402; append_data_element, 3414-3423;
    append_invalidation_policy, 3425-3433 *)
Definition new_sender_receiver_interface (name : string) (kw : keyword_args) : result SenderReceiverInterface :=
  let* _ := check_keywords (["data_elements"; "invalidation_policies"] ++ interface_keywords) kw in
  let* (i, is_service, service_kind) := new_interface name kw in
  let* elements := sender_receiver_elements (kwarg "data_elements" kw) in
  let* policies := one_or_list (strict policy_of) (kwarg "invalidation_policies" kw) in
  Ok (mkSenderReceiverInterface i is_service service_kind elements policies).
(** NvDataInterface.__init__, element.py:3475-3489; append_data_element, 3501-3510 *)
Definition new_nv_data_interface (name : string) (kw : keyword_args) : result NvDataInterface :=
  let* _ := check_keywords ("data_elements" :: interface_keywords) kw in
  let* (i, is_service, service_kind) := new_interface name kw in
  let* elements := one_or_list (strict variable_of) (kwarg "data_elements" kw) in
  Ok (mkNvDataInterface i is_service service_kind elements).
(** ParameterInterface.__init__, element.py:3532-3546; append_parameter, 3558-3567 *)
Definition new_parameter_interface (name : string) (kw : keyword_args) : result ParameterInterface :=
  let* _ := check_keywords ("parameters" :: interface_keywords) kw in
  let* (i, is_service, service_kind) := new_interface name kw in
  let* parameters := one_or_list (strict parameter_of) (kwarg "parameters" kw) in
  Ok (mkParameterInterface i is_service service_kind parameters).
(** ModeSwitchInterface.__init__, element.py:3855-3863 *)
Definition new_mode_switch_interface (name : string) (kw : keyword_args) : result ModeSwitchInterface :=
  let* _ := check_keywords ("mode_group" :: interface_keywords) kw in
  let* (i, is_service, service_kind) := new_interface name kw in
  let* group := optional (strict group_of) (kwarg "mode_group" kw) in
  Ok (mkModeSwitchInterface i is_service service_kind group).
(** ApplicationError.__init__, element.py:3589-3595 *)
Definition new_application_error (name : string) (kw : keyword_args) : result ApplicationError :=
  let* _ := check_keywords ("error_code" :: identifiable_keywords) kw in
  let* i := new_identifiable name kw in
  let* code := opt_int_strict (kwarg "error_code" kw) in
  Ok (mkApplicationError i code).
(** possible_error_refs, element.py:3645-3655, append_possible_error_ref, 3730-3738: a single text is
    converted, a text in a list is not *)
Definition error_refs (a : arg) : result (list ref) :=
  match as_ref rc_ApplicationErrorRef a with
  | Some r => Ok [r]
  | None =>
      match a with
      | ANone => Ok []
      | AStr s => let* r := ref_default rc_ApplicationErrorRef s in Ok [r]
      | AList l => mapM (fun x => match as_ref rc_ApplicationErrorRef x with Some r => Ok r | None => Err TypeError end) l
      | _ => Err TypeError
      end
  end.
(** ClientServerOperation.__init__, element.py:3617-3655; append_argument, 3667-3675 *)
Definition new_operation (name : string) (kw : keyword_args) : result ClientServerOperation :=
  let* _ := check_keywords (["arguments"; "diag_arg_integrity"; "fire_and_forget"; "possible_error_refs"] ++ identifiable_keywords) kw in
  let* i := new_identifiable name kw in
  let* integrity := opt_bool_strict (kwarg "diag_arg_integrity" kw) in
  let* forget := opt_bool_strict (kwarg "fire_and_forget" kw) in
  let* arguments := one_or_list (strict argument_of) (kwarg "arguments" kw) in
  let* errors := error_refs (kwarg "possible_error_refs" kw) in
  Ok (mkClientServerOperation i arguments integrity forget errors).
(** possible_errors, element.py:3776-3784: a single error is passed to append_operation, 3796-3805,
    which raises TypeError *)
Definition possible_errors (a : arg) : result (list ApplicationError) :=
  match a with
  | ANone => Ok []
  | AList l => mapM (strict error_of) l
  | _ => Err TypeError
  end.
(** ClientServerInterface.__init__, element.py:3757-3784; append_operation, 3796-3805;
    append_possible_errors, 3807-3816 *)
Definition new_client_server_interface (name : string) (kw : keyword_args) : result ClientServerInterface :=
  let* _ := check_keywords (["operations"; "possible_errors"] ++ interface_keywords) kw in
  let* (i, is_service, service_kind) := new_interface name kw in
  let* operations := one_or_list (strict operation_of) (kwarg "operations" kw) in
  let* errors := possible_errors (kwarg "possible_errors" kw) in
  Ok (mkClientServerInterface i is_service service_kind operations errors).

(** ** Adding parts *)
(** The object with the new part, or the object as it was after an exception *)
Definition adding {A B} (i : A) (add : A -> B -> A) (refer : B -> option ref) (r : result B) : A * result (B * option ref) :=
  match r with Ok x => (add i x, Ok (x, refer x)) | Err e => (i, Err e) end.
(** append_data_element, element.py:3414-3423 *)
Definition add_data_element (i : SenderReceiverInterface) (d : VariableDataPrototype) : SenderReceiverInterface :=
  mkSenderReceiverInterface (SenderReceiverInterface_ident i) (SenderReceiverInterface_is_service i) (SenderReceiverInterface_service_kind i)
    (SenderReceiverInterface_data_elements i ++ [d]) (SenderReceiverInterface_invalidation_policies i).
(** append_invalidation_policy, element.py:3425-3433 *)
Definition add_policy (i : SenderReceiverInterface) (p : InvalidationPolicy) : SenderReceiverInterface :=
  mkSenderReceiverInterface (SenderReceiverInterface_ident i) (SenderReceiverInterface_is_service i) (SenderReceiverInterface_service_kind i)
    (SenderReceiverInterface_data_elements i) (SenderReceiverInterface_invalidation_policies i ++ [p]).
(** SenderReceiverInterface.create_data_element, element.py:3435-3446 *)
Definition create_data_element (path : option string) (i : SenderReceiverInterface) (name : string) (kw : keyword_args)
    : SenderReceiverInterface * result (VariableDataPrototype * option ref) :=
  adding i add_data_element (data_element_ref path) (new_variable name kw).
(** SenderReceiverInterface.create_invalidation_policy, element.py:3448-3466; a policy has no reference *)
Definition create_invalidation_policy (i : SenderReceiverInterface) (data_element_ref handle_invalid : arg)
    : SenderReceiverInterface * result (InvalidationPolicy * option ref) :=
  adding i add_policy (fun _ => None)
    (let* r := match data_element_ref with
               | AStr s => ref_default rc_VariableDataPrototypeRef s
               | _ => match as_ref rc_VariableDataPrototypeRef data_element_ref with Some r => Ok r | None => Err TypeError end
               end in
     let* _ := strict handle_invalid_of handle_invalid in
     new_policy [("data_element_ref", AObj (ORef rc_VariableDataPrototypeRef r)); ("handle_invalid", handle_invalid)]).
(** NvDataInterface.create_data_element, element.py:3512-3523 *)
Definition create_nv_data (path : option string) (i : NvDataInterface) (name : string) (kw : keyword_args)
    : NvDataInterface * result (VariableDataPrototype * option ref) :=
  adding i (fun i d => mkNvDataInterface (NvDataInterface_ident i) (NvDataInterface_is_service i) (NvDataInterface_service_kind i) (NvDataInterface_data_elements i ++ [d]))
    (data_element_ref path) (new_variable name kw).
(** ParameterInterface.create_parameter, element.py:3569-3580; ParameterDataPrototype.ref, 2087-2093 *)
Definition create_parameter (path : option string) (i : ParameterInterface) (name : string) (kw : keyword_args)
    : ParameterInterface * result (ParameterDataPrototype * option ref) :=
  adding i (fun i d => mkParameterInterface (ParameterInterface_ident i) (ParameterInterface_is_service i) (ParameterInterface_service_kind i) (ParameterInterface_parameters i ++ [d]))
    (fun d => part_ref path (parameter_name d) IdentifiableSubTypes_PARAMETER_DATA_PROTOTYPE) (new_parameter name kw).
(** append_operation, element.py:3796-3805 *)
Definition add_operation (i : ClientServerInterface) (o : ClientServerOperation) : ClientServerInterface :=
  mkClientServerInterface (ClientServerInterface_ident i) (ClientServerInterface_is_service i) (ClientServerInterface_service_kind i)
    (ClientServerInterface_operations i ++ [o]) (ClientServerInterface_possible_errors i).
(** append_possible_errors, element.py:3807-3816 *)
Definition add_possible_error (i : ClientServerInterface) (e : ApplicationError) : ClientServerInterface :=
  mkClientServerInterface (ClientServerInterface_ident i) (ClientServerInterface_is_service i) (ClientServerInterface_service_kind i)
    (ClientServerInterface_operations i) (ClientServerInterface_possible_errors i ++ [e]).
(** ClientServerInterface.create_operation, element.py:3818-3833 *)
Definition create_operation (path : option string) (i : ClientServerInterface) (name : string) (kw : keyword_args)
    : ClientServerInterface * result (ClientServerOperation * option ref) :=
  adding i add_operation (client_server_operation_ref path) (new_operation name kw).
(** ClientServerInterface.create_possible_error, element.py:3835-3846; ApplicationError.ref, 3597-3605 *)
Definition create_possible_error (path : option string) (i : ClientServerInterface) (name : string) (kw : keyword_args)
    : ClientServerInterface * result (ApplicationError * option ref) :=
  adding i add_possible_error (fun e => part_ref path (id_name (ApplicationError_ident e)) IdentifiableSubTypes_APPLICATION_ERROR) (new_application_error name kw).
(** append_argument, element.py:3667-3675 *)
Definition add_argument (o : ClientServerOperation) (a : ArgumentDataPrototype) : ClientServerOperation :=
  mkClientServerOperation (ClientServerOperation_ident o) (ClientServerOperation_arguments o ++ [a]) (ClientServerOperation_diag_arg_integrity o)
    (ClientServerOperation_fire_and_forget o) (ClientServerOperation_possible_error_refs o).
(** create_argument, element.py:3677-3689: the argument gets no parent, so it has no reference *)
Definition create_argument (o : ClientServerOperation) (name : string) (kw : keyword_args) : ClientServerOperation * result (ArgumentDataPrototype * option ref) :=
  adding o add_argument (fun _ => None) (new_argument name (kwarg "direction" kw) (without "direction" kw)).
(** create_in_argument, element.py:3691-3702 *)
Definition create_in_argument (o : ClientServerOperation) (name : string) (kw : keyword_args) : ClientServerOperation * result (ArgumentDataPrototype * option ref) :=
  adding o add_argument (fun _ => None) (new_argument name (AObj (OArgumentDirection ArgumentDirection_IN)) kw).
(** create_inout_argument, element.py:3704-3715 *)
Definition create_inout_argument (o : ClientServerOperation) (name : string) (kw : keyword_args) : ClientServerOperation * result (ArgumentDataPrototype * option ref) :=
  adding o add_argument (fun _ => None) (new_argument name (AObj (OArgumentDirection ArgumentDirection_INOUT)) kw).
(** create_out_argument, element.py:3717-3728 *)
Definition create_out_argument (o : ClientServerOperation) (name : string) (kw : keyword_args) : ClientServerOperation * result (ArgumentDataPrototype * option ref) :=
  adding o add_argument (fun _ => None) (new_argument name (AObj (OArgumentDirection ArgumentDirection_OUT)) kw).
(** create_possible_error_ref, element.py:3740-3748, and append_possible_error_ref, 3730-3738; the
    reference itself is returned *)
Definition create_possible_error_ref (o : ClientServerOperation) (value : string) : ClientServerOperation * result (ref * option ref) :=
  adding o (fun o r => mkClientServerOperation (ClientServerOperation_ident o) (ClientServerOperation_arguments o) (ClientServerOperation_diag_arg_integrity o)
              (ClientServerOperation_fire_and_forget o) (ClientServerOperation_possible_error_refs o ++ [r]))
    (fun _ => None) (ref_default rc_ApplicationErrorRef value).
(** ModeDeclarationGroupPrototype.__init__, element.py:3290-3299 *)
Definition new_group_prototype (name : string) (kw : keyword_args) : result ModeDeclarationGroupPrototype :=
  let* _ := check_keywords (["type_ref"; "calibration_access"] ++ identifiable_keywords) kw in
  let* i := new_identifiable name kw in
  let* access := optional (strict access_of) (kwarg "calibration_access" kw) in
  let* type_ref := opt_ref rc_ModeDeclarationGroupRef (kwarg "type_ref" kw) in
  Ok (mkModeDeclarationGroupPrototype i access type_ref).
(** ModeSwitchInterface.create_mode_group, element.py:3875-3890: replaces the group *)
Definition create_mode_group (path : option string) (i : ModeSwitchInterface) (name : string) (kw : keyword_args)
    : ModeSwitchInterface * result (ModeDeclarationGroupPrototype * option ref) :=
  adding i (fun i g => mkModeSwitchInterface (ModeSwitchInterface_ident i) (ModeSwitchInterface_is_service i) (ModeSwitchInterface_service_kind i) (Some g))
    (mode_group_ref path true) (new_group_prototype name kw).

(** ** Operations of an interface *)
(** A method called on one of the operations of an interface, which are objects the interface shares
    with the caller; nothing happens if there is no such operation *)
Definition on_operation {A} (i : ClientServerInterface) (n : nat) (f : ClientServerOperation -> ClientServerOperation * A) : ClientServerInterface * option A :=
  match nth_error (ClientServerInterface_operations i) n with
  | None => (i, None)
  | Some o =>
      let (o', r) := f o in
      (mkClientServerInterface (ClientServerInterface_ident i) (ClientServerInterface_is_service i) (ClientServerInterface_service_kind i)
         (firstn n (ClientServerInterface_operations i) ++ o' :: skipn (S n) (ClientServerInterface_operations i)) (ClientServerInterface_possible_errors i), Some r)
  end.

(** ** Mode declaration groups *)
(** ModeDeclaration.__init__, element.py:3116-3123 *)
Definition new_mode (name : string) (kw : keyword_args) : result ModeDeclaration :=
  let* _ := check_keywords ("value" :: identifiable_keywords) kw in
  let* i := new_identifiable name kw in
  let* value := opt_count (kwarg "value" kw) in
  Ok (mkModeDeclaration i value).
(** ModeErrorBehavior.__init__, element.py:3140-3147 *)
Definition new_error_behavior (kw : keyword_args) : result ModeErrorBehavior :=
  let* _ := check_keywords ["default_mode_ref"; "error_reaction_policy"] kw in
  let* mode := opt_ref rc_ModeDeclarationRef (kwarg "default_mode_ref" kw) in
  let* policy := optional (strict reaction_of) (kwarg "error_reaction_policy" kw) in
  Ok (mkModeErrorBehavior mode policy).
(** ModeTransition.__init__, element.py:3156-3165 *)
Definition new_transition (name : string) (kw : keyword_args) : result ModeTransition :=
  let* _ := check_keywords (["entered_mode_ref"; "exited_mode_ref"] ++ identifiable_keywords) kw in
  let* i := new_identifiable name kw in
  let* entered := opt_ref rc_ModeDeclarationRef (kwarg "entered_mode_ref" kw) in
  let* exited := opt_ref rc_ModeDeclarationRef (kwarg "exited_mode_ref" kw) in
  Ok (mkModeTransition i entered exited).
(** One item of mode_declarations, element.py:3203-3212: a tuple has the arguments of
    create_mode_declaration, 3250-3261.  Simplification: the name is a str. *)
Definition mode_item (a : arg) : result ModeDeclaration :=
  match a with
  | AObj (OModeDeclaration m) => Ok m
  | AStr s => new_mode s []
  | ATuple [AStr s] => new_mode s []
  | ATuple [AStr s; v] => new_mode s [("value", v)]
  | _ => Err TypeError
  end.
(** mode_declarations, element.py:3199-3215 *)
Definition mode_items (a : arg) : result (list ModeDeclaration) :=
  match a with
  | ANone => Ok []
  | AObj (OModeDeclaration m) => Ok [m]
  | AList l => mapM mode_item l
  | _ => Err TypeError
  end.
(** ModeDeclarationGroup.__init__, element.py:3177-3225; append_mode_declaratation, 3239-3248;
    append_mode_transition, 3263-3272 *)
Definition new_mode_declaration_group (name : string) (kw : keyword_args) : result ModeDeclarationGroup :=
  let* _ := check_keywords (["mode_declarations"; "initial_mode_ref"; "mode_manager_error_behavior"; "mode_transitions"; "mode_user_error_behavior"; "on_transition_value"]
                            ++ identifiable_keywords) kw in
  let* i := new_identifiable name kw in
  let* initial := opt_ref rc_ModeDeclarationRef (kwarg "initial_mode_ref" kw) in
  let* manager := optional (strict behavior_of) (kwarg "mode_manager_error_behavior" kw) in
  let* user := optional (strict behavior_of) (kwarg "mode_user_error_behavior" kw) in
  let* value := opt_count (kwarg "on_transition_value" kw) in
  let* modes := mode_items (kwarg "mode_declarations" kw) in
  let* transitions := one_or_list (strict transition_of) (kwarg "mode_transitions" kw) in
  Ok (mkModeDeclarationGroup i initial modes manager transitions user value).
(** create_mode_declaration, element.py:3250-3261; append_mode_declaratation, 3239-3248;
    ModeDeclaration.ref, 3125-3131 *)
Definition create_mode_declaration (path : option string) (g : ModeDeclarationGroup) (name : string) (kw : keyword_args)
    : ModeDeclarationGroup * result (ModeDeclaration * option ref) :=
  adding g (fun g m => mkModeDeclarationGroup (ModeDeclarationGroup_ident g) (ModeDeclarationGroup_initial_mode_ref g) (ModeDeclarationGroup_mode_declarations g ++ [m])
                         (ModeDeclarationGroup_mode_manager_error_behavior g) (ModeDeclarationGroup_mode_transitions g) (ModeDeclarationGroup_mode_user_error_behavior g)
                         (ModeDeclarationGroup_on_transition_value g))
    (fun m => part_ref path (mode_name m) IdentifiableSubTypes_MODE_DECLARATION) (new_mode name kw).
(** append_mode_transition, element.py:3263-3272.  The transition becomes its own parent; it has no
    ref(). *)
Definition append_transition (g : ModeDeclarationGroup) (a : arg) : ModeDeclarationGroup * result unit :=
  match strict transition_of a with
  | Ok t => (mkModeDeclarationGroup (ModeDeclarationGroup_ident g) (ModeDeclarationGroup_initial_mode_ref g) (ModeDeclarationGroup_mode_declarations g)
               (ModeDeclarationGroup_mode_manager_error_behavior g) (ModeDeclarationGroup_mode_transitions g ++ [t]) (ModeDeclarationGroup_mode_user_error_behavior g)
               (ModeDeclarationGroup_on_transition_value g), Ok tt)
  | Err e => (g, Err e)
  end.
