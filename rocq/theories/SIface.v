(** Which port interfaces, parts of interfaces and mode declaration groups given arguments describe,
    independently of how they are made. *)
From Verif Require Import Base MNum MXml MEnum MRefTab MRef MCodec MElem0 MElem1 MElemA MElemB MElemC MElem2 MElemD MElem3 MElem4 MElemE MElem5 MElemF MArxml MFind MValue MEvent MPort SPort MAccess SAccess MRunnable SRunnable.
Open Scope list_scope.

(** ** Arguments *)
(** A text if there is only one kind of target, or a reference to a target of one of the kinds. *)
Inductive means_ref (kinds : list IdentifiableSubTypes) : arg -> ref -> Prop :=
| ref_text s k : kinds = [k] -> means_ref kinds (AStr s) (mkRef s k)
| ref_object c r : In (rf_dest r) kinds -> means_ref kinds (AObj (ORef c r)) r.
Definition data_type_kinds : list IdentifiableSubTypes :=
  [IdentifiableSubTypes_ABSTRACT_IMPLEMENTATION_DATA_TYPE; IdentifiableSubTypes_APPLICATION_ARRAY_DATA_TYPE;
   IdentifiableSubTypes_APPLICATION_COMPOSITE_DATA_TYPE; IdentifiableSubTypes_APPLICATION_DATA_TYPE;
   IdentifiableSubTypes_APPLICATION_DEFERRED_DATA_TYPE; IdentifiableSubTypes_APPLICATION_PRIMITIVE_DATA_TYPE;
   IdentifiableSubTypes_APPLICATION_RECORD_DATA_TYPE; IdentifiableSubTypes_AUTOSAR_DATA_TYPE; IdentifiableSubTypes_IMPLEMENTATION_DATA_TYPE].
Definition means_data_type := means_ref data_type_kinds.
Definition means_mode_ref := means_ref [IdentifiableSubTypes_MODE_DECLARATION].
Definition means_group_ref := means_ref [IdentifiableSubTypes_MODE_DECLARATION_GROUP].
Definition means_variable_ref := means_ref [IdentifiableSubTypes_VARIABLE_DATA_PROTOTYPE].
(** An object of the class itself. *)
Definition is_a {A} (make : A -> lib_object) (a : arg) (x : A) : Prop := a = AObj (make x).
Definition means_yes_no (a : arg) (b : bool) : Prop := a = ABool b.
Inductive means_integer : arg -> Z -> Prop :=
| integer_int z : means_integer (ANum (NInt z)) z
| integer_false : means_integer (ABool false) 0
| integer_true : means_integer (ABool true) 1.
Definition common_arguments : list string := ["desc"; "category"; "uuid"; "admin_data"; "long_name"].
(** What ref() of a part returns: its name below the object it was created in; nothing outside of a
    package. *)
Definition reference (path : option string) (name : string) (kind : IdentifiableSubTypes) : option ref :=
  match path with None => None | Some p => Some (mkRef (p ++ "/" ++ name) kind) end.

(** ** Data prototypes *)
Definition describes_data (name : string) (kw : keyword_args) (i : identifiable) (props : option SwDataDefProps) (type : option ref) : Prop :=
  identity name kw i /\ holds means_props kw "sw_data_def_props" props /\ holds means_data_type kw "type_ref" type.
Definition describes_variable (name : string) (kw : keyword_args) (d : VariableDataPrototype) : Prop :=
  only (["init_value"; "type_ref"; "sw_data_def_props"] ++ common_arguments) kw /\
  describes_data name kw (VariableDataPrototype_ident d) (VariableDataPrototype_sw_data_def_props d) (VariableDataPrototype_type_ref d) /\
  holds means_value_specification kw "init_value" (VariableDataPrototype_init_value d).
Definition describes_parameter (name : string) (kw : keyword_args) (d : ParameterDataPrototype) : Prop :=
  only (["init_value"; "type_ref"; "sw_data_def_props"] ++ common_arguments) kw /\
  describes_data name kw (ParameterDataPrototype_ident d) (ParameterDataPrototype_sw_data_def_props d) (ParameterDataPrototype_type_ref d) /\
  holds means_value_specification kw "init_value" (ParameterDataPrototype_init_value d).
(** An argument of an operation without its direction. *)
Definition describes_argument (name : string) (kw : keyword_args) (d : ArgumentDataPrototype) : Prop :=
  describes_data name kw (ArgumentDataPrototype_ident d) (ArgumentDataPrototype_sw_data_def_props d) (ArgumentDataPrototype_type_ref d) /\
  holds (is_a OServerArgImplPolicy) kw "server_arg_impl_policy" (ArgumentDataPrototype_server_arg_impl_policy d).
Definition argument_arguments : list string := ["server_arg_impl_policy"; "type_ref"; "sw_data_def_props"] ++ common_arguments.

(** ** Interfaces *)
Definition describes_interface (name : string) (kw : keyword_args) (i : identifiable) (is_service : option bool) (kind : option ServiceKind) : Prop :=
  identity name kw i /\ holds means_yes_no kw "is_service" is_service /\ holds (is_a OServiceKind) kw "service_kind" kind.
Definition interface_arguments : list string := ["is_service"; "service_kind"] ++ common_arguments.
Definition describes_policy (kw : keyword_args) (p : InvalidationPolicy) : Prop :=
  only ["data_element_ref"; "handle_invalid"] kw /\ holds means_variable_ref kw "data_element_ref" (InvalidationPolicy_data_element_ref p) /\
  holds (is_a OHandleInvalid) kw "handle_invalid" (InvalidationPolicy_handle_invalid p).
Definition describes_sender_receiver (name : string) (kw : keyword_args) (i : SenderReceiverInterface) : Prop :=
  only (["data_elements"; "invalidation_policies"] ++ interface_arguments) kw /\
  describes_interface name kw (SenderReceiverInterface_ident i) (SenderReceiverInterface_is_service i) (SenderReceiverInterface_service_kind i) /\
  holds_list (means_list (is_a OVariableDataPrototype)) kw "data_elements" (SenderReceiverInterface_data_elements i) /\
  holds_list (means_list (is_a OInvalidationPolicy)) kw "invalidation_policies" (SenderReceiverInterface_invalidation_policies i).
Definition describes_nv_data (name : string) (kw : keyword_args) (i : NvDataInterface) : Prop :=
  only ("data_elements" :: interface_arguments) kw /\
  describes_interface name kw (NvDataInterface_ident i) (NvDataInterface_is_service i) (NvDataInterface_service_kind i) /\
  holds_list (means_list (is_a OVariableDataPrototype)) kw "data_elements" (NvDataInterface_data_elements i).
Definition describes_parameters (name : string) (kw : keyword_args) (i : ParameterInterface) : Prop :=
  only ("parameters" :: interface_arguments) kw /\
  describes_interface name kw (ParameterInterface_ident i) (ParameterInterface_is_service i) (ParameterInterface_service_kind i) /\
  holds_list (means_list (is_a OParameterDataPrototype)) kw "parameters" (ParameterInterface_parameters i).
Definition describes_mode_switch (name : string) (kw : keyword_args) (i : ModeSwitchInterface) : Prop :=
  only ("mode_group" :: interface_arguments) kw /\
  describes_interface name kw (ModeSwitchInterface_ident i) (ModeSwitchInterface_is_service i) (ModeSwitchInterface_service_kind i) /\
  holds (is_a OModeDeclarationGroupPrototype) kw "mode_group" (ModeSwitchInterface_mode_group i).
Definition describes_error (name : string) (kw : keyword_args) (e : ApplicationError) : Prop :=
  only ("error_code" :: common_arguments) kw /\ identity name kw (ApplicationError_ident e) /\ holds means_integer kw "error_code" (ApplicationError_error_code e).
(** References to errors: one, the text of one, or a list; texts in a list do not count. *)
Inductive means_error_refs : arg -> list ref -> Prop :=
| error_refs_text s : means_error_refs (AStr s) [mkRef s IdentifiableSubTypes_APPLICATION_ERROR]
| error_refs_given a l : means_list (of_class "ApplicationErrorRef") a l -> means_error_refs a l.
Definition describes_operation (name : string) (kw : keyword_args) (o : ClientServerOperation) : Prop :=
  only (["arguments"; "diag_arg_integrity"; "fire_and_forget"; "possible_error_refs"] ++ common_arguments) kw /\
  identity name kw (ClientServerOperation_ident o) /\
  holds_list (means_list (is_a OArgumentDataPrototype)) kw "arguments" (ClientServerOperation_arguments o) /\
  holds means_yes_no kw "diag_arg_integrity" (ClientServerOperation_diag_arg_integrity o) /\
  holds means_yes_no kw "fire_and_forget" (ClientServerOperation_fire_and_forget o) /\
  holds_list means_error_refs kw "possible_error_refs" (ClientServerOperation_possible_error_refs o).
(** The errors of an interface: only a list. *)
Definition describes_client_server (name : string) (kw : keyword_args) (i : ClientServerInterface) : Prop :=
  only (["operations"; "possible_errors"] ++ interface_arguments) kw /\
  describes_interface name kw (ClientServerInterface_ident i) (ClientServerInterface_is_service i) (ClientServerInterface_service_kind i) /\
  holds_list (means_list (is_a OClientServerOperation)) kw "operations" (ClientServerInterface_operations i) /\
  holds_list (fun a l => a = AList (map (fun x => AObj (OApplicationError x)) l)) kw "possible_errors" (ClientServerInterface_possible_errors i).
Definition describes_group_prototype (name : string) (kw : keyword_args) (g : ModeDeclarationGroupPrototype) : Prop :=
  only (["type_ref"; "calibration_access"] ++ common_arguments) kw /\ identity name kw (ModeDeclarationGroupPrototype_ident g) /\
  holds means_group_ref kw "type_ref" (ModeDeclarationGroupPrototype_type_ref g) /\
  holds (is_a OSwCalibrationAccess) kw "calibration_access" (ModeDeclarationGroupPrototype_calibration_access g).

(** ** One more part, all else as before *)
Definition one_more_data (i : SenderReceiverInterface) (d : VariableDataPrototype) (i' : SenderReceiverInterface) : Prop :=
  SenderReceiverInterface_data_elements i' = SenderReceiverInterface_data_elements i ++ [d] /\
  SenderReceiverInterface_invalidation_policies i' = SenderReceiverInterface_invalidation_policies i /\
  SenderReceiverInterface_ident i' = SenderReceiverInterface_ident i /\ SenderReceiverInterface_is_service i' = SenderReceiverInterface_is_service i /\
  SenderReceiverInterface_service_kind i' = SenderReceiverInterface_service_kind i.
Definition one_more_policy (i : SenderReceiverInterface) (p : InvalidationPolicy) (i' : SenderReceiverInterface) : Prop :=
  SenderReceiverInterface_data_elements i' = SenderReceiverInterface_data_elements i /\
  SenderReceiverInterface_invalidation_policies i' = SenderReceiverInterface_invalidation_policies i ++ [p] /\
  SenderReceiverInterface_ident i' = SenderReceiverInterface_ident i /\ SenderReceiverInterface_is_service i' = SenderReceiverInterface_is_service i /\
  SenderReceiverInterface_service_kind i' = SenderReceiverInterface_service_kind i.
Definition one_more_nv_data (i : NvDataInterface) (d : VariableDataPrototype) (i' : NvDataInterface) : Prop :=
  NvDataInterface_data_elements i' = NvDataInterface_data_elements i ++ [d] /\ NvDataInterface_ident i' = NvDataInterface_ident i /\
  NvDataInterface_is_service i' = NvDataInterface_is_service i /\ NvDataInterface_service_kind i' = NvDataInterface_service_kind i.
Definition one_more_parameter (i : ParameterInterface) (d : ParameterDataPrototype) (i' : ParameterInterface) : Prop :=
  ParameterInterface_parameters i' = ParameterInterface_parameters i ++ [d] /\ ParameterInterface_ident i' = ParameterInterface_ident i /\
  ParameterInterface_is_service i' = ParameterInterface_is_service i /\ ParameterInterface_service_kind i' = ParameterInterface_service_kind i.
Definition one_more_operation (i : ClientServerInterface) (o : ClientServerOperation) (i' : ClientServerInterface) : Prop :=
  ClientServerInterface_operations i' = ClientServerInterface_operations i ++ [o] /\ ClientServerInterface_possible_errors i' = ClientServerInterface_possible_errors i /\
  ClientServerInterface_ident i' = ClientServerInterface_ident i /\ ClientServerInterface_is_service i' = ClientServerInterface_is_service i /\
  ClientServerInterface_service_kind i' = ClientServerInterface_service_kind i.
Definition one_more_error (i : ClientServerInterface) (e : ApplicationError) (i' : ClientServerInterface) : Prop :=
  ClientServerInterface_operations i' = ClientServerInterface_operations i /\ ClientServerInterface_possible_errors i' = ClientServerInterface_possible_errors i ++ [e] /\
  ClientServerInterface_ident i' = ClientServerInterface_ident i /\ ClientServerInterface_is_service i' = ClientServerInterface_is_service i /\
  ClientServerInterface_service_kind i' = ClientServerInterface_service_kind i.
Definition one_more_argument (o : ClientServerOperation) (a : ArgumentDataPrototype) (o' : ClientServerOperation) : Prop :=
  ClientServerOperation_arguments o' = ClientServerOperation_arguments o ++ [a] /\ ClientServerOperation_ident o' = ClientServerOperation_ident o /\
  ClientServerOperation_diag_arg_integrity o' = ClientServerOperation_diag_arg_integrity o /\ ClientServerOperation_fire_and_forget o' = ClientServerOperation_fire_and_forget o /\
  ClientServerOperation_possible_error_refs o' = ClientServerOperation_possible_error_refs o.
Definition one_more_error_ref (o : ClientServerOperation) (r : ref) (o' : ClientServerOperation) : Prop :=
  ClientServerOperation_arguments o' = ClientServerOperation_arguments o /\ ClientServerOperation_ident o' = ClientServerOperation_ident o /\
  ClientServerOperation_diag_arg_integrity o' = ClientServerOperation_diag_arg_integrity o /\ ClientServerOperation_fire_and_forget o' = ClientServerOperation_fire_and_forget o /\
  ClientServerOperation_possible_error_refs o' = ClientServerOperation_possible_error_refs o ++ [r].
(** Another group instead of the one there was. *)
Definition other_group (i : ModeSwitchInterface) (g : ModeDeclarationGroupPrototype) (i' : ModeSwitchInterface) : Prop :=
  ModeSwitchInterface_mode_group i' = Some g /\ ModeSwitchInterface_ident i' = ModeSwitchInterface_ident i /\
  ModeSwitchInterface_is_service i' = ModeSwitchInterface_is_service i /\ ModeSwitchInterface_service_kind i' = ModeSwitchInterface_service_kind i.
(** One of the operations is changed, all else as before. *)
Definition changes_operation (n : nat) (change : ClientServerOperation -> ClientServerOperation -> Prop) (i i' : ClientServerInterface) : Prop :=
  (exists o o', nth_error (ClientServerInterface_operations i) n = Some o /\ nth_error (ClientServerInterface_operations i') n = Some o' /\ change o o') /\
  (forall m, m <> n -> nth_error (ClientServerInterface_operations i') m = nth_error (ClientServerInterface_operations i) m) /\
  ClientServerInterface_possible_errors i' = ClientServerInterface_possible_errors i /\
  ClientServerInterface_ident i' = ClientServerInterface_ident i /\ ClientServerInterface_is_service i' = ClientServerInterface_is_service i /\
  ClientServerInterface_service_kind i' = ClientServerInterface_service_kind i.

(** ** Mode declaration groups *)
Definition describes_mode (name : string) (kw : keyword_args) (m : ModeDeclaration) : Prop :=
  only ("value" :: common_arguments) kw /\ identity name kw (ModeDeclaration_ident m) /\ holds means_count kw "value" (ModeDeclaration_value m).
Definition describes_error_behavior (kw : keyword_args) (b : ModeErrorBehavior) : Prop :=
  only ["default_mode_ref"; "error_reaction_policy"] kw /\ holds means_mode_ref kw "default_mode_ref" (ModeErrorBehavior_default_mode_ref b) /\
  holds (is_a OModeErrorReactionPolicy) kw "error_reaction_policy" (ModeErrorBehavior_error_reaction_policy b).
Definition describes_transition (name : string) (kw : keyword_args) (t : ModeTransition) : Prop :=
  only (["entered_mode_ref"; "exited_mode_ref"] ++ common_arguments) kw /\ identity name kw (ModeTransition_ident t) /\
  holds means_mode_ref kw "entered_mode_ref" (ModeTransition_entered_mode_ref t) /\ holds means_mode_ref kw "exited_mode_ref" (ModeTransition_exited_mode_ref t).
(** A mode with nothing but a name and perhaps a number. *)
Definition plain_mode (name : string) (value : option Z) : ModeDeclaration := mkModeDeclaration (mkIdent name None None None None None None None) value.
Inductive means_mode : arg -> ModeDeclaration -> Prop :=
| mode_object m : means_mode (AObj (OModeDeclaration m)) m
| mode_text s : means_mode (AStr s) (plain_mode s None)
| mode_single s : means_mode (ATuple [AStr s]) (plain_mode s None)
| mode_pair s a z : means_count a z -> means_mode (ATuple [AStr s; a]) (plain_mode s (Some z))
| mode_no_number s : means_mode (ATuple [AStr s; ANone]) (plain_mode s None).
Inductive means_modes : arg -> list ModeDeclaration -> Prop :=
| modes_one m : means_modes (AObj (OModeDeclaration m)) [m]
| modes_list l ms : Forall2 means_mode l ms -> means_modes (AList l) ms.
Definition describes_mode_group (name : string) (kw : keyword_args) (g : ModeDeclarationGroup) : Prop :=
  only (["mode_declarations"; "initial_mode_ref"; "mode_manager_error_behavior"; "mode_transitions"; "mode_user_error_behavior"; "on_transition_value"] ++ common_arguments) kw /\
  identity name kw (ModeDeclarationGroup_ident g) /\
  holds means_mode_ref kw "initial_mode_ref" (ModeDeclarationGroup_initial_mode_ref g) /\
  holds_list means_modes kw "mode_declarations" (ModeDeclarationGroup_mode_declarations g) /\
  holds (is_a OModeErrorBehavior) kw "mode_manager_error_behavior" (ModeDeclarationGroup_mode_manager_error_behavior g) /\
  holds_list (means_list (is_a OModeTransition)) kw "mode_transitions" (ModeDeclarationGroup_mode_transitions g) /\
  holds (is_a OModeErrorBehavior) kw "mode_user_error_behavior" (ModeDeclarationGroup_mode_user_error_behavior g) /\
  holds means_count kw "on_transition_value" (ModeDeclarationGroup_on_transition_value g).
Definition one_more_mode (g : ModeDeclarationGroup) (m : ModeDeclaration) (g' : ModeDeclarationGroup) : Prop :=
  ModeDeclarationGroup_mode_declarations g' = ModeDeclarationGroup_mode_declarations g ++ [m] /\
  ModeDeclarationGroup_mode_transitions g' = ModeDeclarationGroup_mode_transitions g /\
  ModeDeclarationGroup_ident g' = ModeDeclarationGroup_ident g /\ ModeDeclarationGroup_initial_mode_ref g' = ModeDeclarationGroup_initial_mode_ref g /\
  ModeDeclarationGroup_mode_manager_error_behavior g' = ModeDeclarationGroup_mode_manager_error_behavior g /\
  ModeDeclarationGroup_mode_user_error_behavior g' = ModeDeclarationGroup_mode_user_error_behavior g /\
  ModeDeclarationGroup_on_transition_value g' = ModeDeclarationGroup_on_transition_value g.
Definition one_more_transition (g : ModeDeclarationGroup) (t : ModeTransition) (g' : ModeDeclarationGroup) : Prop :=
  ModeDeclarationGroup_mode_declarations g' = ModeDeclarationGroup_mode_declarations g /\
  ModeDeclarationGroup_mode_transitions g' = ModeDeclarationGroup_mode_transitions g ++ [t] /\
  ModeDeclarationGroup_ident g' = ModeDeclarationGroup_ident g /\ ModeDeclarationGroup_initial_mode_ref g' = ModeDeclarationGroup_initial_mode_ref g /\
  ModeDeclarationGroup_mode_manager_error_behavior g' = ModeDeclarationGroup_mode_manager_error_behavior g /\
  ModeDeclarationGroup_mode_user_error_behavior g' = ModeDeclarationGroup_mode_user_error_behavior g /\
  ModeDeclarationGroup_on_transition_value g' = ModeDeclarationGroup_on_transition_value g.
