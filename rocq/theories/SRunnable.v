(** Which runnable, exclusive area and internal behavior given arguments describe, independently of
    how they are made. *)
From Verif Require Import Base MHeap SHeap MNames MWork MNum MXml MEnum MRefTab MRef MCodec MElem0 MElem1 MElemA MElemB MElemC MElem2 MElemD MElem3 MElem4 MElemE MElem5 MElemF MArxml MFind SFind MValue MEvent SEvent MPort SPort MAccess SAccess MRunnable.
Open Scope list_scope.

(** ** One object or several *)
(** An object, or a list or tuple of objects; other things that have no elements stand for none. *)
Inductive means_objects {A} (make : A -> lib_object) : arg -> list A -> Prop :=
| objects_one x : means_objects make (AObj (make x)) [x]
| objects_list l : means_objects make (AList (map (fun x => AObj (make x)) l)) l
| objects_tuple l : means_objects make (ATuple (map (fun x => AObj (make x)) l)) l
| objects_no_text : means_objects make (AStr "") []
| objects_no_keys : means_objects make (ADict []) []
| objects_no_props p : SwDataDefProps_variants p = [] -> means_objects make (AObj (OSwDataDefProps p)) [].
(** One, or a list. *)
Inductive means_list {A} (means : arg -> A -> Prop) : arg -> list A -> Prop :=
| list_one a x : means a x -> means_list means a [x]
| list_several l xs : Forall2 means l xs -> means_list means (AList l) xs.
(** A list attribute holds what is given; nothing when nothing is given. *)
Definition holds_list {A} (means : arg -> list A -> Prop) (kw : keyword_args) (k : string) (l : list A) : Prop :=
  match given k kw with None => l = [] | Some a => means a l end.
(** The elements in order, where a later element of the same name changes the name of an earlier. *)
Inductive in_turn {A} (name_of : A -> string) (rename : string -> A -> A) : list A -> list A -> Prop :=
| in_turn_none : in_turn name_of rename [] []
| in_turn_next l l' a l'' : in_turn name_of rename l l' -> added name_of rename l' a l'' -> in_turn name_of rename (l ++ [a]) l''.
Definition holds_named {A} (make : A -> lib_object) (name_of : A -> string) (rename : string -> A -> A) (kw : keyword_args) (k : string) (l : list A) : Prop :=
  exists given, holds_list (means_objects make) kw k given /\ in_turn name_of rename given l.

(** ** References *)
(** An exclusive area: a reference, wrapped or not, or the text of one. *)
Inductive means_exclusive_area : arg -> ExclusiveAreaRefConditional -> Prop :=
| exclusive_area_wrapped e : means_exclusive_area (AObj (OExclusiveAreaRefConditional e)) e
| exclusive_area_text s : means_exclusive_area (AStr s) (mkExclusiveAreaRefConditional (Some (mkRef s IdentifiableSubTypes_EXCLUSIVE_AREA)))
| exclusive_area_ref c r : rc_name c = "ExclusiveAreaRef" -> rf_dest r = IdentifiableSubTypes_EXCLUSIVE_AREA ->
    means_exclusive_area (AObj (ORef c r)) (mkExclusiveAreaRefConditional (Some r)).
Inductive of_class (class : string) : arg -> ref -> Prop :=
| of_class_ref c r : rc_name c = class -> of_class class (AObj (ORef c r)) r.
(** Nesting orders: a reference or a list of them; other values than lists are ignored. *)
Inductive means_nesting_orders : arg -> list ref -> Prop :=
| nesting_given a l : means_list (of_class "ExclusiveAreaNestingOrderRef") a l -> means_nesting_orders a l
| nesting_ignored a : (forall l, a <> AList l) -> (forall r, ~ of_class "ExclusiveAreaNestingOrderRef" a r) -> means_nesting_orders a [].
Inductive means_addr_method : arg -> ref -> Prop :=
| addr_method_text s : means_addr_method (AStr s) (mkRef s IdentifiableSubTypes_SW_ADDR_METHOD)
| addr_method_ref c r : rf_dest r = IdentifiableSubTypes_SW_ADDR_METHOD -> means_addr_method (AObj (ORef c r)) r.
Definition means_reentrancy a x := a = AObj (OReentrancyLevel x).
Definition means_reason a x := a = AObj (OExecutableEntityActivationReason x).

(** ** The runnable *)
(** The texts in an argument. *)
Inductive mentions : arg -> string -> Prop :=
| mentions_text s : mentions (AStr s) s
| mentions_list l s : In (AStr s) l -> mentions (AList l) s
| mentions_tuple l s : In (AStr s) l -> mentions (ATuple l) s
| mentions_key l s : In s (map fst l) -> mentions (ADict l) s.
(** The elements that have the property, in order. *)
Inductive those {A} (P : A -> Prop) : list A -> list A -> Prop :=
| those_none : those P [] []
| those_in a l l' : P a -> those P l l' -> those P (a :: l) (a :: l')
| those_out a l l' : ~ P a -> those P l l' -> those P (a :: l) l'.
(** The reference to an exclusive area of the behavior of the component at [self]. *)
Definition ref_to_area (self : list string) (b : SwcInternalBehavior) (a : ExclusiveArea) : ref :=
  mkRef (path_string (self ++ [id_name (SwcInternalBehavior_ident b); area_name a])) IdentifiableSubTypes_EXCLUSIVE_AREA.
(** The exclusive areas the runnable can enter.  When names are given each must be the name of an area
    of the behavior; the areas so named are referred to in the order of the behavior. *)
Inductive means_areas (self : list string) (b : SwcInternalBehavior) : arg -> list ExclusiveAreaRefConditional -> Prop :=
| areas_by_name a areas : (exists n, mentions a n) -> (forall n, mentions a n -> In n (map area_name (SwcInternalBehavior_exclusive_areas b))) ->
    those (fun x => mentions a (area_name x)) (SwcInternalBehavior_exclusive_areas b) areas ->
    means_areas self b a (map (fun x => mkExclusiveAreaRefConditional (Some (ref_to_area self b x))) areas)
| areas_by_ref a l : (forall n, ~ mentions a n) -> means_list means_exclusive_area a l -> means_areas self b a l.
(** The symbol is the name unless given; None stands for no symbol. *)
Inductive has_symbol (name : string) (kw : keyword_args) : option string -> Prop :=
| symbol_default : assoc "symbol" kw = None -> has_symbol name kw (Some name)
| symbol_empty : assoc "symbol" kw = Some (AStr "") -> has_symbol name kw (Some name)
| symbol_given s : assoc "symbol" kw = Some (AStr s) -> s <> "" -> has_symbol name kw (Some s)
| symbol_none : assoc "symbol" kw = Some ANone -> has_symbol name kw None.
Definition runnable_arguments : list string :=
  ["can_be_invoked_concurrently"; "minimum_start_interval"; "symbol"; "activation_reasons"; "can_enter_leave"; "exclusive_area_nesting_order";
   "reentrancy_level"; "runs_insides"; "sw_addr_method"; "argument"; "async_server_call_result_point"; "data_read_access";
   "data_receive_point_by_argument"; "data_receive_point_by_value"; "data_send_point"; "data_write_access"; "external_triggering_point";
   "internal_triggering_point"; "mode_access_point"; "mode_switch_point"; "parameter_access"; "read_local_variable"; "write_local_variable";
   "server_call_point"; "wait_point"; "desc"; "category"; "uuid"; "admin_data"; "long_name"].
(** The runnable that a name and keyword arguments describe, in a behavior of the component at [self]. *)
Record describes (self : list string) (b : SwcInternalBehavior) (name : string) (kw : keyword_args) (r : RunnableEntity) : Prop := {
  ds_only : only runnable_arguments kw;
  ds_identity : identity name kw (RunnableEntity_ident r);
  ds_symbol : has_symbol name kw (RunnableEntity_symbol r);
  ds_concurrently : holds means_flag kw "can_be_invoked_concurrently" (RunnableEntity_can_be_invoked_concurrently r);
  ds_interval : holds means_float kw "minimum_start_interval" (RunnableEntity_minimum_start_interval r);
  ds_reentrancy : holds means_reentrancy kw "reentrancy_level" (RunnableEntity_reentrancy_level r);
  ds_addr_method : holds means_addr_method kw "sw_addr_method" (RunnableEntity_sw_addr_method r);
  ds_enter : holds_list (means_areas self b) kw "can_enter_leave" (RunnableEntity_can_enter_leave r);
  ds_inside : holds_list (means_list means_exclusive_area) kw "runs_insides" (RunnableEntity_runs_insides r);
  ds_nesting : holds_list means_nesting_orders kw "exclusive_area_nesting_order" (RunnableEntity_exclusive_area_nesting_order r);
  ds_reasons : holds_list (means_list means_reason) kw "activation_reasons" (RunnableEntity_activation_reasons r);
  ds_argument : holds_list (means_objects ORunnableEntityArgument) kw "argument" (RunnableEntity_argument r);
  ds_external : holds_list (means_objects OExternalTriggeringPoint) kw "external_triggering_point" (RunnableEntity_external_triggering_point r);
  ds_mode_access : holds_list (means_objects OModeAccessPoint) kw "mode_access_point" (RunnableEntity_mode_access_point r);
  ds_result : holds_named OAsynchronousServerCallResultPoint result_point_name rename_result_point kw "async_server_call_result_point" (RunnableEntity_async_server_call_result_point r);
  ds_read : holds_named OVariableAccess variable_access_name rename_variable_access kw "data_read_access" (RunnableEntity_data_read_access r);
  ds_by_argument : holds_named OVariableAccess variable_access_name rename_variable_access kw "data_receive_point_by_argument" (RunnableEntity_data_receive_point_by_argument r);
  ds_by_value : holds_named OVariableAccess variable_access_name rename_variable_access kw "data_receive_point_by_value" (RunnableEntity_data_receive_point_by_value r);
  ds_send : holds_named OVariableAccess variable_access_name rename_variable_access kw "data_send_point" (RunnableEntity_data_send_point r);
  ds_write : holds_named OVariableAccess variable_access_name rename_variable_access kw "data_write_access" (RunnableEntity_data_write_access r);
  ds_internal : holds_named OInternalTriggeringPoint triggering_point_name rename_triggering_point kw "internal_triggering_point" (RunnableEntity_internal_triggering_point r);
  ds_switch : holds_named OModeSwitchPoint mode_switch_point_name rename_mode_switch_point kw "mode_switch_point" (RunnableEntity_mode_switch_point r);
  ds_parameter : holds_named OParameterAccess parameter_access_name rename_parameter_access kw "parameter_access" (RunnableEntity_parameter_access r);
  ds_read_local : holds_named OVariableAccess variable_access_name rename_variable_access kw "read_local_variable" (RunnableEntity_read_local_variable r);
  ds_write_local : holds_named OVariableAccess variable_access_name rename_variable_access kw "write_local_variable" (RunnableEntity_write_local_variable r);
  ds_call : holds_named OServerCallPoint server_call_point_name rename_server_call_point kw "server_call_point" (RunnableEntity_server_call_point r);
  ds_wait : holds_named OWaitPoint wait_point_name rename_wait_point kw "wait_point" (RunnableEntity_wait_point r) }.
(** The behavior with one more runnable, or one more exclusive area, at the end. *)
Definition one_more_runnable (b : SwcInternalBehavior) (r : RunnableEntity) (b' : SwcInternalBehavior) : Prop :=
  SwcInternalBehavior_ident b' = SwcInternalBehavior_ident b /\
  SwcInternalBehavior_data_type_mappings b' = SwcInternalBehavior_data_type_mappings b /\
  SwcInternalBehavior_exclusive_areas b' = SwcInternalBehavior_exclusive_areas b /\
  SwcInternalBehavior_events b' = SwcInternalBehavior_events b /\
  SwcInternalBehavior_port_api_options b' = SwcInternalBehavior_port_api_options b /\
  SwcInternalBehavior_runnables b' = SwcInternalBehavior_runnables b ++ [r].
Definition one_more_area (b : SwcInternalBehavior) (a : ExclusiveArea) (b' : SwcInternalBehavior) : Prop :=
  SwcInternalBehavior_ident b' = SwcInternalBehavior_ident b /\
  SwcInternalBehavior_data_type_mappings b' = SwcInternalBehavior_data_type_mappings b /\
  SwcInternalBehavior_exclusive_areas b' = SwcInternalBehavior_exclusive_areas b ++ [a] /\
  SwcInternalBehavior_events b' = SwcInternalBehavior_events b /\
  SwcInternalBehavior_port_api_options b' = SwcInternalBehavior_port_api_options b /\
  SwcInternalBehavior_runnables b' = SwcInternalBehavior_runnables b.

(** ** Histories *)
Inductive building := CreateArea (name : string) (kw : keyword_args) | CreateRunnable (name : string) (kw : keyword_args).
(** One call, and any number of calls where the caller goes on after exceptions. *)
Definition build (o : option owner) (b : SwcInternalBehavior) (x : building) : SwcInternalBehavior :=
  match x with
  | CreateArea n kw => fst (create_exclusive_area b n kw)
  | CreateRunnable n kw => fst (create_runnable o b n kw)
  end.
Definition build_all (o : option owner) (b : SwcInternalBehavior) (l : list building) : SwcInternalBehavior := fold_left (build o) l b.
(** What the calls give, one after the other. *)
Inductive built (self : list string) : SwcInternalBehavior -> list building -> list ExclusiveArea -> list RunnableEntity -> Prop :=
| built_none b : built self b [] [] []
| built_area b n kw a b' l areas runnables : only ["desc"; "category"; "uuid"; "admin_data"; "long_name"] kw -> identity n kw (ExclusiveArea_ident a) ->
    one_more_area b a b' -> built self b' l areas runnables -> built self b (CreateArea n kw :: l) (a :: areas) runnables
| built_runnable b n kw r b' l areas runnables : describes self b n kw r ->
    one_more_runnable b r b' -> built self b' l areas runnables -> built self b (CreateRunnable n kw :: l) areas (r :: runnables)
| built_no_area b n kw l areas runnables : (forall a, ~ (only ["desc"; "category"; "uuid"; "admin_data"; "long_name"] kw /\ identity n kw (ExclusiveArea_ident a))) ->
    built self b l areas runnables -> built self b (CreateArea n kw :: l) areas runnables
| built_no_runnable b n kw l areas runnables : (forall r, ~ describes self b n kw r) ->
    built self b l areas runnables -> built self b (CreateRunnable n kw :: l) areas runnables.

(** ** The internal behavior of a component *)
Inductive means_mapping_sets : arg -> list ref -> Prop :=
| mapping_text s : means_mapping_sets (AStr s) [mkRef s IdentifiableSubTypes_DATA_TYPE_MAPPING_SET]
| mapping_one a r : of_class "DataTypeMappingSetRef" a r -> means_mapping_sets a [r]
| mapping_list l rs : Forall2 (of_class "DataTypeMappingSetRef") l rs -> means_mapping_sets (AList l) rs
| mapping_tuple l rs : Forall2 (of_class "DataTypeMappingSetRef") l rs -> means_mapping_sets (ATuple l) rs
| mapping_no_keys : means_mapping_sets (ADict []) []
| mapping_no_props p : SwDataDefProps_variants p = [] -> means_mapping_sets (AObj (OSwDataDefProps p)) [].
(** The name of the port that an option is about is the last part of the path. *)
Definition option_key (e : PortApiOption) (k : string) : Prop :=
  exists r, PortApiOption_port e = Some r /\ mem_char slash k = false /\ (rf_value r = k \/ exists front, rf_value r = (front ++ "/" ++ k)%string).
(** The options under the names of their ports: the last one given for a port, at the place of the
    first one; options without port are left out. *)
Inductive keyed : list PortApiOption -> list (string * PortApiOption) -> Prop :=
| keyed_none : keyed [] []
| keyed_no_port l m e : keyed l m -> PortApiOption_port e = None -> keyed (l ++ [e]) m
| keyed_new l m e k : keyed l m -> option_key e k -> ~ In k (map fst m) -> keyed (l ++ [e]) (m ++ [(k, e)])
| keyed_again l m1 old m2 e k : keyed l (m1 ++ (k, old) :: m2) -> option_key e k -> keyed (l ++ [e]) (m1 ++ (k, e) :: m2).
Definition default_behavior_name (c : ApplicationSoftwareComponentType) (name : option string) (n : string) : Prop :=
  match name with None => n = (id_name (ApplicationSoftwareComponentType_ident c) ++ "_InternalBehavior")%string | Some m => n = m end.
Record describes_behavior (name : string) (kw : keyword_args) (b : SwcInternalBehavior) : Prop := {
  db_only : only ["events"; "runnables"; "port_api_options"; "data_type_mappings"; "exclusive_areas"; "desc"; "category"; "uuid"; "admin_data"; "long_name"] kw;
  db_identity : identity name kw (SwcInternalBehavior_ident b);
  db_mappings : holds_list means_mapping_sets kw "data_type_mappings" (SwcInternalBehavior_data_type_mappings b);
  db_areas : holds_list (means_objects OExclusiveArea) kw "exclusive_areas" (SwcInternalBehavior_exclusive_areas b);
  db_events : holds_list (means_objects ORteEvent) kw "events" (SwcInternalBehavior_events b);
  db_runnables : holds_list (means_objects ORunnableEntity) kw "runnables" (SwcInternalBehavior_runnables b);
  db_options : exists l, holds_list (means_objects OPortApiOption) kw "port_api_options" l /\ keyed l (SwcInternalBehavior_port_api_options b) }.
