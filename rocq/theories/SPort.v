(** What the communication specifications of a port must be for given arguments, independently of
    how they are made. *)
From Verif Require Import Base MNum MXml MEnum MRefTab MRef MCodec MElem0 MElem1 MElemA MElemB MElemC MElem2 MElemD MElem3 MElem4 MElemE MArxml MFind MValue MEvent MPort.
From Verif Require SLiteral.

(** The parts of an interface that a com-spec can be about. *)
Inductive part := Data (d : VariableDataPrototype) | Operation (o : ClientServerOperation) | Group (g : ModeDeclarationGroupPrototype).
Definition parts (i : interface) : list part :=
  match i with
  | IfSenderReceiver e => map Data (SenderReceiverInterface_data_elements e)
  | IfClientServer e => map Operation (ClientServerInterface_operations e)
  | IfModeSwitch e _ => match ModeSwitchInterface_mode_group e with Some g => [Group g] | None => [] end
  | IfNvData _ | IfParameter _ => []
  end.
Definition part_name (p : part) : string :=
  match p with
  | Data d => id_name (VariableDataPrototype_ident d)
  | Operation o => id_name (ClientServerOperation_ident o)
  | Group g => id_name (ModeDeclarationGroupPrototype_ident g)
  end.
Definition part_dest (p : part) : IdentifiableSubTypes :=
  match p with
  | Data _ => IdentifiableSubTypes_VARIABLE_DATA_PROTOTYPE
  | Operation _ => IdentifiableSubTypes_CLIENT_SERVER_OPERATION
  | Group _ => IdentifiableSubTypes_MODE_DECLARATION_GROUP_PROTOTYPE
  end.
(** The reference to a part; there is none while the interface is outside of a package. *)
Definition ref_to_part (path : option string) (p : part) : option ref :=
  match path with Some s => Some (mkRef (s ++ "/" ++ part_name p) (part_dest p)) | None => None end.
(** The interface is in a package, and its mode group knows it. *)
Definition located (i : interface_arg) : Prop :=
  ia_path i <> None /\ match ia_interface i with IfModeSwitch _ adopted => adopted = true | _ => True end.
Definition queued (d : VariableDataPrototype) : Prop :=
  exists p c l, VariableDataPrototype_sw_data_def_props d = Some p /\ SwDataDefProps_variants p = c :: l /\ dd_impl_policy c = Some SwImplPolicy_QUEUED.

(** ** Keyword arguments *)
(** The value given for a keyword; None counts as not given. *)
Definition given (k : string) (kw : keyword_args) : option arg :=
  match assoc k kw with Some ANone => None | x => x end.
(** An attribute holds what is given for the keyword. *)
Definition holds {A} (means : arg -> A -> Prop) (kw : keyword_args) (k : string) (v : option A) : Prop :=
  match given k kw, v with
  | None, None => True
  | Some a, Some x => means a x
  | _, _ => False
  end.
(** No keyword but these. *)
Definition only (names : list string) (kw : keyword_args) : Prop := forall k, In k (map fst kw) -> In k names.

Inductive falsy : arg -> Prop :=
| falsy_none : falsy ANone
| falsy_bool : falsy (ABool false)
| falsy_int : falsy (ANum (NInt 0))
| falsy_float neg e : falsy (ANum (NFloat (FFin neg 0 e)))
| falsy_str : falsy (AStr "")
| falsy_list : falsy (AList [])
| falsy_tuple : falsy (ATuple [])
| falsy_dict : falsy (ADict [])
| falsy_props p : SwDataDefProps_variants p = [] -> falsy (AObj (OSwDataDefProps p)).
Definition means_flag (a : arg) (b : bool) : Prop := b = false <-> falsy a.
Inductive means_count : arg -> Z -> Prop :=
| count_int z : (0 <= z)%Z -> means_count (ANum (NInt z)) z
| count_false : means_count (ABool false) 0
| count_true : means_count (ABool true) 1.
Inductive means_float : arg -> pynum -> Prop :=
| float_number n : means_float (ANum n) (NFloat (to_float n))
| float_text s f : SLiteral.float_text s f -> means_float (AStr s) (NFloat f)
| float_false : means_float (ABool false) (NFloat (to_float (NInt 0)))
| float_true : means_float (ABool true) (NFloat (to_float (NInt 1))).
Definition means_handle_out_of_range a x := a = AObj (OHandleOutOfRange x).
Definition means_handle_out_of_range_status a x := a = AObj (OHandleOutOfRangeStatus x).
Definition means_handle_timeout a x := a = AObj (OHandleTimeout x).
Definition means_sw_data_def_props a x := a = AObj (OSwDataDefProps x).
Definition means_transmission_props a x := a = AObj (OTransmissionComSpecProps x).
Definition means_data_filter a x := a = AObj (ODataFilter x).
Definition means_value_specification a x := a = AObj (OValueSpecification x).
Definition means_reception_props a x := a = AObj (OReceptionComSpecProps x).
Definition means_variable_access a x := a = AObj (OVariableAccess x).
(** A number stands for a request with that timeout. *)
Inductive means_transmission_ack : arg -> TransmissionAcknowledgementRequest -> Prop :=
| ack_object x : means_transmission_ack (AObj (OTransmissionAcknowledgementRequest x)) x
| ack_number a t : (forall s, a <> AStr s) -> means_float a t -> means_transmission_ack a (mkTransmissionAcknowledgementRequest (Some t)).
Inductive means_mode_ack : arg -> ModeSwitchedAckRequest -> Prop :=
| mode_ack_object x : means_mode_ack (AObj (OModeSwitchedAckRequest x)) x
| mode_ack_number a t : (forall s, a <> AStr s) -> means_float a t -> means_mode_ack a (mkModeSwitchedAckRequest (Some t)).
(** One object or a list of them. *)
Definition holds_transformations (kw : keyword_args) (k : string) (l : list EndToEndTransformationComSpecProps) : Prop :=
  match given k kw with
  | None => l = []
  | Some (AList args) => args = map (fun x => AObj (OEndToEndTransformationComSpecProps x)) l
  | Some a => exists x, a = AObj (OEndToEndTransformationComSpecProps x) /\ l = [x]
  end.
(** An initial value: a value specification, a reference to a constant, or data that
    ValueSpecification.make_value accepts (property C19). *)
Inductive means_value : arg -> ValueSpecificationElement -> Prop :=
| value_object e : means_value (AObj (OValueSpecification e)) e
| value_constant c r : rc_name c = "ConstantRef" -> means_value (AObj (ORef c r)) (ConstantReference None (Some r))
| value_data a m e : make_value (data_of_arg a) = Ok m -> spec_of (storable m) = Some e -> means_value a e.

(** ** Which com-spec belongs to a part *)
Definition sender_holds (kw : keyword_args) hor nr ack props e2e : Prop :=
  holds means_handle_out_of_range kw "handle_out_of_range" hor /\
  holds means_sw_data_def_props kw "network_representation" nr /\
  holds means_transmission_ack kw "transmission_acknowledge" ack /\
  holds means_transmission_props kw "tranmsission_props" props /\
  holds means_flag kw "uses_end_to_end_protection" e2e.
Definition sender_keywords := ["handle_out_of_range"; "network_representation"; "transmission_acknowledge"; "tranmsission_props"; "uses_end_to_end_protection"].
Definition provided_for (path : option string) (p : part) (kw : keyword_args) (s : ProvidePortComSpec) : Prop :=
  match p, s with
  | Data d, ProvidePortComSpec_QueuedSenderComSpec (mkQueuedSenderComSpec r hor nr ack props e2e) =>
      queued d /\ r = ref_to_part path p /\ only sender_keywords kw /\ sender_holds kw hor nr ack props e2e
  | Data d, ProvidePortComSpec_NonqueuedSenderComSpec (mkNonqueuedSenderComSpec r hor nr ack props e2e filter init) =>
      ~ queued d /\ r = ref_to_part path p /\ only ("init_value" :: "data_filter" :: sender_keywords) kw /\ sender_holds kw hor nr ack props e2e /\
      holds means_data_filter kw "data_filter" filter /\ holds means_value kw "init_value" init
  | Operation o, ProvidePortComSpec_ServerComSpec (mkServerComSpec r queue props) =>
      r = ref_to_part path p /\ only ["queue_length"; "transformation_com_spec_props"] kw /\
      holds means_count kw "queue_length" queue /\ holds_transformations kw "transformation_com_spec_props" props
  | Group g, ProvidePortComSpec_ModeSwitchSenderComSpec (mkModeSwitchSenderComSpec r api ack queue) =>
      r = ref_to_part path p /\ only ["enhanced_mode_api"; "mode_switched_ack"; "queue_length"] kw /\
      holds means_flag kw "enhanced_mode_api" api /\ holds means_mode_ack kw "mode_switched_ack" ack /\ holds means_count kw "queue_length" queue
  | _, _ => False
  end.
Definition receiver_holds (kw : keyword_args) hor hors delta repeated nr props replace sync transf e2e : Prop :=
  holds means_handle_out_of_range kw "handle_out_of_range" hor /\
  holds means_handle_out_of_range_status kw "handle_out_of_range_status" hors /\
  holds means_count kw "max_delta_counter_init" delta /\
  holds means_count kw "max_no_new_repeated_data" repeated /\
  holds means_sw_data_def_props kw "network_representation" nr /\
  holds means_reception_props kw "reception_props" props /\
  holds means_variable_access kw "replace_with" replace /\
  holds means_count kw "sync_counter_init" sync /\
  holds_transformations kw "transformation_com_spec_props" transf /\
  holds means_flag kw "uses_end_to_end_protection" e2e.
Definition receiver_keywords := ["handle_out_of_range"; "handle_out_of_range_status"; "max_delta_counter_init"; "max_no_new_repeated_data";
  "network_representation"; "reception_props"; "replace_with"; "sync_counter_init"; "transformation_com_spec_props"; "uses_end_to_end_protection"].
Definition required_for (path : option string) (p : part) (kw : keyword_args) (s : RequirePortComSpec) : Prop :=
  match p, s with
  | Data d, RequirePortComSpec_QueuedReceiverComSpec (mkQueuedReceiverComSpec r hor hors delta repeated nr props replace sync transf e2e queue) =>
      queued d /\ r = ref_to_part path p /\ only ("queue_length" :: receiver_keywords) kw /\
      receiver_holds kw hor hors delta repeated nr props replace sync transf e2e /\ holds means_count kw "queue_length" queue
  | Data d, RequirePortComSpec_NonqueuedReceiverComSpec
              (mkNonqueuedReceiverComSpec r hor hors delta repeated nr props replace sync transf e2e alive update filter status never timeout init subst) =>
      ~ queued d /\ r = ref_to_part path p /\
      only (["alive_timeout"; "enable_update"; "data_filter"; "handle_data_status"; "handle_never_received"; "handle_timeout_type"; "init_value";
             "timeout_substitution_value"] ++ receiver_keywords) kw /\
      receiver_holds kw hor hors delta repeated nr props replace sync transf e2e /\
      holds means_float kw "alive_timeout" alive /\ holds means_flag kw "enable_update" update /\ holds means_data_filter kw "data_filter" filter /\
      holds means_flag kw "handle_data_status" status /\ holds means_flag kw "handle_never_received" never /\
      holds means_handle_timeout kw "handle_timeout_type" timeout /\ holds means_value kw "init_value" init /\
      holds means_value_specification kw "timeout_substitution_value" subst
  | Operation o, RequirePortComSpec_ClientComSpec (mkClientComSpec r timeout props) =>
      r = ref_to_part path p /\ only ["e2e_call_respone_timeout"; "transformation_com_spec_props"] kw /\
      holds means_float kw "e2e_call_respone_timeout" timeout /\ holds_transformations kw "transformation_com_spec_props" props
  | Group g, RequirePortComSpec_ModeSwitchReceiverComSpec (mkModeSwitchReceiverComSpec r api async) =>
      r = ref_to_part path p /\ only ["enhanced_mode_api"; "supports_async"] kw /\
      holds means_flag kw "enhanced_mode_api" api /\ holds means_flag kw "supports_async" async
  | _, _ => False
  end.

(** ** Which com-specs a dict asks for *)
(** The parts named by the dict, in the order of the interface; of parts with the same name only the
    first counts. *)
Fixpoint firsts (ps : list part) : list part :=
  match ps with
  | [] => []
  | p :: ps => p :: filter (fun q => negb (String.eqb (part_name q) (part_name p))) (firsts ps)
  end.
Definition is_named (kw : keyword_args) (p : part) : bool := existsb (String.eqb (part_name p)) (map fst kw).
Section Asked.
Context {A : Type} (belongs : part -> keyword_args -> A -> Prop).
Inductive asked : list part -> keyword_args -> list A -> Prop :=
| asked_one p kw s : belongs p kw s -> asked [p] kw [s]
| asked_many p q ps kw l :
    (forall k, In k (map fst kw) -> In k (map part_name (p :: q :: ps)) /\ k <> "cls" /\ k <> "port_interface") ->
    Forall2 (fun p s => exists kw', assoc (part_name p) kw = Some (ADict kw') /\ belongs p kw' s)
      (filter (is_named kw) (firsts (p :: q :: ps))) l ->
    asked (p :: q :: ps) kw l.
End Asked.
(** The com-specs made. *)
Definition spec_list {A} (s : specs A) : list A := match s with One a => [a] | Many l => l end.
(** The pairs of a list, as a dict; the com-specs of a list. *)
Fixpoint pairs_of (l : list com_spec_item) : keyword_args :=
  match l with
  | ItemTuple [AStr k; v] :: l => (k, v) :: pairs_of l
  | _ :: l => pairs_of l
  | [] => []
  end.
Fixpoint objects_of (l : list com_spec_item) : list com_spec_object :=
  match l with
  | ItemSpec s :: l => s :: objects_of l
  | _ :: l => objects_of l
  | [] => []
  end.
(** Every item is a com-spec or a pair with a name. *)
Definition usable (l : list com_spec_item) : Prop :=
  Forall (fun x => match x with ItemSpec _ => True | ItemTuple [AStr _; _] => True | _ => False end) l.
(** A dict with these pairs; of pairs with the same name the last counts. *)
Definition dict_with (d pairs : keyword_args) : Prop := NoDup (map fst d) /\ forall k, assoc k d = assoc k (rev pairs).
(** ** Which com-specs an argument asks for *)
Section Wanted.
Context {A : Type} (belongs : part -> keyword_args -> A -> Prop) (object : A -> com_spec_object) (ps : list part).
Inductive wanted_items (items : list com_spec_item) : list A -> Prop :=
| wanted_objects l : usable items -> objects_of items = map object l -> pairs_of items = [] -> wanted_items items l
| wanted_pairs l d made : usable items -> objects_of items = map object l -> pairs_of items <> [] -> (2 <= List.length ps)%nat ->
    dict_with d (pairs_of items) -> asked belongs ps d made -> wanted_items items (l ++ made).
Inductive wanted : com_spec_arg -> list A -> Prop :=
| wanted_nothing : wanted CNone []
| wanted_dict d l : asked belongs ps d l -> wanted (CDict d) l
| wanted_list items l : wanted_items items l -> wanted (CList items) l
| wanted_iterable items l : wanted_items items l -> wanted (CIterable items) l.
End Wanted.
(** No single com-spec object, and nothing that is neither a dict nor iterable. *)
Definition supported (c : com_spec_arg) : Prop := match c with CSpec _ | COther => False | _ => True end.
(** The keys of a dict are distinct. *)
Definition distinct_keys (c : com_spec_arg) : Prop := match c with CDict d => NoDup (map fst d) | _ => True end.
(** The reference to an interface; none while it is outside of a package. *)
Definition ref_to_interface (i : interface_arg) : option ref :=
  match ia_path i with
  | None => None
  | Some p => Some (mkRef p match ia_interface i with
                            | IfSenderReceiver _ => IdentifiableSubTypes_SENDER_RECEIVER_INTERFACE
                            | IfClientServer _ => IdentifiableSubTypes_CLIENT_SERVER_INTERFACE
                            | IfModeSwitch _ _ => IdentifiableSubTypes_MODE_SWITCH_INTERFACE
                            | IfNvData _ => IdentifiableSubTypes_NV_DATA_INTERFACE
                            | IfParameter _ => IdentifiableSubTypes_PARAMETER_INTERFACE
                            end)
  end.
(** None or a dict. *)
Definition plain (c : com_spec_arg) : Prop := match c with CNone | CDict _ => True | _ => False end.
(** Com-specs for the provided side only, of an interface with several parts. *)
Definition refused (ps : list part) (provided required : com_spec_arg) : Prop :=
  (2 <= List.length ps)%nat /\ (exists d, provided = CDict d) /\ required = CNone.
(** The reference a com-spec holds. *)
Definition provided_ref (s : ProvidePortComSpec) : option ref :=
  match s with
  | ProvidePortComSpec_ModeSwitchSenderComSpec e => ModeSwitchSenderComSpec_mode_group_ref e
  | ProvidePortComSpec_QueuedSenderComSpec e => QueuedSenderComSpec_data_element_ref e
  | ProvidePortComSpec_NonqueuedSenderComSpec e => NonqueuedSenderComSpec_data_element_ref e
  | ProvidePortComSpec_ServerComSpec e => ServerComSpec_operation_ref e
  | ProvidePortComSpec_NvProvideComSpec _ | ProvidePortComSpec_ParameterProvideComSpec _ => None
  end.
Definition required_ref (s : RequirePortComSpec) : option ref :=
  match s with
  | RequirePortComSpec_QueuedReceiverComSpec e => QueuedReceiverComSpec_data_element_ref e
  | RequirePortComSpec_NonqueuedReceiverComSpec e => NonqueuedReceiverComSpec_data_element_ref e
  | RequirePortComSpec_ModeSwitchReceiverComSpec e => ModeSwitchReceiverComSpec_mode_group_ref e
  | RequirePortComSpec_ClientComSpec e => ClientComSpec_operation_ref e
  | RequirePortComSpec_NvRequireComSpec _ | RequirePortComSpec_ParameterRequireComSpec _ => None
  end.
