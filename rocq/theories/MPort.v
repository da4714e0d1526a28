(** Creating ports of a software component together with their communication specifications.
    Source: /repo/src/autosar/xml/element.py and xml/base.py.  No proofs in this file.
    The component is the list of its ports; functions that change it return it beside the outcome. *)
From Verif Require Import Base MNum MXml MEnum MRefTab MRef MCodec MElem0 MElem1 MElemA MElemB MElemC MElem2 MElemD MElem3 MElem4 MElemE MElem5 MElemF MArxml MFind MValue MEvent.

(** Library objects that occur as arguments, beside everything else ([AOther] below) *)
Inductive lib_object :=
| OHandleOutOfRange (e : HandleOutOfRange)
| OHandleOutOfRangeStatus (e : HandleOutOfRangeStatus)
| OHandleTimeout (e : HandleTimeout)
| OSwDataDefProps (e : SwDataDefProps)
| OTransmissionAcknowledgementRequest (e : TransmissionAcknowledgementRequest)
| OTransmissionComSpecProps (e : TransmissionComSpecProps)
| OModeSwitchedAckRequest (e : ModeSwitchedAckRequest)
| ODataFilter (e : DataFilter)
| OValueSpecification (e : ValueSpecificationElement)
| OEndToEndTransformationComSpecProps (e : EndToEndTransformationComSpecProps)
| OReceptionComSpecProps (e : ReceptionComSpecProps)
| OVariableAccess (e : VariableAccess)
| OSwDataDefPropsConditional (e : SwDataDefPropsConditional)
| OLanguage (e : Language)
| OLongName (e : list lang_text)
| OOverviewParagraph (e : list lang_text)
| OVariableAccessScope (e : VariableAccessScope)
| ORteApiReturnValueProvision (e : RteApiReturnValueProvision)
| OROperationInAtomicSwcInstanceRef (e : ROperationInAtomicSwcInstanceRef)
| OExecutableEntityActivationReason (e : ExecutableEntityActivationReason)
| OExclusiveAreaRefConditional (e : ExclusiveAreaRefConditional)
| OReentrancyLevel (e : ReentrancyLevel)
| ORunnableEntityArgument (e : RunnableEntityArgument)
| OAsynchronousServerCallResultPoint (e : AsynchronousServerCallResultPoint)
| OExternalTriggeringPoint (e : ExternalTriggeringPoint)
| OInternalTriggeringPoint (e : InternalTriggeringPoint)
| OModeAccessPoint (e : ModeAccessPoint)
| OModeSwitchPoint (e : ModeSwitchPoint)
| OParameterAccess (e : ParameterAccess)
| OServerCallPoint (e : ServerCallPointElement)
| OWaitPoint (e : WaitPoint)
| OExclusiveArea (e : ExclusiveArea)
| ORunnableEntity (e : RunnableEntity)
| ORteEvent (e : RteEvent)
| OPortApiOption (e : PortApiOption)
| OVariableDataPrototype (e : VariableDataPrototype)
| OParameterDataPrototype (e : ParameterDataPrototype)
| OArgumentDataPrototype (e : ArgumentDataPrototype)
| OInvalidationPolicy (e : InvalidationPolicy)
| OApplicationError (e : ApplicationError)
| OClientServerOperation (e : ClientServerOperation)
| OModeDeclarationGroupPrototype (e : ModeDeclarationGroupPrototype)
| OModeDeclaration (e : ModeDeclaration)
| OModeTransition (e : ModeTransition)
| OModeErrorBehavior (e : ModeErrorBehavior)
| OServiceKind (e : ServiceKind)
| OHandleInvalid (e : HandleInvalid)
| OArgumentDirection (e : ArgumentDirection)
| OServerArgImplPolicy (e : ServerArgImplPolicy)
| OSwCalibrationAccess (e : SwCalibrationAccess)
| OModeErrorReactionPolicy (e : ModeErrorReactionPolicy)
| OAnnotation (e : Annotation)
| OSwBitRepresentation (e : SwBitRepresentation)
| OSwTextProps (e : SwTextProps)
| OSwPointerTargetProps (e : SwPointerTargetProps)
| OImplementationDataTypeElement (e : ImplementationDataTypeElement)
| OApplicationArrayElement (e : ApplicationArrayElement)
| OApplicationRecordElement (e : ApplicationRecordElement)
| ODataTypeMap (e : DataTypeMap)
| OSymbolProps (e : SymbolProps)
| OUnitNames (e : SingleLanguageUnitNames)
| ODisplayPresentation (e : DisplayPresentation)
| OArrayImplPolicy (e : ArrayImplPolicy)
| OArraySizeHandling (e : ArraySizeHandling)
| OArraySizeSemantics (e : ArraySizeSemantics)
| OSwImplPolicy (e : SwImplPolicy)
| OLanguageLongName (e : lang_text)
| ONumericalValue (e : numval)
| OValueList (e : ValueList)
| OSwValues (e : SwValues)
| OValueGroup (label : option (list lang_text)) (values : list sw_value)
| OCalibrationAxisCategory (e : CalibrationAxisCategory)
| OSwAxisCont (e : SwAxisCont)
| OSwValueCont (e : SwValueCont)
| ODataFilterType (e : DataFilterType)
| OTransmissionMode (e : TransmissionMode)
| OByteOrder (e : ByteOrder)
| OAutosarEngineeringObject (e : AutosarEngineeringObject)
| OCode (e : Code)
| OPortInCompositionTypeInstanceRef (e : PortInCompositionTypeInstanceRef)
| OPOperationInAtomicSwcInstanceRef (e : POperationInAtomicSwcInstanceRef)
| OPTriggerInAtomicSwcTypeInstanceRef (e : PTriggerInAtomicSwcTypeInstanceRef)
| OModeGroupInAtomicSwcInstanceRef (e : ModeGroupInAtomicSwcInstanceRef)
| ORModeInAtomicSwcInstanceRef (e : RModeInAtomicSwcInstanceRef)
| ORVariableInAtomicSwcInstanceRef (e : RVariableInAtomicSwcInstanceRef)
| ORTriggerInAtomicSwcInstanceRef (e : RTriggerInAtomicSwcInstanceRef)
| OArVariableInImplementationDataInstanceRef (e : ArVariableInImplementationDataInstanceRef)
| OVariableInAtomicSWCTypeInstanceRef (e : VariableInAtomicSWCTypeInstanceRef)
| OAutosarVariableRef (e : AutosarVariableRef)
| OParameterInAtomicSwcTypeInstanceRef (e : ParameterInAtomicSwcTypeInstanceRef)
| OAutosarParameterRef (e : AutosarParameterRef)
| OExternalTriggeringPointIdent (e : ExternalTriggeringPointIdent)
| OModeAccessPointIdent (e : ModeAccessPointIdent)
| OModeActivationKind (e : ModeActivationKind)
| OPortDefinedArgumentValue (e : PortDefinedArgumentValue)
| OCommunicationBufferLocking (e : CommunicationBufferLocking)
| OSupportBufferLocking (e : SupportBufferLocking)
| ODataTransformationErrorHandling (e : DataTransformationErrorHandling)
| ODataTransformationStatusForwarding (e : DataTransformationStatusForwarding)
| OProvidePortComSpec (e : ProvidePortComSpec)
| ORequirePortComSpec (e : RequirePortComSpec)
| OPortPrototype (e : PortPrototypeElement)
| OSwComponentPrototype (e : SwComponentPrototype)
| OSwConnector (e : SwConnectorElement)
| OSwcInternalBehavior (e : SwcInternalBehavior)
| ODocumentationBlock (e : DocumentationBlock)
| OAdminData (e : AdminData)
| ORef (c : ref_class) (r : ref).
(** Python values given as keyword arguments.  Simplifications: the keys of a dict are str; an
    object of a type not listed is true. *)
Inductive arg :=
| ANone
| ABool (b : bool)
| ANum (n : pynum)
| AStr (s : string)
| AList (l : list arg)
| ATuple (l : list arg)
| ADict (l : list (string * arg))
| AObj (o : lib_object)
| AOther.
(** Keyword arguments, in the order of the dict *)
Definition keyword_args := list (string * arg).

(** ** Conversions of attribute values, xml/base.py *)
(** bool(value), xml/base.py:140-141; SwDataDefProps.__len__, element.py:1819-1823 *)
Definition truth (a : arg) : bool :=
  match a with
  | ANone => false
  | ABool b => b
  | ANum (NInt z) => negb (z =? 0)%Z
  | ANum (NFloat (FFin _ c _)) => negb (c =? 0)%N
  | ANum (NFloat _) => true
  | AStr s => negb (String.eqb s "")
  | AList l | ATuple l => match l with [] => false | _ => true end
  | ADict l => match l with [] => false | _ => true end
  | AObj (OSwDataDefProps p) => match SwDataDefProps_variants p with [] => false | _ => true end
  | AObj _ | AOther => true
  end.
(** float(value), xml/base.py:140-141 *)
Definition to_float_arg (a : arg) : result pynum :=
  match a with
  | ABool b => Ok (as_float (NInt (if b then 1 else 0)))
  | ANum n => Ok (as_float n)
  | AStr s => match float_of s with Some f => Ok (NFloat f) | None => Err ValueError end
  | _ => Err TypeError
  end.
(** The None-check of the _assign_optional methods, xml/base.py:48-53, 88-100 *)
Definition optional {A} (conv : arg -> result A) (a : arg) : result (option A) :=
  match a with ANone => Ok None | _ => let* x := conv a in Ok (Some x) end.
(** _assign_optional with bool and float, xml/base.py:48-64, 136-144 *)
Definition opt_bool : arg -> result (option bool) := optional (fun a => Ok (truth a)).
Definition opt_float : arg -> result (option pynum) := optional to_float_arg.
(** _set_attr_positive_int, xml/base.py:146-154.  Simplification: a bool is stored as the int it
    equals. *)
Definition positive_int (a : arg) : result Z :=
  match a with
  | ABool b => Ok (if b then 1 else 0)%Z
  | ANum (NInt z) => if (z <? 0)%Z then Err ValueError else Ok z
  | _ => Err TypeError
  end.
Definition opt_count : arg -> result (option Z) := optional positive_int.
(** _set_attr_with_strict_type, xml/base.py:102-110 *)
Definition strict {A} (pick : lib_object -> option A) (a : arg) : result A :=
  match a with
  | AObj o => match pick o with Some x => Ok x | None => Err TypeError end
  | _ => Err TypeError
  end.
Definition opt_handle_out_of_range := optional (strict (fun o => match o with OHandleOutOfRange e => Some e | _ => None end)).
Definition opt_handle_out_of_range_status := optional (strict (fun o => match o with OHandleOutOfRangeStatus e => Some e | _ => None end)).
Definition opt_handle_timeout := optional (strict (fun o => match o with OHandleTimeout e => Some e | _ => None end)).
Definition opt_sw_data_def_props := optional (strict (fun o => match o with OSwDataDefProps e => Some e | _ => None end)).
Definition opt_transmission_props := optional (strict (fun o => match o with OTransmissionComSpecProps e => Some e | _ => None end)).
Definition opt_data_filter := optional (strict (fun o => match o with ODataFilter e => Some e | _ => None end)).
Definition opt_value_specification := optional (strict (fun o => match o with OValueSpecification e => Some e | _ => None end)).
Definition opt_reception_props := optional (strict (fun o => match o with OReceptionComSpecProps e => Some e | _ => None end)).
Definition opt_variable_access := optional (strict (fun o => match o with OVariableAccess e => Some e | _ => None end)).
(** transmission_acknowledge, element.py:4176-4185: a number becomes a request with that timeout *)
Definition transmission_acknowledge (a : arg) : result TransmissionAcknowledgementRequest :=
  match a with
  | ABool _ | ANum _ => let* t := to_float_arg a in Ok (mkTransmissionAcknowledgementRequest (Some t))
  | AObj (OTransmissionAcknowledgementRequest e) => Ok e
  | _ => Err TypeError
  end.
(** mode_switched_ack, element.py:4208-4216 *)
Definition mode_switched_ack (a : arg) : result ModeSwitchedAckRequest :=
  match a with
  | ABool _ | ANum _ => let* t := to_float_arg a in Ok (mkModeSwitchedAckRequest (Some t))
  | AObj (OModeSwitchedAckRequest e) => Ok e
  | _ => Err TypeError
  end.
(** transformation_com_spec_props, element.py:4308-4330, 4521-4544, 4666-4689 *)
Definition transformation_props (a : arg) : result (list EndToEndTransformationComSpecProps) :=
  let one := strict (fun o => match o with OEndToEndTransformationComSpecProps e => Some e | _ => None end) in
  match a with
  | ANone => Ok []
  | AList l => mapM one l
  | _ => let* e := one a in Ok [e]
  end.

(** The argument init_value as argument of make_value_with_check *)
Fixpoint data_of_arg (a : arg) : pydata :=
  match a with
  | ANone => DNone
  | ABool b => DBool b
  | ANum n => DNum n
  | AStr s => DStr s
  | AList l => DList (map data_of_arg l)
  | ATuple l => DTuple (map data_of_arg l)
  | ADict _ | AObj _ | AOther => DOther
  end.
Definition init_arg_of (a : arg) : init_arg :=
  match a with
  | AObj (OValueSpecification e) => ISpec e
  | AObj (ORef c r) => if String.eqb (rc_name c) (rc_name rc_ConstantRef) then IConstantRef r else IData DOther
  | _ => IData (data_of_arg a)
  end.
(** The value specification that is stored.  Simplification: a bool is stored as the int it equals,
    and a default pattern that is not an int is left out, because the records of MElemB.v hold
    neither. *)
Fixpoint storable (m : made) : made :=
  match m with
  | MNum label (DBool b) => MNum label (DNum (NInt (if b then 1 else 0)))
  | MNotAvailable label (DNum (NInt z)) => MNotAvailable label (DNum (NInt z))
  | MNotAvailable label _ => MNotAvailable label DNone
  | MArray label l => MArray label (map storable l)
  | MRecord label l => MRecord label (map storable l)
  | _ => m
  end.
Definition stored_value (v : init_value) : option ValueSpecificationElement :=
  match v with VSpec e => Some e | VMade m => spec_of (storable m) end.
(** ValueSpecification.make_value_with_check(init_value), element.py:4134, 4456, 2538-2557 *)
Definition init_value_of (a : arg) : result (option ValueSpecificationElement) :=
  let* v := make_value_with_check (init_arg_of a) in
  Ok match v with None => None | Some v => stored_value v end.

(** ** Constructors of the communication specifications *)
(** A keyword argument, None if it is not given *)
Definition kwarg (k : string) (kw : keyword_args) : arg := match assoc k kw with Some a => a | None => ANone end.
(** Calling a function that has the given parameters: TypeError for any other keyword *)
Definition check_keywords (names : list string) (kw : keyword_args) : result unit :=
  if forallb (fun k => existsb (String.eqb k) names) (map fst kw) then Ok tt else Err TypeError.
(** f(name=..., **kw), f(value, **kw): TypeError if kw also has a value for one of the names *)
Definition no_clash (names : list string) (kw : keyword_args) : result unit :=
  if existsb (fun k => existsb (String.eqb k) names) (map fst kw) then Err TypeError else Ok tt.
(** AutosarDataPrototypeRef(data_element_ref.value, VARIABLE_DATA_PROTOTYPE), element.py:4163-4170,
    4499-4508, for a VariableDataPrototypeRef *)
Definition data_prototype_ref (r : option ref) : result (option ref) :=
  match r with
  | None => Ok None
  | Some r => let* x := ref_new rc_AutosarDataPrototypeRef (rf_value r) (Some IdentifiableSubTypes_VARIABLE_DATA_PROTOTYPE) in Ok (Some x)
  end.
(** _assign_optional with a reference class, xml/base.py:48-64, 112-134 *)
Definition opt_own_ref (c : ref_class) (r : option ref) : result (option ref) :=
  match r with
  | None => Ok None
  | Some r => let* x := check_and_set_reference (RefObj c r) c in Ok (Some x)
  end.
(** The keyword parameters of SenderComSpec, element.py:4143-4150, without data_element_ref *)
Definition sender_names := ["handle_out_of_range"; "network_representation"; "transmission_acknowledge"; "tranmsission_props"; "uses_end_to_end_protection"].
(** SenderComSpec.__init__, element.py:4143-4185, for a QueuedSenderComSpec *)
Definition new_sender (r : option ref) (kw : keyword_args) : result QueuedSenderComSpec :=
  let* data_element_ref := data_prototype_ref r in
  let* handle_out_of_range := opt_handle_out_of_range (kwarg "handle_out_of_range" kw) in
  let* network_representation := opt_sw_data_def_props (kwarg "network_representation" kw) in
  let* props := opt_transmission_props (kwarg "tranmsission_props" kw) in
  let* e2e := opt_bool (kwarg "uses_end_to_end_protection" kw) in
  let* ack := optional transmission_acknowledge (kwarg "transmission_acknowledge" kw) in
  Ok (mkQueuedSenderComSpec data_element_ref handle_out_of_range network_representation ack props e2e).
(** QueuedSenderComSpec(data_element_ref=r, **kw), element.py:4220-4226 *)
Definition new_queued_sender (r : option ref) (kw : keyword_args) : result ProvidePortComSpec :=
  let* _ := no_clash ["data_element_ref"] kw in
  let* _ := check_keywords sender_names kw in
  let* s := new_sender r kw in
  Ok (ProvidePortComSpec_QueuedSenderComSpec s).
(** make_non_queued_sender_com_spec(data_element_ref=r, **kw), element.py:4122-4135, and
    NonqueuedSenderComSpec.__init__, 4235-4244 *)
Definition new_nonqueued_sender (r : option ref) (kw : keyword_args) : result ProvidePortComSpec :=
  let* _ := no_clash ["data_element_ref"; "cls"] kw in
  let* init_value := init_value_of (kwarg "init_value" kw) in
  let* _ := check_keywords (["init_value"; "data_filter"] ++ sender_names) kw in
  let* s := new_sender r kw in
  let* data_filter := opt_data_filter (kwarg "data_filter" kw) in
  Ok (ProvidePortComSpec_NonqueuedSenderComSpec
        (mkNonqueuedSenderComSpec (QueuedSenderComSpec_data_element_ref s) (QueuedSenderComSpec_handle_out_of_range s)
           (QueuedSenderComSpec_network_representation s) (QueuedSenderComSpec_transmission_acknowledge s)
           (QueuedSenderComSpec_tranmsission_props s) (QueuedSenderComSpec_uses_end_to_end_protection s) data_filter init_value)).
(** ServerComSpec(operation_ref=r, **kw), element.py:4291-4330 *)
Definition new_server (r : option ref) (kw : keyword_args) : result ProvidePortComSpec :=
  let* _ := no_clash ["operation_ref"] kw in
  let* _ := check_keywords ["queue_length"; "transformation_com_spec_props"] kw in
  let* operation_ref := opt_own_ref rc_ClientServerOperationRef r in
  let* queue_length := opt_count (kwarg "queue_length" kw) in
  let* props := transformation_props (kwarg "transformation_com_spec_props" kw) in
  Ok (ProvidePortComSpec_ServerComSpec (mkServerComSpec operation_ref queue_length props)).
(** ModeSwitchSenderComSpec(mode_group_ref=r, **kw), element.py:4194-4217 *)
Definition new_mode_sender (r : option ref) (kw : keyword_args) : result ProvidePortComSpec :=
  let* _ := no_clash ["mode_group_ref"] kw in
  let* _ := check_keywords ["enhanced_mode_api"; "mode_switched_ack"; "queue_length"] kw in
  let* mode_group_ref := opt_own_ref rc_ModeDeclarationGroupPrototypeRef r in
  let* enhanced_mode_api := opt_bool (kwarg "enhanced_mode_api" kw) in
  let* ack := optional mode_switched_ack (kwarg "mode_switched_ack" kw) in
  let* queue_length := opt_count (kwarg "queue_length" kw) in
  Ok (ProvidePortComSpec_ModeSwitchSenderComSpec (mkModeSwitchSenderComSpec mode_group_ref enhanced_mode_api ack queue_length)).
(** The keyword parameters of ReceiverComSpec, element.py:4465-4477, without data_element_ref *)
Definition receiver_names := ["handle_out_of_range"; "handle_out_of_range_status"; "max_delta_counter_init"; "max_no_new_repeated_data";
  "network_representation"; "reception_props"; "replace_with"; "sync_counter_init"; "transformation_com_spec_props"; "uses_end_to_end_protection"].
(** ReceiverComSpec.__init__, element.py:4465-4544, for a QueuedReceiverComSpec without queue length *)
Definition new_receiver (r : option ref) (kw : keyword_args) : result QueuedReceiverComSpec :=
  let* data_element_ref := data_prototype_ref r in
  let* handle_out_of_range := opt_handle_out_of_range (kwarg "handle_out_of_range" kw) in
  let* handle_out_of_range_status := opt_handle_out_of_range_status (kwarg "handle_out_of_range_status" kw) in
  let* max_delta_counter_init := opt_count (kwarg "max_delta_counter_init" kw) in
  let* max_no_new_repeated_data := opt_count (kwarg "max_no_new_repeated_data" kw) in
  let* network_representation := opt_sw_data_def_props (kwarg "network_representation" kw) in
  let* reception_props := opt_reception_props (kwarg "reception_props" kw) in
  let* replace_with := opt_variable_access (kwarg "replace_with" kw) in
  let* sync_counter_init := opt_count (kwarg "sync_counter_init" kw) in
  let* e2e := opt_bool (kwarg "uses_end_to_end_protection" kw) in
  let* props := transformation_props (kwarg "transformation_com_spec_props" kw) in
  Ok (mkQueuedReceiverComSpec data_element_ref handle_out_of_range handle_out_of_range_status max_delta_counter_init
        max_no_new_repeated_data network_representation reception_props replace_with sync_counter_init props e2e None).
(** QueuedReceiverComSpec(data_element_ref=r, **kw), element.py:4553-4558 *)
Definition new_queued_receiver (r : option ref) (kw : keyword_args) : result RequirePortComSpec :=
  let* _ := no_clash ["data_element_ref"] kw in
  let* _ := check_keywords ("queue_length" :: receiver_names) kw in
  let* s := new_receiver r kw in
  let* queue_length := opt_count (kwarg "queue_length" kw) in
  Ok (RequirePortComSpec_QueuedReceiverComSpec
        (mkQueuedReceiverComSpec (QueuedReceiverComSpec_data_element_ref s) (QueuedReceiverComSpec_handle_out_of_range s)
           (QueuedReceiverComSpec_handle_out_of_range_status s) (QueuedReceiverComSpec_max_delta_counter_init s)
           (QueuedReceiverComSpec_max_no_new_repeated_data s) (QueuedReceiverComSpec_network_representation s)
           (QueuedReceiverComSpec_reception_props s) (QueuedReceiverComSpec_replace_with s) (QueuedReceiverComSpec_sync_counter_init s)
           (QueuedReceiverComSpec_transformation_com_spec_props s) (QueuedReceiverComSpec_uses_end_to_end_protection s) queue_length)).
(** The keyword parameters of NonqueuedReceiverComSpec, element.py:4567-4576 *)
Definition nonqueued_names := ["alive_timeout"; "enable_update"; "data_filter"; "handle_data_status"; "handle_never_received";
  "handle_timeout_type"; "init_value"; "timeout_substitution_value"].
(** make_non_queued_receiver_com_spec(data_element_ref=r, **kw), element.py:4444-4457, and
    NonqueuedReceiverComSpec.__init__, 4567-4592 *)
Definition new_nonqueued_receiver (r : option ref) (kw : keyword_args) : result RequirePortComSpec :=
  let* _ := no_clash ["data_element_ref"; "cls"] kw in
  let* init_value := init_value_of (kwarg "init_value" kw) in
  let* _ := check_keywords (nonqueued_names ++ receiver_names) kw in
  let* s := new_receiver r kw in
  let* alive_timeout := opt_float (kwarg "alive_timeout" kw) in
  let* enable_update := opt_bool (kwarg "enable_update" kw) in
  let* data_filter := opt_data_filter (kwarg "data_filter" kw) in
  let* handle_data_status := opt_bool (kwarg "handle_data_status" kw) in
  let* handle_never_received := opt_bool (kwarg "handle_never_received" kw) in
  let* handle_timeout_type := opt_handle_timeout (kwarg "handle_timeout_type" kw) in
  let* timeout_substitution_value := opt_value_specification (kwarg "timeout_substitution_value" kw) in
  Ok (RequirePortComSpec_NonqueuedReceiverComSpec
        (mkNonqueuedReceiverComSpec (QueuedReceiverComSpec_data_element_ref s) (QueuedReceiverComSpec_handle_out_of_range s)
           (QueuedReceiverComSpec_handle_out_of_range_status s) (QueuedReceiverComSpec_max_delta_counter_init s)
           (QueuedReceiverComSpec_max_no_new_repeated_data s) (QueuedReceiverComSpec_network_representation s)
           (QueuedReceiverComSpec_reception_props s) (QueuedReceiverComSpec_replace_with s) (QueuedReceiverComSpec_sync_counter_init s)
           (QueuedReceiverComSpec_transformation_com_spec_props s) (QueuedReceiverComSpec_uses_end_to_end_protection s)
           alive_timeout enable_update data_filter handle_data_status handle_never_received handle_timeout_type init_value
           timeout_substitution_value)).
(** ClientComSpec(operation_ref=r, **kw), element.py:4646-4689 *)
Definition new_client (r : option ref) (kw : keyword_args) : result RequirePortComSpec :=
  let* _ := no_clash ["operation_ref"] kw in
  let* _ := check_keywords ["e2e_call_respone_timeout"; "transformation_com_spec_props"] kw in
  let* operation_ref := opt_own_ref rc_ClientServerOperationRef r in
  let* timeout := opt_float (kwarg "e2e_call_respone_timeout" kw) in
  let* props := transformation_props (kwarg "transformation_com_spec_props" kw) in
  Ok (RequirePortComSpec_ClientComSpec (mkClientComSpec operation_ref timeout props)).
(** ModeSwitchReceiverComSpec(mode_group_ref=r, **kw), element.py:4635-4640 *)
Definition new_mode_receiver (r : option ref) (kw : keyword_args) : result RequirePortComSpec :=
  let* _ := no_clash ["mode_group_ref"] kw in
  let* _ := check_keywords ["enhanced_mode_api"; "supports_async"] kw in
  let* mode_group_ref := opt_own_ref rc_ModeDeclarationGroupPrototypeRef r in
  let* enhanced_mode_api := opt_bool (kwarg "enhanced_mode_api" kw) in
  let* supports_async := opt_bool (kwarg "supports_async" kw) in
  Ok (RequirePortComSpec_ModeSwitchReceiverComSpec (mkModeSwitchReceiverComSpec mode_group_ref enhanced_mode_api supports_async)).

(** ** The port interface *)
(** The argument port_interface: an object with its reference string (None outside of a package), or
    something else that has no ref() (None).  [adopted]: the mode group has the interface as parent,
    see MEvent.v. *)
Inductive interface :=
| IfSenderReceiver (e : SenderReceiverInterface)
| IfClientServer (e : ClientServerInterface)
| IfModeSwitch (e : ModeSwitchInterface) (adopted : bool)
| IfNvData (e : NvDataInterface)
| IfParameter (e : ParameterInterface).
Record interface_arg := mkInterfaceArg { ia_interface : interface; ia_path : option string }.
(** ref() of the interfaces, element.py:3404-3412, 3491-3499, 3548-3556, 3786-3794, 3865-3873 *)
Definition interface_dest (i : interface) : IdentifiableSubTypes :=
  match i with
  | IfSenderReceiver _ => IdentifiableSubTypes_SENDER_RECEIVER_INTERFACE
  | IfClientServer _ => IdentifiableSubTypes_CLIENT_SERVER_INTERFACE
  | IfModeSwitch _ _ => IdentifiableSubTypes_MODE_SWITCH_INTERFACE
  | IfNvData _ => IdentifiableSubTypes_NV_DATA_INTERFACE
  | IfParameter _ => IdentifiableSubTypes_PARAMETER_INTERFACE
  end.
Definition interface_ref (i : interface_arg) : option ref := option_map (fun p => mkRef p (interface_dest (ia_interface i))) (ia_path i).
(** port_interface.ref() when port_interface may be None, element.py:4959, 5008, 5044 *)
Definition interface_arg_ref (i : option interface_arg) : result (option ref) :=
  match i with None => Err AttributeError | Some i => Ok (interface_ref i) end.
(** VariableDataPrototype.is_queued, element.py:2062-2069, and of SwDataDefPropsConditional, 1784-1791 *)
Definition is_queued (d : VariableDataPrototype) : bool :=
  match VariableDataPrototype_sw_data_def_props d with
  | Some p => match SwDataDefProps_variants p with
              | c :: _ => match dd_impl_policy c with Some SwImplPolicy_QUEUED => true | _ => false end
              | [] => false
              end
  | None => false
  end.
(** ref() of the parts of an interface, element.py:2054-2060, 3657-3665, 3301-3307 *)
Definition data_element_ref (path : option string) (d : VariableDataPrototype) : option ref :=
  option_map (fun p => mkRef (below p (data_name d)) IdentifiableSubTypes_VARIABLE_DATA_PROTOTYPE) path.
Definition client_server_operation_ref (path : option string) (o : ClientServerOperation) : option ref :=
  option_map (fun p => mkRef (below p (operation_name o)) IdentifiableSubTypes_CLIENT_SERVER_OPERATION) path.
Definition mode_group_ref (path : option string) (adopted : bool) (g : ModeDeclarationGroupPrototype) : option ref :=
  if adopted then option_map (fun p => mkRef (below p (group_name g)) IdentifiableSubTypes_MODE_DECLARATION_GROUP_PROTOTYPE) path else None.
(** assert x is not None *)
Definition assert_some {A} (x : option A) : result unit := match x with Some _ => Ok tt | None => Err AssertionError end.

(** ** make_from_port_interface *)
(** One com-spec, or a list of them *)
Inductive specs (A : Type) := One (a : A) | Many (l : list A).
Arguments One {A}. Arguments Many {A}.
(** unprocessed.remove(name) *)
Definition remove_name (n : string) (l : list string) : list string := filter (fun k => negb (String.eqb k n)) l.
(** The loop over data elements or operations, element.py:4079-4090, 4108-4113, 4393-4405, 4420-4426;
    the names that are left in unprocessed beside the list.  [make] gets the value for the name. *)
Section Each.
  Context {E A : Type} (name_of : E -> string) (make : E -> arg -> result A).
  Fixpoint make_named (kw : keyword_args) (todo : list string) (l : list E) : result (list string * list A) :=
    match l with
    | [] => Ok (todo, [])
    | e :: l =>
        if existsb (String.eqb (name_of e)) todo then
          let* s := make e (kwarg (name_of e) kw) in
          let* (rest, r) := make_named kw (remove_name (name_of e) todo) l in
          Ok (rest, s :: r)
        else make_named kw todo l
    end.
End Each.
(** **com_spec_args: TypeError if it is not a dict *)
Definition as_keywords (a : arg) : result keyword_args := match a with ADict kw => Ok kw | _ => Err TypeError end.
(** The checks of all values, element.py:4074-4078, 4388-4392 *)
Definition all_dicts (kw : keyword_args) : result unit :=
  if forallb (fun p => match snd p with ADict _ => true | _ => false end) kw then Ok tt else Err TypeError.
(** The check after the loop: [error] is ValueError in ProvidePortComSpec, element.py:4091-4095,
    4114-4117, and TypeError in RequirePortComSpec, 4406-4410, 4427-4430, where "list[unprocessed]"
    is not a list of str *)
Definition all_processed {A} (error : exn) (x : list string * list A) : result (specs A) :=
  match x with ([], l) => Ok (Many l) | _ => Err error end.
(** ProvidePortComSpec.make_from_port_interface(port_interface, **kw), element.py:4040-4120; the
    parameters cls and port_interface cannot be keywords *)
Definition make_provided (i : option interface_arg) (kw : keyword_args) : result (specs ProvidePortComSpec) :=
  let* _ := no_clash ["cls"; "port_interface"] kw in
  match i with
  | None => Err NotImplementedError
  | Some (mkInterfaceArg i path) =>
      match i with
      | IfSenderReceiver e =>
          let make d := if is_queued d then new_queued_sender (data_element_ref path d) else new_nonqueued_sender (data_element_ref path d) in
          match SenderReceiverInterface_data_elements e with
          | [] => Err ValueError
          | [d] => let* s := make d kw in Ok (One s)
          | ds =>
              let* _ := all_dicts kw in
              let* x := make_named data_name (fun d a => let* kw := as_keywords a in make d kw) kw (map fst kw) ds in
              all_processed ValueError x
          end
      | IfClientServer e =>
          let make o := new_server (client_server_operation_ref path o) in
          match ClientServerInterface_operations e with
          | [] => Err ValueError
          | [o] => let* s := make o kw in Ok (One s)
          | os =>
              let* x := make_named operation_name (fun o a => let* kw := as_keywords a in make o kw) kw (map fst kw) os in
              all_processed ValueError x
          end
      | IfModeSwitch e adopted =>
          match ModeSwitchInterface_mode_group e with
          | None => Err ValueError
          | Some g =>
              let* _ := assert_some (mode_group_ref path adopted g) in
              let* s := new_mode_sender (mode_group_ref path adopted g) kw in
              Ok (One s)
          end
      | IfNvData _ | IfParameter _ => Err NotImplementedError
      end
  end.
(** RequirePortComSpec.make_from_port_interface(port_interface, **kw), element.py:4351-4440 *)
Definition make_required (i : option interface_arg) (kw : keyword_args) : result (specs RequirePortComSpec) :=
  let* _ := no_clash ["cls"; "port_interface"] kw in
  match i with
  | None => Err NotImplementedError
  | Some (mkInterfaceArg i path) =>
      match i with
      | IfSenderReceiver e =>
          match SenderReceiverInterface_data_elements e with
          | [] => Err ValueError
          | [d] =>
              if is_queued d then
                let* _ := assert_some (data_element_ref path d) in
                let* s := new_queued_receiver (data_element_ref path d) kw in Ok (One s)
              else let* s := new_nonqueued_receiver (data_element_ref path d) kw in Ok (One s)
          | ds =>
              let* _ := all_dicts kw in
              let* x := make_named data_name
                          (fun d a =>
                             let* _ := assert_some (data_element_ref path d) in
                             let* kw := as_keywords a in
                             if is_queued d then new_queued_receiver (data_element_ref path d) kw
                             else new_nonqueued_receiver (data_element_ref path d) kw) kw (map fst kw) ds in
              all_processed TypeError x
          end
      | IfClientServer e =>
          match ClientServerInterface_operations e with
          | [] => Err ValueError
          | [o] => let* s := new_client (client_server_operation_ref path o) kw in Ok (One s)
          | os =>
              let* x := make_named operation_name
                          (fun o a =>
                             let* _ := assert_some (client_server_operation_ref path o) in
                             let* kw := as_keywords a in
                             new_client (client_server_operation_ref path o) kw) kw (map fst kw) os in
              all_processed TypeError x
          end
      | IfModeSwitch e adopted =>
          match ModeSwitchInterface_mode_group e with
          | None => Err ValueError
          | Some g =>
              let* _ := assert_some (mode_group_ref path adopted g) in
              let* s := new_mode_receiver (mode_group_ref path adopted g) kw in
              Ok (One s)
          end
      | IfNvData _ | IfParameter _ => Err NotImplementedError
      end
  end.

(** ** The argument com_spec *)
Inductive com_spec_object := SProvide (s : ProvidePortComSpec) | SRequire (s : RequirePortComSpec).
(** What an iterable yields: a com-spec, a tuple or anything else *)
Inductive com_spec_item := ItemSpec (s : com_spec_object) | ItemTuple (l : list arg) | ItemOther.
(** None, a dict, a com-spec, a list or tuple, another iterable, anything else *)
Inductive com_spec_arg :=
| CNone
| CDict (kw : keyword_args)
| CSpec (s : com_spec_object)
| CList (l : list com_spec_item)
| CIterable (l : list com_spec_item)
| COther.
(** isinstance(elem, ProvidePortComSpec), isinstance(elem, RequirePortComSpec) *)
Definition provided_spec (s : com_spec_object) : option ProvidePortComSpec := match s with SProvide s => Some s | SRequire _ => None end.
Definition required_spec (s : com_spec_object) : option RequirePortComSpec := match s with SProvide _ => None | SRequire s => Some s end.
(** The loop over an iterable com_spec, element.py:4944-4953, 4993-5002: the com-specs, and the
    pairs as keyword arguments.  A key that is not a str makes the call that follows fail (TypeError);
    it is kept as None.  Simplification: an unhashable key fails there too instead of at once. *)
Section Split.
  Context {A : Type} (pick : com_spec_object -> option A).
  Fixpoint split_items (l : list com_spec_item) (processed : list A) (unprocessed : keyword_args) (bad_key : bool)
      : result (list A * keyword_args * bool) :=
    match l with
    | [] => Ok (processed, unprocessed, bad_key)
    | ItemSpec s :: l =>
        match pick s with
        | Some a => split_items l (processed ++ [a]) unprocessed bad_key
        | None => Err TypeError
        end
    | ItemTuple [AStr k; v] :: l => split_items l processed (assoc_set k v unprocessed) bad_key
    | ItemTuple [_; _] :: l => split_items l processed unprocessed true
    | ItemTuple _ :: _ => Err NotImplementedError
    | ItemOther :: _ => Err TypeError
    end.
  (** element.py:4941-4958, 4990-5007; processed.extend raises TypeError if one com-spec was made;
      the result is the com-specs given to the constructor *)
  Definition com_specs (make : keyword_args -> result (specs A)) (c : com_spec_arg) : result (list A) :=
    match c with
    | CNone | CSpec _ | COther => Ok []
    | CDict kw => let* s := make kw in Ok match s with One a => [a] | Many l => l end
    | CList l | CIterable l =>
        let* (processed, unprocessed, bad_key) := split_items l [] [] false in
        if bad_key then Err TypeError
        else match unprocessed with
             | [] => Ok processed
             | _ =>
                 let* s := make unprocessed in
                 match s with
                 | One _ => Err TypeError
                 | Many r => Ok (processed ++ r)
                 end
             end
    end.
End Split.
(** The further keyword arguments of a port: attributes of Identifiable (the name is not used), or
    arguments that the constructor rejects *)
Inductive port_keywords := PortKeywords (i : identifiable) | BadPortKeywords (x : exn).
Definition port_ident (name : string) (kw : port_keywords) : result identifiable :=
  match kw with PortKeywords i => Ok (with_name name i) | BadPortKeywords x => Err x end.
(** The ports after append_port, element.py:4879-4888, if the port could be made *)
Definition add_port {A} (inj : A -> PortPrototypeElement) (ports : list PortPrototypeElement) (r : result A) : list PortPrototypeElement * result A :=
  match r with Ok p => (ports ++ [inj p], Ok p) | Err x => (ports, Err x) end.
(** create_p_port, element.py:4927-4961, create_provide_port, 4963-4973, and
    ProvidePortPrototype.__init__, 4706-4725 *)
Definition create_p_port (ports : list PortPrototypeElement) (name : string) (i : option interface_arg) (c : com_spec_arg) (kw : port_keywords)
    : list PortPrototypeElement * result ProvidePortPrototype :=
  add_port PortPrototypeElement_P ports
    (let* s := com_specs provided_spec (make_provided i) c in
     let* r := interface_arg_ref i in
     let* ident := port_ident name kw in
     Ok (mkProvidePortPrototype ident s r)).
(** create_r_port, element.py:4975-5010, create_require_port, 5012-5023, and
    RequirePortPrototype.__init__, 4751-4771 *)
Definition create_r_port (ports : list PortPrototypeElement) (name : string) (i : option interface_arg) (c : com_spec_arg) (allow_unconnected : arg)
    (kw : port_keywords) : list PortPrototypeElement * result RequirePortPrototype :=
  add_port PortPrototypeElement_R ports
    (let* s := com_specs required_spec (make_required i) c in
     let* r := interface_arg_ref i in
     let* ident := port_ident name kw in
     let* allow := opt_bool allow_unconnected in
     Ok (mkRequirePortPrototype ident s allow r)).

(** What PRPortPrototype.__init__ gets after create_pr_port made com-specs of a dict *)
Definition made_arg {A} (inj : A -> com_spec_object) (make : keyword_args -> result (specs A)) (c : com_spec_arg) : result com_spec_arg :=
  match c with
  | CDict kw => let* s := make kw in Ok match s with One a => CSpec (inj a) | Many l => CList (map (fun a => ItemSpec (inj a)) l) end
  | _ => Ok c
  end.
(** PRPortPrototype.append_com_spec, element.py:4840-4849, on the pair of lists *)
Definition append_pr (x : list ProvidePortComSpec * list RequirePortComSpec) (i : com_spec_item) : result (list ProvidePortComSpec * list RequirePortComSpec) :=
  match i with
  | ItemSpec (SProvide s) => Ok (fst x ++ [s], snd x)
  | ItemSpec (SRequire s) => Ok (fst x, snd x ++ [s])
  | _ => Err TypeError
  end.
Fixpoint append_all_pr (x : list ProvidePortComSpec * list RequirePortComSpec) (l : list com_spec_item) : result (list ProvidePortComSpec * list RequirePortComSpec) :=
  match l with [] => Ok x | i :: l => let* x := append_pr x i in append_all_pr x l end.
(** Iterating over an argument that was not checked: TypeError if it is not iterable.  Simplification:
    the values of a dict do not occur here, create_pr_port has replaced it. *)
Definition items_of (c : com_spec_arg) : result (list com_spec_item) :=
  match c with CList l | CIterable l => Ok l | _ => Err TypeError end.
Definition is_list (c : com_spec_arg) : bool := match c with CList _ => true | _ => false end.
(** PRPortPrototype.__init__, element.py:4810-4828; the second test of the first part looks at
    required_com_spec *)
Definition pr_com_specs (provided required : com_spec_arg) : result (list ProvidePortComSpec * list RequirePortComSpec) :=
  let* x := match provided with
            | CNone => Ok ([], [])
            | CSpec (SProvide s) => append_pr ([], []) (ItemSpec (SProvide s))
            | _ => if is_list required then let* l := items_of provided in append_all_pr ([], []) l else Err TypeError
            end in
  match required with
  | CNone => Ok x
  | CSpec (SRequire s) => append_pr x (ItemSpec (SRequire s))
  | CList l => append_all_pr x l
  | _ => Err TypeError
  end.
(** create_pr_port, element.py:5025-5046 *)
Definition create_pr_port (ports : list PortPrototypeElement) (name : string) (i : option interface_arg) (provided required : com_spec_arg) (kw : port_keywords)
    : list PortPrototypeElement * result PRPortPrototype :=
  add_port PortPrototypeElement_PR ports
    (let* provided := made_arg SProvide (make_provided i) provided in
     let* required := made_arg SRequire (make_required i) required in
     let* r := interface_arg_ref i in
     let* ident := port_ident name kw in
     let* (p, q) := pr_com_specs provided required in
     Ok (mkPRPortPrototype ident r p q)).
