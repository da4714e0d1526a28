(** Arguments of constructors that XML can carry.  What they are is said with the conditions good_ of the
    round trips (SCodec.v, SElem1.v and so on): not empty texts that need no escaping, floats below 10^28,
    references to an accepted kind of element, and objects that consist of such values. *)
From Verif Require Import Base MNum SNum MXml SXml MEnum MRefTab MRef SEnum MCodec SCodec MElem0 MElem1 MElemA MElemB MElemC MElem2 MElemD MElem3 MElem4 MElemE MElem5 MElemF MArxml
  SElem1 SElemA SElemB SElemC SElem2 SElemD SElem3 SElem4 SElemE SElem5 SElemF MFind MValue MEvent MPort MAccess MData.

(** Objects of the library; [v] is the schema version of the document they are written to.  Administrative
    data and the service kind of an interface cannot be saved (C29), so no object of these kinds is fit. *)
Definition fit_object (v : N) (o : lib_object) : Prop :=
  match o with
  | OSwDataDefProps e => good_SwDataDefProps e
  | OTransmissionAcknowledgementRequest e => good_TransmissionAcknowledgementRequest e
  | OTransmissionComSpecProps e => good_TransmissionComSpecProps e
  | OModeSwitchedAckRequest e => good_ModeSwitchedAckRequest e
  | ODataFilter e => good_DataFilter e
  | OValueSpecification e => good_ValueSpecificationElement e
  | OEndToEndTransformationComSpecProps e => good_EndToEndTransformationComSpecProps e
  | OReceptionComSpecProps e => good_ReceptionComSpecProps e
  | OVariableAccess e => good_VariableAccess e
  | OSwDataDefPropsConditional e => good_SwDataDefPropsConditional e
  | OLongName e => all_ok good_lang e
  | OOverviewParagraph e => all_ok good_lang e
  | OROperationInAtomicSwcInstanceRef e => good_ROperationInAtomicSwcInstanceRef e
  | OExecutableEntityActivationReason e => good_ExecutableEntityActivationReason e
  | OExclusiveAreaRefConditional e => good_ExclusiveAreaRefConditional e /\ ((v < 50)%N -> ExclusiveAreaRefConditional_exclusive_area e <> None)
  | ORunnableEntityArgument e => good_RunnableEntityArgument e
  | OAsynchronousServerCallResultPoint e => good_AsynchronousServerCallResultPoint e
  | OExternalTriggeringPoint e => good_ExternalTriggeringPoint e
  | OInternalTriggeringPoint e => good_InternalTriggeringPoint e
  | OModeAccessPoint e => good_ModeAccessPoint e
  | OModeSwitchPoint e => good_ModeSwitchPoint e
  | OParameterAccess e => good_ParameterAccess e
  | OServerCallPoint e => good_ServerCallPointElement e
  | OWaitPoint e => good_WaitPoint e
  | OExclusiveArea e => good_ExclusiveArea e
  | ORunnableEntity e => good_RunnableEntity v e
  | ORteEvent e => good_RteEvent e
  | OPortApiOption e => good_PortApiOption e
  | OVariableDataPrototype e => good_VariableDataPrototype e
  | OParameterDataPrototype e => good_ParameterDataPrototype e
  | OArgumentDataPrototype e => good_ArgumentDataPrototype e
  | OInvalidationPolicy e => good_InvalidationPolicy e
  | OApplicationError e => good_ApplicationError e
  | OClientServerOperation e => good_ClientServerOperation e
  | OModeDeclarationGroupPrototype e => good_ModeDeclarationGroupPrototype e
  | OModeDeclaration e => good_ModeDeclaration e
  | OModeTransition e => good_ModeTransition e
  | OModeErrorBehavior e => good_ModeErrorBehavior e
  | OAnnotation e => good_annotation e
  | OSwBitRepresentation e => good_SwBitRepresentation e
  | OSwTextProps e => good_SwTextProps e
  | OSwPointerTargetProps e => good_SwPointerTargetProps e
  | OImplementationDataTypeElement e => good_ImplementationDataTypeElement e
  | OApplicationArrayElement e => good_ApplicationArrayElement e
  | OApplicationRecordElement e => good_ApplicationRecordElement e
  | ODataTypeMap e => good_DataTypeMap e
  | OSymbolProps e => good_SymbolProps e
  | OUnitNames e => good_names e
  | OLanguageLongName e => good_lang e
  | ONumericalValue e => good_value (Wrapped e)
  | OValueList e => good_ValueList e
  | OSwValues e => good_SwValues e
  | OSwAxisCont e => good_SwAxisCont e
  | OSwValueCont e => good_SwValueCont e
  | OAutosarEngineeringObject e => good_AutosarEngineeringObject e
  | OCode e => good_Code e
  | OPOperationInAtomicSwcInstanceRef e => good_POperationInAtomicSwcInstanceRef e
  | OPTriggerInAtomicSwcTypeInstanceRef e => good_PTriggerInAtomicSwcTypeInstanceRef e
  | ORModeInAtomicSwcInstanceRef e => good_RModeInAtomicSwcInstanceRef e
  | ORVariableInAtomicSwcInstanceRef e => good_RVariableInAtomicSwcInstanceRef e
  | ORTriggerInAtomicSwcInstanceRef e => good_RTriggerInAtomicSwcInstanceRef e
  | OArVariableInImplementationDataInstanceRef e => good_ArVariableInImplementationDataInstanceRef e
  | OVariableInAtomicSWCTypeInstanceRef e => good_VariableInAtomicSWCTypeInstanceRef e
  | OAutosarVariableRef e => good_AutosarVariableRef e
  | OParameterInAtomicSwcTypeInstanceRef e => good_ParameterInAtomicSwcTypeInstanceRef e
  | OAutosarParameterRef e => good_AutosarParameterRef e
  | OExternalTriggeringPointIdent e => good_ExternalTriggeringPointIdent e
  | OModeAccessPointIdent e => good_ModeAccessPointIdent e
  | OPortDefinedArgumentValue e => good_PortDefinedArgumentValue e
  | OCommunicationBufferLocking e => good_CommunicationBufferLocking e
  | OProvidePortComSpec e => good_ProvidePortComSpec e
  | ORequirePortComSpec e => good_RequirePortComSpec e
  | OPortPrototype e => good_PortPrototypeElement e
  | OSwComponentPrototype e => good_SwComponentPrototype e
  | OSwConnector e => good_SwConnectorElement e
  | OSwcInternalBehavior e => good_SwcInternalBehavior v e
  | ODocumentationBlock e => good_doc e
  | OValueGroup label values => opt_ok (all_ok good_lang) label /\ all_ok good_sw_value values
  | OPortInCompositionTypeInstanceRef e =>
      opt_ok (good_ref rc_SwComponentPrototypeRef) (PortInCompositionTypeInstanceRef_component_ref e) /\
      opt_ok (good_ref rc_PortPrototypeRef) (PortInCompositionTypeInstanceRef_port_ref e)
  | OModeGroupInAtomicSwcInstanceRef e =>
      match e with ModeGroup_P p => good_PModeGroupInAtomicSwcInstanceRef p | ModeGroup_R r => good_RModeGroupInAtomicSwcInstanceRef r end
  | ORef c r => In c all_ref_classes /\ good_ref c r
  | OAdminData _ | OServiceKind _ => False
  | _ => True
  end.
(** Texts that can also be the value of an attribute of an XML element. *)
Definition fit_text (s : string) : Prop := good_text s /\ safe_attr s.
(** Python values *)
Fixpoint fit_arg (v : N) (a : arg) : Prop :=
  match a with
  | ANone | ABool _ | AOther => True
  | ANum n => good_number n
  | AStr s => fit_text s
  | AList l | ATuple l => all_ok (fit_arg v) l
  | ADict l => all_ok (fun p => fit_text (fst p) /\ fit_arg v (snd p)) l
  | AObj o => fit_object v o
  end.

(** ** Conditions on single arguments *)
(** Where a float is stored: an int that has at most 15 digits (as float it is the same number), a float other
    than the negative zero, or the text of such a float. *)
Definition fit_real (a : arg) : Prop :=
  match a with
  | ANum (NInt z) => (Z.abs z < 10 ^ 15)%Z
  | ANum (NFloat f) => good_real (NFloat f)
  | AStr s => forall f, float_of s = Some f -> good_real (NFloat f)
  | _ => True
  end.
Definition real_keywords : list string :=
  ["timeout"; "step_size"; "factor"; "offset"; "period"; "minimum_start_interval"; "data_update_period"; "minimum_send_interval"; "alive_timeout";
   "e2e_call_respone_timeout"; "transmission_acknowledge"; "mode_switched_ack"].
(** Where an int or a text is stored: no bool, and no text that is read as an int. *)
Definition fit_index (as_int : string -> option Z) (a : arg) : Prop :=
  match a with ABool _ => False | AStr s => as_int s = None | _ => True end.
(** Keyword arguments *)
Definition fit_keyword (v : N) (p : string * arg) : Prop :=
  fit_arg v (snd p) /\
  (In (fst p) real_keywords -> fit_real (snd p)) /\
  (fst p = "alignment" -> fit_index int0 (snd p)) /\
  (fst p = "sw_axis_index" -> fit_index int10 (snd p)).
Definition fit_keywords (v : N) (kw : keyword_args) : Prop := Forall (fit_keyword v) kw.
(** No UUID is given: most kinds of elements lose it (C29). *)
Definition no_uuid (kw : keyword_args) : Prop := kwarg "uuid" kw = ANone.
(** An int that is given is not negative. *)
Definition not_negative (a : arg) : Prop := forall z, int_of_arg a = Ok z -> (0 <= z)%Z.
(** A reference to a port of a component: the destination says which kind of port it is. *)
Definition leads_to (dests : list IdentifiableSubTypes) (a : arg) : Prop :=
  match a with
  | AObj (OPortInCompositionTypeInstanceRef e) => opt_ok (fun r => In (rf_dest r) dests) (PortInCompositionTypeInstanceRef_port_ref e)
  | _ => True
  end.
Definition port_is_named (a : arg) : Prop :=
  match a with
  | AObj (OPortInCompositionTypeInstanceRef e) => PortInCompositionTypeInstanceRef_port_ref e <> None
  | _ => True
  end.
