(** Model of configuration files: Workspace.load_config and the methods it calls.
    Source: /repo/src/autosar/xml/workspace.py.  tomllib is not modelled: a file is given as the
    dict it is parsed into.  No proofs in this file. *)
From Verif Require Import Base MHeap MWork.

(** A value of a parsed file (tomllib.load, workspace.py:209): text, array, table (a dict, in
    file order), or something else (integer, float, boolean, date, time). *)
Inductive toml := TText (s : string) | TArray (l : list toml) | TTable (t : list (string * toml)) | TOther.

(** PackageToDocumentMapping, workspace.py:36-54, before its element types are used: the package
    reference is stored unchecked, the classes are known by the names they are imported under. *)
Record mapconf := mkMapConf { mc_ref : toml; mc_types : list string; mc_suffixes : list string }.

(** The parts of a Workspace that load_config changes (workspace.py:81-89), and the heap in which
    new Document objects are allocated. *)
Record config := mkConfig {
  cf_heap : heap; cf_namespaces : list (string * namespace); cf_documents : list docconf;
  cf_mappings : list mapconf; cf_settings : settings }.

(** ** Namespaces *)

(** The loop of _create_namespace_from_config, workspace.py:281-285. *)
Fixpoint ns_entries (base : option toml) (pm : list (string * toml)) (t : list (string * toml))
    : option toml * list (string * toml) :=
  match t with
  | [] => (base, pm)
  | (k, v) :: r =>
      if String.eqb k "base_ref" then ns_entries (Some v) pm r else ns_entries base (assoc_set k v pm) r
  end.

(** The loop of Namespace.__init__, workspace.py:67-73, on values of any type: posixpath.join
    raises TypeError unless both are text. *)
Fixpoint fill_any (base : toml) (m : list (role * string)) (pm : list (string * toml))
    : result (list (role * string)) :=
  match pm with
  | [] => Ok m
  | (k, v) :: r =>
      let* ro := role_of_name k in
      match base, v with
      | TText b, TText rel => fill_any base (rassoc_set ro (pjoin b rel) m) r
      | _, _ => Err TypeError
      end
  end.

(** create_namespace and Namespace.__init__, workspace.py:62-73, 91-95, on values of any type.  A
    base that is not text is only stored if the map is empty, and then never used: the model
    stores the empty text. *)
Definition create_namespace_any (nss : list (string * namespace)) (name : string)
    (pm : list (string * toml)) (base : option toml) : result (list (string * namespace)) :=
  let b := match base with Some b => b | None => TText ("/" ++ name)%string end in
  let* m := fill_any b [] pm in
  Ok (assoc_set name (mkNs (match b with TText s => s | _ => "" end) m) nss).

(** _create_namespace_from_config, workspace.py:278-286; only tables have items(). *)
Definition namespace_from (s : config) (name : string) (v : toml) : config * result unit :=
  match v with
  | TTable t =>
      let (base, pm) := ns_entries None [] t in
      match create_namespace_any (cf_namespaces s) name pm base with
      | Ok nss => (mkConfig (cf_heap s) nss (cf_documents s) (cf_mappings s) (cf_settings s), Ok tt)
      | Err e => (s, Err e)
      end
  | _ => (s, Err AttributeError)
  end.

(** ** Documents *)

(** [assert isinstance(item, str)] and append, for every item (workspace.py:31-33, 307-309,
    324-326). *)
Fixpoint all_text (l : list toml) : result (list string) :=
  match l with
  | [] => Ok []
  | TText s :: r => let* x := all_text r in Ok (s :: x)
  | _ :: r => Err AssertionError
  end.

(** The package references of DocumentConfig.__init__, workspace.py:24-33: iterating a table gives
    its keys; other values, and None, cannot be iterated. *)
Definition doc_refs (v : option toml) : result (list string) :=
  match v with
  | Some (TText s) => Ok [s]
  | Some (TArray l) => all_text l
  | Some (TTable t) => Ok (map fst t)
  | Some TOther | None => Err TypeError
  end.

(** create_document, workspace.py:172-177, with DocumentConfig.__init__ 24-33; the new Document is
    allocated unless an exception is raised. *)
Definition create_document (s : config) (path : string) (packages : option toml) : config * result unit :=
  match doc_refs packages with
  | Ok refs =>
      let (h, d) := alloc (cf_heap s) KColl "" in
      (mkConfig h (cf_namespaces s) (cf_documents s ++ [mkDoc d path refs]) (cf_mappings s) (cf_settings s), Ok tt)
  | Err e => (s, Err e)
  end.

(** _create_document_from_config, workspace.py:288-290; only tables have get(). *)
Definition document_from (s : config) (name : string) (v : toml) : config * result unit :=
  match v with
  | TTable t => create_document s (name ++ ".arxml")%string (assoc "packages" t)
  | _ => (s, Err AttributeError)
  end.

(** ** Document mappings *)

(** The classes that [getattr(ar_element, name)] can give (workspace.py:314): those defined in
    element.py (class statements 103-7875), then those it imports (element.py:6, 9, 12-63, 74). *)
Definition element_classes : list string :=
  ["NumericalValue"; "PositiveIntegerValue"; "Referrable"; "MultiLanguageReferrable"; "Identifiable";
   "CollectableElement"; "ARElement"; "AdminData"; "DataFilter"; "EngineeringObject";
   "AutosarEngineeringObject"; "Code"; "Implementation"; "Break"; "EmphasisText"; "IndexEntry";
   "TechnicalTerm"; "Subscript"; "Superscript"; "LanguageSpecific"; "MixedContentForLongName";
   "MixedContentForOverviewParagraph"; "LanguageLongName"; "MultilanguageLongName";
   "LanguageOverviewParagraph"; "MultiLanguageOverviewParagraph"; "DocumentViewSelectable"; "Paginateable";
   "MixedContentForParagraph"; "LanguageParagraph"; "MultiLanguageParagraph"; "MixedContentForVerbatim";
   "LanguageVerbatim"; "MultiLanguageVerbatim"; "MixedContentForUnitNames"; "SingleLanguageUnitNames";
   "DocumentationBlock"; "GeneralAnnotation"; "Annotation"; "Describable"; "CompuRational"; "CompuConst";
   "CompuScale"; "Computation"; "CompuMethod"; "LimitObject"; "ScaleConstraint"; "ConstraintBase";
   "InternalConstraint"; "PhysicalConstraint"; "DataConstraintRule"; "DataConstraint"; "Unit"; "BaseType";
   "SwBaseType"; "SwBitRepresentation"; "SwTextProps"; "SwPointerTargetProps"; "SwDataDefPropsConditional";
   "SwDataDefProps"; "AutosarDataType"; "ImplementationProps"; "SymbolProps";
   "ImplementationDataTypeElement"; "ImplementationDataType"; "DataPrototype"; "AutosarDataPrototype";
   "VariableDataPrototype"; "ParameterDataPrototype"; "ArgumentDataPrototype"; "ApplicationDataType";
   "ApplicationCompositeDataType"; "ApplicationPrimitiveDataType";
   "ApplicationCompositeElementDataPrototype"; "ApplicationArrayElement"; "ApplicationArrayDataType";
   "ApplicationRecordElement"; "ApplicationRecordDataType"; "DataTypeMap"; "DataTypeMappingSet";
   "ValueList"; "SwAddrMethod"; "SwValues"; "ValueGroup"; "SwAxisCont"; "SwValueCont";
   "ValueSpecification"; "TextValueSpecification"; "NumericalValueSpecification";
   "NotAvailableValueSpecification"; "ArrayValueSpecification"; "RecordValueSpecification";
   "ApplicationValueSpecification"; "ConstantSpecification"; "ConstantReference"; "Package";
   "BehaviorSettings"; "PackageCollection"; "ModeDeclaration"; "ModeErrorBehavior"; "ModeTransition";
   "ModeDeclarationGroup"; "ModeDeclarationGroupPrototype"; "ModeRequestTypeMap"; "PortInterface";
   "DataInterface"; "InvalidationPolicy"; "SenderReceiverInterface"; "NvDataInterface";
   "ParameterInterface"; "ApplicationError"; "ClientServerOperation"; "ClientServerInterface";
   "ModeSwitchInterface"; "E2EProfileCompatibilityProps"; "EndToEndTransformationComSpecProps";
   "ModeSwitchedAckRequest"; "TransmissionAcknowledgementRequest"; "TransmissionComSpecProps";
   "ProvidePortComSpec"; "SenderComSpec"; "ModeSwitchSenderComSpec"; "QueuedSenderComSpec";
   "NonqueuedSenderComSpec"; "NvProvideComSpec"; "ParameterProvideComSpec"; "ServerComSpec";
   "ReceptionComSpecProps"; "RequirePortComSpec"; "ReceiverComSpec"; "QueuedReceiverComSpec";
   "NonqueuedReceiverComSpec"; "NvRequireComSpec"; "ParameterRequireComSpec"; "ModeSwitchReceiverComSpec";
   "ClientComSpec"; "PortPrototype"; "ProvidePortPrototype"; "RequirePortPrototype"; "PRPortPrototype";
   "SwComponentType"; "AtomicSoftwareComponentType"; "ApplicationSoftwareComponentType";
   "SwComponentPrototype"; "PortInCompositionTypeInstanceRef"; "SwConnector"; "AssemblySwConnector";
   "DelegationSwConnector"; "PassThroughSwConnector"; "CompositionSwComponentType";
   "ModeGroupInAtomicSwcInstanceRef"; "POperationInAtomicSwcInstanceRef";
   "PModeGroupInAtomicSwcInstanceRef"; "PTriggerInAtomicSwcTypeInstanceRef";
   "ROperationInAtomicSwcInstanceRef"; "RModeInAtomicSwcInstanceRef"; "RModeGroupInAtomicSwcInstanceRef";
   "RVariableInAtomicSwcInstanceRef"; "RTriggerInAtomicSwcInstanceRef";
   "ArVariableInImplementationDataInstanceRef"; "VariableInAtomicSWCTypeInstanceRef"; "AutosarVariableRef";
   "VariableAccess"; "SwcImplementation"; "ExecutableEntityActivationReason";
   "ExclusiveAreaRefConditional"; "ExecutableEntity"; "RunnableEntityArgument"; "AbstractAccessPoint";
   "ServerCallPoint"; "AsynchronousServerCallPoint"; "AsynchronousServerCallResultPoint";
   "SynchronousServerCallPoint"; "ExternalTriggeringPointIdent"; "ExternalTriggeringPoint";
   "InternalTriggeringPoint"; "ModeAccessPointIdent"; "ModeAccessPoint"; "ModeSwitchPoint";
   "ParameterInAtomicSwcTypeInstanceRef"; "AutosarParameterRef"; "ParameterAccess"; "WaitPoint";
   "PortAccessOptions"; "RunnableEntity"; "RteEvent"; "AsynchronousServerCallReturnsEvent";
   "BackgroundEvent"; "DataReceiveErrorEvent"; "DataReceivedEvent"; "DataSendCompletedEvent";
   "DataWriteCompletedEvent"; "ExternalTriggerOccurredEvent"; "InitEvent"; "InternalTriggerOccurredEvent";
   "ModeSwitchedAckEvent"; "OperationInvokedEvent"; "SwcModeManagerErrorEvent"; "SwcModeSwitchEvent";
   "TimingEvent"; "TransformerHardErrorEvent"; "PortDefinedArgumentValue"; "SwcSupportedFeature";
   "CommunicationBufferLocking"; "PortApiOption"; "ExclusiveArea"; "InternalBehavior";
   "SwcInternalBehavior"].
Definition imported_classes : list string :=
  ["Iterable"; "Iterator"; "OrderedDict"; "Searchable"; "ARObject"; "BaseRef"; "BaseReference";
   "SwBaseTypeRef"; "PackageRef"; "CompuMethodRef"; "FunctionPtrSignatureRef"; "ImplementationDataTypeRef";
   "SwAddrMethodRef"; "DataConstraintRef"; "PhysicalDimensionRef"; "UnitRef"; "IndexDataTypeRef";
   "ApplicationDataTypeRef"; "ApplicationCompositeElementDataPrototypeRef"; "AutosarDataTypeRef";
   "ConstantRef"; "VariableDataPrototypeRef"; "ParameterDataPrototypeRef"; "ApplicationErrorRef";
   "ModeDeclarationRef"; "ModeDeclarationGroupRef"; "ModeDeclarationGroupPrototypeRef";
   "AutosarDataPrototypeRef"; "E2EProfileCompatibilityPropsRef"; "ClientServerOperationRef";
   "PortPrototypeRef"; "AbstractImplementationDataTypeElementRef"; "DataPrototypeRef"; "PortInterfaceRef";
   "SwComponentTypeRef"; "SwComponentPrototypeRef"; "SwcInternalBehaviorRef"; "SwcImplementationRef";
   "ExclusiveAreaRef"; "ExclusiveAreaNestingOrderRef"; "AbstractRequiredPortPrototypeRef";
   "AbstractProvidedPortPrototypeRef"; "RunnableEntityRef"; "VariableAccessRef"; "ModeSwitchPointRef";
   "AsynchronousServerCallPointRef"; "AsynchronousServerCallResultPointRef"; "TriggerRef";
   "InternalTriggeringPointRef"; "RteEventRef"; "DataTypeMappingSetRef"; "ArgumentDataPrototypeRef";
   "ApplicationArrayElementRef"; "ApplicationRecordElementRef"].
(** Other attributes of the module: imported modules and functions and aliases of types
    (element.py:5, 7, 8, 12, 14, 15, 66-92, 304, 2419, 3168, 3608, 4279, 5968-5985, 6407-6408,
    7497, 7716-7717, 7872).  The attributes every module has (__name__ and so on) are not modelled. *)
Definition other_attributes : list string :=
  ["re"; "dataclass"; "Any"; "Union"; "split_ref"; "split_ref_strict"; "ar_enum"; "ar_except";
   "make_unique_name_in_list"; "alignment_type_re"; "display_format_str_re"; "ValueSpecificationElement";
   "PortPrototypeElement"; "SwConnectorElement"; "InitValueArgType"; "SwValueElement";
   "MODE_DECLARATION_TYPES"; "PossibleErrorRefsTypes"; "EndToEndTransformationComSpecPropsArgTypes";
   "ActivationReasonArgumentType"; "CanEnterLeaveArgumentType"; "ExclusiveAreaNestingOrderArgumentType";
   "RunsInsidesArgumentType"; "ExclusiveAreaElementArgumentType"; "AsyncServerCallResultPointArgumentType";
   "ServerCallPointArgumentType"; "SwcModeSwitchEventModeType"; "PortDefinedArgumentValueArgType";
   "SwcSupportedFeatureArgType"; "ModeSwitchEventArgsReturnType"].

(** [getattr(ar_element, name)] succeeds (workspace.py:314). *)
Definition element_attr (n : string) : bool :=
  existsb (String.eqb n) element_classes || existsb (String.eqb n) imported_classes
  || existsb (String.eqb n) other_attributes.

(** A text or an array of texts (workspace.py:304-311, 321-328). *)
Definition text_or_texts (v : toml) : result (list string) :=
  match v with
  | TText s => Ok [s]
  | TArray l => all_text l
  | _ => Err ValueError
  end.

(** _create_document_mapping_from_config, workspace.py:292-330, with create_document_mapping 179-186
    and PackageToDocumentMapping.__init__ 42-54, which gets a tuple of types and a list of
    suffixes here; only tables have get(). *)
Definition mapping_from (s : config) (v : toml) : config * result unit :=
  match v with
  | TTable t =>
      match assoc "package_ref" t with
      | None => (s, Err KeyError)
      | Some ref =>
          match assoc "element_types" t with
          | None => (s, Err KeyError)
          | Some et =>
              match (let* names := text_or_texts et in
                     if negb (forallb element_attr names) then Err ValueError
                     else if match names with [] => true | _ => false end then Err ValueError
                     else let* suffixes := match assoc "suffix_filters" t with
                                           | None => Ok []
                                           | Some sf => text_or_texts sf
                                           end in
                          Ok (mkMapConf ref names suffixes)) with
              | Ok m => (mkConfig (cf_heap s) (cf_namespaces s) (cf_documents s) (cf_mappings s ++ [m]) (cf_settings s), Ok tt)
              | Err e => (s, Err e)
              end
          end
      end
  | _ => (s, Err AttributeError)
  end.

(** PackageToDocumentMapping.__init__, workspace.py:42-54, when called by users: with one text as
    suffix filter the types are appended to, which tuples and classes do not support. *)
Definition create_document_mapping (s : config) (ref : string) (types : list string) (suffixes : toml)
    : config * result unit :=
  match (match suffixes with
         | TText _ => Err AttributeError
         | TArray l => all_text l
         | TTable t => Ok (map fst t)
         | TOther => Err TypeError
         end) with
  | Ok l => (mkConfig (cf_heap s) (cf_namespaces s) (cf_documents s)
               (cf_mappings s ++ [mkMapConf (TText ref) types l]) (cf_settings s), Ok tt)
  | Err e => (s, Err e)
  end.

(** ** Settings *)

(** BehaviorSettings.update and set_value, element.py:2976-2992, on values of any type. *)
Fixpoint update_any (s : settings) (l : list (string * toml)) : settings * result unit :=
  match l with
  | [] => (s, Ok tt)
  | (n, v) :: r =>
      match assoc "set_value" s with
      | Some _ => (s, Err TypeError)
      | None =>
          if known_attr n then
            match v with
            | TText x => update_any (assoc_set n x s) r
            | _ => (s, Err TypeError)
            end
          else (s, Err KeyError)
      end
  end.

(** [self.behavior_settings.update(...)], workspace.py:222-224: an attribute called "update" hides
    the method; only tables have items(). *)
Definition settings_from (s : config) (v : toml) : config * result unit :=
  match assoc "update" (cf_settings s) with
  | Some _ => (s, Err TypeError)
  | None =>
      match v with
      | TTable l =>
          let (st, r) := update_any (cf_settings s) l in
          (mkConfig (cf_heap s) (cf_namespaces s) (cf_documents s) (cf_mappings s) st, r)
      | _ => (s, Err AttributeError)
      end
  end.

(** ** load_config *)

(** [for ... in ...items()]: until the first exception. *)
Fixpoint each (f : config -> string -> toml -> config * result unit) (s : config) (l : list (string * toml))
    : config * result unit :=
  match l with
  | [] => (s, Ok tt)
  | (n, v) :: r =>
      match f s n v with
      | (s1, Ok _) => each f s1 r
      | (s1, Err e) => (s1, Err e)
      end
  end.

(** One section of the file (workspace.py:210-221): skipped if missing; only tables have items()
    and values(). *)
Definition section (f : config -> string -> toml -> config * result unit) (cfg : list (string * toml)) (key : string)
    (s : config) : config * result unit :=
  match assoc key cfg with
  | None => (s, Ok tt)
  | Some (TTable l) => each f s l
  | Some _ => (s, Err AttributeError)
  end.

(** Sequencing of two statements. *)
Definition then_do (r : config * result unit) (k : config -> config * result unit) : config * result unit :=
  match r with (s, Ok _) => k s | (s, Err e) => (s, Err e) end.

(** Workspace.load_config, workspace.py:204-224. *)
Definition load_config (s : config) (cfg : list (string * toml)) : config * result unit :=
  then_do (section namespace_from cfg "namespace" s) (fun s1 =>
  then_do (section document_from cfg "document" s1) (fun s2 =>
  then_do (section (fun s _ v => mapping_from s v) cfg "document_mapping" s2) (fun s3 =>
  match assoc "behavior" cfg with None => (s3, Ok tt) | Some v => settings_from s3 v end))).
