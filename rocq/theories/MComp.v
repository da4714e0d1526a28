(** Creating ports, components and connectors.
    Source: /repo/src/autosar/xml/element.py and xml/base.py.  No proofs in this file.
    Positional arguments other than the name are passed as keywords.  Objects are values; functions
    that change one return the changed value. *)
From Verif Require Import Base MNum MXml MEnum MRefTab MRef MCodec MElem0 MElem1 MElemA MElemB MElemC MElem2 MElemD MElem3 MElem4 MElemE MElem5 MElemF MArxml MFind MValue MEvent MPort MAccess MRunnable MIface MData MConst MParts MPoint MOccur.
Open Scope list_scope.

(** ** Classes of arguments *)
(** isinstance(value, ProvidePortComSpec), xml/base.py:102-110 *)
Definition ProvidePortComSpec_object (o : lib_object) : option ProvidePortComSpec := match o with OProvidePortComSpec e => Some e | _ => None end.
(** isinstance(value, RequirePortComSpec), xml/base.py:102-110 *)
Definition RequirePortComSpec_object (o : lib_object) : option RequirePortComSpec := match o with ORequirePortComSpec e => Some e | _ => None end.
(** isinstance(value, PortInCompositionTypeInstanceRef), xml/base.py:102-110 *)
Definition PortInCompositionTypeInstanceRef_object (o : lib_object) : option PortInCompositionTypeInstanceRef := match o with OPortInCompositionTypeInstanceRef e => Some e | _ => None end.
(** isinstance(value, PortPrototype), xml/base.py:102-110 *)
Definition PortPrototype_object (o : lib_object) : option PortPrototypeElement := match o with OPortPrototype e => Some e | _ => None end.
(** isinstance(value, SwcInternalBehavior), xml/base.py:102-110 *)
Definition SwcInternalBehavior_object (o : lib_object) : option SwcInternalBehavior := match o with OSwcInternalBehavior e => Some e | _ => None end.
(** isinstance(value, SymbolProps), xml/base.py:102-110 *)
Definition SymbolProps_object (o : lib_object) : option SymbolProps := match o with OSymbolProps e => Some e | _ => None end.
(** isinstance(value, SwComponentPrototype), xml/base.py:102-110 *)
Definition SwComponentPrototype_object (o : lib_object) : option SwComponentPrototype := match o with OSwComponentPrototype e => Some e | _ => None end.
(** isinstance(value, (AssemblySwConnector, DelegationSwConnector, PassThroughSwConnector)), xml/base.py:102-110 *)
Definition SwConnector_object (o : lib_object) : option SwConnectorElement := match o with OSwConnector e => Some e | _ => None end.
(** if com_spec is not None: one object, a list or tuple of them, element.py:4713-4722, 4763-4772 *)
Definition one_or_several {A} (pick : lib_object -> option A) (a : arg) : result (list A) :=
  match a with
  | ANone => Ok []
  | AList l | ATuple l => mapM (strict pick) l
  | _ => let* x := strict pick a in Ok [x]
  end.

(** ** Ports *)
(** ProvidePortPrototype.__init__, element.py:4706-4722 *)
Definition init_ProvidePortPrototype (name : string) (kw : keyword_args) : result ProvidePortPrototype :=
  let* _ := check_keywords (["port_interface_ref"; "com_spec"] ++ identifiable_keywords) kw in
  let* ident := new_identifiable name kw in
  let* v_port_interface_ref := opt_ref_strict rc_PortInterfaceRef (kwarg "port_interface_ref" kw) in
  let* v_com_spec := one_or_several ProvidePortComSpec_object (kwarg "com_spec" kw) in
  Ok (mkProvidePortPrototype ident v_com_spec v_port_interface_ref).
(** ProvidePortPrototype.append_com_spec, element.py:4734-4741 *)
Definition append_ProvidePortPrototype_com_spec (x : ProvidePortPrototype) (a : arg) : result ProvidePortPrototype :=
  let* e := strict ProvidePortComSpec_object a in Ok (mkProvidePortPrototype (ProvidePortPrototype_ident x) (ProvidePortPrototype_com_spec x ++ [e]) (ProvidePortPrototype_port_interface_ref x)).
(** RequirePortPrototype.__init__, element.py:4752-4772 *)
Definition init_RequirePortPrototype (name : string) (kw : keyword_args) : result RequirePortPrototype :=
  let* _ := check_keywords (["port_interface_ref"; "com_spec"; "allow_unconnected"] ++ identifiable_keywords) kw in
  let* ident := new_identifiable name kw in
  let* v_port_interface_ref := opt_ref_strict rc_PortInterfaceRef (kwarg "port_interface_ref" kw) in
  let* v_allow_unconnected := opt_bool (kwarg "allow_unconnected" kw) in
  let* v_com_spec := one_or_several RequirePortComSpec_object (kwarg "com_spec" kw) in
  Ok (mkRequirePortPrototype ident v_com_spec v_allow_unconnected v_port_interface_ref).
(** RequirePortPrototype.append_com_spec, element.py:4784-4791 *)
Definition append_RequirePortPrototype_com_spec (x : RequirePortPrototype) (a : arg) : result RequirePortPrototype :=
  let* e := strict RequirePortComSpec_object a in Ok (mkRequirePortPrototype (RequirePortPrototype_ident x) (RequirePortPrototype_com_spec x ++ [e]) (RequirePortPrototype_allow_unconnected x) (RequirePortPrototype_port_interface_ref x)).

(** ** Components and connectors *)
(** PortInCompositionTypeInstanceRef.__init__, element.py:5235-5243 *)
Definition init_PortInCompositionTypeInstanceRef (kw : keyword_args) : result PortInCompositionTypeInstanceRef :=
  let* _ := check_keywords ["component_ref"; "port_ref"] kw in
  let* v_component_ref := opt_ref_strict rc_SwComponentPrototypeRef (kwarg "component_ref" kw) in
  let* v_port_ref := opt_ref_strict rc_PortPrototypeRef (kwarg "port_ref" kw) in
  Ok (mkPortInCompositionTypeInstanceRef v_component_ref v_port_ref).
(** SwComponentPrototype.__init__, element.py:5210-5216 *)
Definition init_SwComponentPrototype (name : string) (kw : keyword_args) : result SwComponentPrototype :=
  let* _ := check_keywords (["type_ref"] ++ identifiable_keywords) kw in
  let* ident := new_identifiable name kw in
  let* v_type_ref := opt_ref_strict rc_SwComponentTypeRef (kwarg "type_ref" kw) in
  Ok (mkSwComponentPrototype ident v_type_ref).
(** AssemblySwConnector.__init__, element.py:5265-5274, 5251-5254 *)
Definition init_AssemblySwConnector (name : string) (kw : keyword_args) : result AssemblySwConnector :=
  let* _ := check_keywords (["provide_port"; "require_port"] ++ identifiable_keywords) kw in
  let* ident := new_identifiable name kw in
  let* v_provide_port := optional (strict PortInCompositionTypeInstanceRef_object) (kwarg "provide_port" kw) in
  let* v_require_port := optional (strict PortInCompositionTypeInstanceRef_object) (kwarg "require_port" kw) in
  Ok (mkAssemblySwConnector ident v_provide_port v_require_port).
(** DelegationSwConnector.__init__, element.py:5283-5292, 5251-5254 *)
Definition init_DelegationSwConnector (name : string) (kw : keyword_args) : result DelegationSwConnector :=
  let* _ := check_keywords (["inner_port"; "outer_port"] ++ identifiable_keywords) kw in
  let* ident := new_identifiable name kw in
  let* v_inner_port := optional (strict PortInCompositionTypeInstanceRef_object) (kwarg "inner_port" kw) in
  let* v_outer_port := opt_ref_strict rc_PortPrototypeRef (kwarg "outer_port" kw) in
  Ok (mkDelegationSwConnector ident v_inner_port v_outer_port).
(** PassThroughSwConnector.__init__, element.py:5314-5324, 5251-5254 *)
Definition init_PassThroughSwConnector (name : string) (kw : keyword_args) : result PassThroughSwConnector :=
  let* _ := check_keywords (["provide_port"; "require_port"] ++ identifiable_keywords) kw in
  let* ident := new_identifiable name kw in
  let* v_provide_port := opt_ref_strict rc_PortPrototypeRef (kwarg "provide_port" kw) in
  let* v_require_port := opt_ref_strict rc_PortPrototypeRef (kwarg "require_port" kw) in
  Ok (mkPassThroughSwConnector ident v_provide_port v_require_port).
(** ApplicationSoftwareComponentType.__init__, element.py:5143-5152, 4857-4877 *)
Definition init_ApplicationSoftwareComponentType (name : string) (kw : keyword_args) : result ApplicationSoftwareComponentType :=
  let* _ := check_keywords (["internal_behavior"; "symbol_props"; "ports"] ++ identifiable_keywords) kw in
  let* ident := new_identifiable name kw in
  let* v_ports := one_or_list (strict PortPrototype_object) (kwarg "ports" kw) in
  let* v_internal_behavior := optional (strict SwcInternalBehavior_object) (kwarg "internal_behavior" kw) in
  let* v_symbol_props := optional (strict SymbolProps_object) (kwarg "symbol_props" kw) in
  Ok (mkApplicationSoftwareComponentType ident v_ports v_internal_behavior v_symbol_props).
(** CompositionSwComponentType.__init__, element.py:5333-5359, 4857-4877 *)
Definition init_CompositionSwComponentType (name : string) (kw : keyword_args) : result CompositionSwComponentType :=
  let* _ := check_keywords (["components"; "connectors"; "ports"] ++ identifiable_keywords) kw in
  let* ident := new_identifiable name kw in
  let* v_ports := one_or_list (strict PortPrototype_object) (kwarg "ports" kw) in
  let* v_components := one_or_list (strict SwComponentPrototype_object) (kwarg "components" kw) in
  let* v_connectors := one_or_list (strict SwConnector_object) (kwarg "connectors" kw) in
  Ok (mkCompositionSwComponentType ident v_ports v_components v_connectors).
(** SwComponentType.append_port, element.py:4879-4888 *)
Definition append_ApplicationSoftwareComponentType_ports (x : ApplicationSoftwareComponentType) (a : arg) : result ApplicationSoftwareComponentType :=
  let* e := strict PortPrototype_object a in Ok (mkApplicationSoftwareComponentType (ApplicationSoftwareComponentType_ident x) (ApplicationSoftwareComponentType_ports x ++ [e]) (ApplicationSoftwareComponentType_internal_behavior x) (ApplicationSoftwareComponentType_symbol_props x)).
(** SwComponentType.append_port, element.py:4879-4888 *)
Definition append_CompositionSwComponentType_ports (x : CompositionSwComponentType) (a : arg) : result CompositionSwComponentType :=
  let* e := strict PortPrototype_object a in Ok (mkCompositionSwComponentType (CompositionSwComponentType_ident x) (CompositionSwComponentType_ports x ++ [e]) (CompositionSwComponentType_components x) (CompositionSwComponentType_connectors x)).
(** CompositionSwComponentType.append_component, element.py:5371-5379 *)
Definition append_CompositionSwComponentType_components (x : CompositionSwComponentType) (a : arg) : result CompositionSwComponentType :=
  let* e := strict SwComponentPrototype_object a in Ok (mkCompositionSwComponentType (CompositionSwComponentType_ident x) (CompositionSwComponentType_ports x) (CompositionSwComponentType_components x ++ [e]) (CompositionSwComponentType_connectors x)).
(** CompositionSwComponentType.append_connector, element.py:5381-5389 *)
Definition append_CompositionSwComponentType_connectors (x : CompositionSwComponentType) (a : arg) : result CompositionSwComponentType :=
  let* e := strict SwConnector_object a in Ok (mkCompositionSwComponentType (CompositionSwComponentType_ident x) (CompositionSwComponentType_ports x) (CompositionSwComponentType_components x) (CompositionSwComponentType_connectors x ++ [e])).

(** ** Ports of both directions *)
(** isinstance(com_spec, ProvidePortComSpec), isinstance(com_spec, RequirePortComSpec), element.py:4844-4849 *)
Definition either_com_spec (a : arg) : result (ProvidePortComSpec + RequirePortComSpec) :=
  match a with
  | AObj (OProvidePortComSpec e) => Ok (inl e)
  | AObj (ORequirePortComSpec e) => Ok (inr e)
  | _ => Err TypeError
  end.
(** self.provided_com_spec.append, element.py:4844-4845 *)
Fixpoint provided_of (l : list (ProvidePortComSpec + RequirePortComSpec)) : list ProvidePortComSpec :=
  match l with [] => [] | inl e :: l => e :: provided_of l | inr _ :: l => provided_of l end.
(** self.required_com_spec.append, element.py:4846-4847 *)
Fixpoint required_of (l : list (ProvidePortComSpec + RequirePortComSpec)) : list RequirePortComSpec :=
  match l with [] => [] | inl _ :: l => required_of l | inr e :: l => e :: required_of l end.
(** if provided_com_spec is not None, element.py:4813-4820: a list of provided com-specs is looked at
    when the other argument, required_com_spec, is a list or tuple *)
Definition provided_argument (provided required : arg) : result (list (ProvidePortComSpec + RequirePortComSpec)) :=
  match provided with
  | ANone => Ok []
  | AObj (OProvidePortComSpec e) => Ok [inl e]
  | _ => match required with
         | AList _ | ATuple _ => match iterable provided with Some l => mapM either_com_spec l | None => Err TypeError end
         | _ => Err TypeError
         end
  end.
(** if required_com_spec is not None, element.py:4821-4828 *)
Definition required_argument (required : arg) : result (list (ProvidePortComSpec + RequirePortComSpec)) :=
  match required with
  | ANone => Ok []
  | AObj (ORequirePortComSpec e) => Ok [inr e]
  | AList l | ATuple l => mapM either_com_spec l
  | _ => Err TypeError
  end.
(** PRPortPrototype.__init__, element.py:4802-4828 *)
Definition init_PRPortPrototype (name : string) (kw : keyword_args) : result PRPortPrototype :=
  let* _ := check_keywords (["port_interface_ref"; "provided_com_spec"; "required_com_spec"] ++ identifiable_keywords) kw in
  let* ident := new_identifiable name kw in
  let* v_port_interface_ref := opt_ref_strict rc_PortInterfaceRef (kwarg "port_interface_ref" kw) in
  let* p := provided_argument (kwarg "provided_com_spec" kw) (kwarg "required_com_spec" kw) in
  let* r := required_argument (kwarg "required_com_spec" kw) in
  Ok (mkPRPortPrototype ident v_port_interface_ref (provided_of (p ++ r)) (required_of (p ++ r))).
(** PRPortPrototype.append_com_spec, element.py:4840-4849 *)
Definition append_PRPortPrototype (x : PRPortPrototype) (a : arg) : result PRPortPrototype :=
  let* e := either_com_spec a in
  Ok (mkPRPortPrototype (PRPortPrototype_ident x) (PRPortPrototype_port_interface_ref x)
        (PRPortPrototype_provided_com_spec x ++ provided_of [e]) (PRPortPrototype_required_com_spec x ++ required_of [e])).
