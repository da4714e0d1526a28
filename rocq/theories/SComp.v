(** Which ports, components and connectors given arguments describe, independently of how they are made. *)
From Verif Require Import Base MNum MXml MEnum MRefTab MRef MCodec MElem0 MElem1 MElemA MElemB MElemC MElem2 MElemD MElem3 MElem4 MElemE MElem5 MElemF MArxml MFind MValue MEvent MPort SPort MAccess SAccess MRunnable SRunnable MIface SIface MData SFormat SData MConst SConst MParts SParts MPoint SPoint MOccur SOccur.
Open Scope list_scope.

(** One thing, or things in a list or tuple. *)
Inductive means_one_or_more {A} (means : arg -> A -> Prop) : arg -> list A -> Prop :=
| more_one a x : means a x -> means_one_or_more means a [x]
| more_list l xs : Forall2 means l xs -> means_one_or_more means (AList l) xs
| more_tuple l xs : Forall2 means l xs -> means_one_or_more means (ATuple l) xs.

(** ** Ports *)
Definition describes_ProvidePortPrototype (name : string) (kw : keyword_args) (x : ProvidePortPrototype) : Prop :=
  only (["port_interface_ref"; "com_spec"] ++ common_arguments) kw /\
  identity name kw (ProvidePortPrototype_ident x) /\
  holds_list (means_one_or_more (is_a OProvidePortComSpec)) kw "com_spec" (ProvidePortPrototype_com_spec x) /\
  holds (of_class "PortInterfaceRef") kw "port_interface_ref" (ProvidePortPrototype_port_interface_ref x).
(** One more at the end of com_spec, nothing else changed. *)
Definition one_more_ProvidePortPrototype_com_spec (x : ProvidePortPrototype) (a : arg) (y : ProvidePortPrototype) : Prop :=
  exists e, is_a OProvidePortComSpec a e /\
  ProvidePortPrototype_ident y = ProvidePortPrototype_ident x /\ ProvidePortPrototype_com_spec y = ProvidePortPrototype_com_spec x ++ [e] /\ ProvidePortPrototype_port_interface_ref y = ProvidePortPrototype_port_interface_ref x.
Definition describes_RequirePortPrototype (name : string) (kw : keyword_args) (x : RequirePortPrototype) : Prop :=
  only (["port_interface_ref"; "com_spec"; "allow_unconnected"] ++ common_arguments) kw /\
  identity name kw (RequirePortPrototype_ident x) /\
  holds_list (means_one_or_more (is_a ORequirePortComSpec)) kw "com_spec" (RequirePortPrototype_com_spec x) /\
  holds means_flag kw "allow_unconnected" (RequirePortPrototype_allow_unconnected x) /\
  holds (of_class "PortInterfaceRef") kw "port_interface_ref" (RequirePortPrototype_port_interface_ref x).
(** One more at the end of com_spec, nothing else changed. *)
Definition one_more_RequirePortPrototype_com_spec (x : RequirePortPrototype) (a : arg) (y : RequirePortPrototype) : Prop :=
  exists e, is_a ORequirePortComSpec a e /\
  RequirePortPrototype_ident y = RequirePortPrototype_ident x /\ RequirePortPrototype_com_spec y = RequirePortPrototype_com_spec x ++ [e] /\ RequirePortPrototype_allow_unconnected y = RequirePortPrototype_allow_unconnected x /\ RequirePortPrototype_port_interface_ref y = RequirePortPrototype_port_interface_ref x.

(** ** Components and connectors *)
Definition describes_PortInCompositionTypeInstanceRef (kw : keyword_args) (x : PortInCompositionTypeInstanceRef) : Prop :=
  only ["component_ref"; "port_ref"] kw /\
  holds (of_class "SwComponentPrototypeRef") kw "component_ref" (PortInCompositionTypeInstanceRef_component_ref x) /\
  holds (of_class "PortPrototypeRef") kw "port_ref" (PortInCompositionTypeInstanceRef_port_ref x).
Definition describes_SwComponentPrototype (name : string) (kw : keyword_args) (x : SwComponentPrototype) : Prop :=
  only (["type_ref"] ++ common_arguments) kw /\
  identity name kw (SwComponentPrototype_ident x) /\
  holds (of_class "SwComponentTypeRef") kw "type_ref" (SwComponentPrototype_type_ref x).
Definition describes_AssemblySwConnector (name : string) (kw : keyword_args) (x : AssemblySwConnector) : Prop :=
  only (["provide_port"; "require_port"] ++ common_arguments) kw /\
  identity name kw (AssemblySwConnector_ident x) /\
  holds (is_a OPortInCompositionTypeInstanceRef) kw "provide_port" (AssemblySwConnector_provide_port x) /\
  holds (is_a OPortInCompositionTypeInstanceRef) kw "require_port" (AssemblySwConnector_require_port x).
Definition describes_DelegationSwConnector (name : string) (kw : keyword_args) (x : DelegationSwConnector) : Prop :=
  only (["inner_port"; "outer_port"] ++ common_arguments) kw /\
  identity name kw (DelegationSwConnector_ident x) /\
  holds (is_a OPortInCompositionTypeInstanceRef) kw "inner_port" (DelegationSwConnector_inner_port x) /\
  holds (of_class "PortPrototypeRef") kw "outer_port" (DelegationSwConnector_outer_port x).
Definition describes_PassThroughSwConnector (name : string) (kw : keyword_args) (x : PassThroughSwConnector) : Prop :=
  only (["provide_port"; "require_port"] ++ common_arguments) kw /\
  identity name kw (PassThroughSwConnector_ident x) /\
  holds (of_class "PortPrototypeRef") kw "provide_port" (PassThroughSwConnector_provide_port x) /\
  holds (of_class "PortPrototypeRef") kw "require_port" (PassThroughSwConnector_require_port x).
Definition describes_ApplicationSoftwareComponentType (name : string) (kw : keyword_args) (x : ApplicationSoftwareComponentType) : Prop :=
  only (["internal_behavior"; "symbol_props"; "ports"] ++ common_arguments) kw /\
  identity name kw (ApplicationSoftwareComponentType_ident x) /\
  holds_list (means_list (is_a OPortPrototype)) kw "ports" (ApplicationSoftwareComponentType_ports x) /\
  holds (is_a OSwcInternalBehavior) kw "internal_behavior" (ApplicationSoftwareComponentType_internal_behavior x) /\
  holds (is_a OSymbolProps) kw "symbol_props" (ApplicationSoftwareComponentType_symbol_props x).
Definition describes_CompositionSwComponentType (name : string) (kw : keyword_args) (x : CompositionSwComponentType) : Prop :=
  only (["components"; "connectors"; "ports"] ++ common_arguments) kw /\
  identity name kw (CompositionSwComponentType_ident x) /\
  holds_list (means_list (is_a OPortPrototype)) kw "ports" (CompositionSwComponentType_ports x) /\
  holds_list (means_list (is_a OSwComponentPrototype)) kw "components" (CompositionSwComponentType_components x) /\
  holds_list (means_list (is_a OSwConnector)) kw "connectors" (CompositionSwComponentType_connectors x).
(** One more at the end of ports, nothing else changed. *)
Definition one_more_ApplicationSoftwareComponentType_ports (x : ApplicationSoftwareComponentType) (a : arg) (y : ApplicationSoftwareComponentType) : Prop :=
  exists e, is_a OPortPrototype a e /\
  ApplicationSoftwareComponentType_ident y = ApplicationSoftwareComponentType_ident x /\ ApplicationSoftwareComponentType_ports y = ApplicationSoftwareComponentType_ports x ++ [e] /\ ApplicationSoftwareComponentType_internal_behavior y = ApplicationSoftwareComponentType_internal_behavior x /\ ApplicationSoftwareComponentType_symbol_props y = ApplicationSoftwareComponentType_symbol_props x.
(** One more at the end of ports, nothing else changed. *)
Definition one_more_CompositionSwComponentType_ports (x : CompositionSwComponentType) (a : arg) (y : CompositionSwComponentType) : Prop :=
  exists e, is_a OPortPrototype a e /\
  CompositionSwComponentType_ident y = CompositionSwComponentType_ident x /\ CompositionSwComponentType_ports y = CompositionSwComponentType_ports x ++ [e] /\ CompositionSwComponentType_components y = CompositionSwComponentType_components x /\ CompositionSwComponentType_connectors y = CompositionSwComponentType_connectors x.
(** One more at the end of components, nothing else changed. *)
Definition one_more_CompositionSwComponentType_components (x : CompositionSwComponentType) (a : arg) (y : CompositionSwComponentType) : Prop :=
  exists e, is_a OSwComponentPrototype a e /\
  CompositionSwComponentType_ident y = CompositionSwComponentType_ident x /\ CompositionSwComponentType_ports y = CompositionSwComponentType_ports x /\ CompositionSwComponentType_components y = CompositionSwComponentType_components x ++ [e] /\ CompositionSwComponentType_connectors y = CompositionSwComponentType_connectors x.
(** One more at the end of connectors, nothing else changed. *)
Definition one_more_CompositionSwComponentType_connectors (x : CompositionSwComponentType) (a : arg) (y : CompositionSwComponentType) : Prop :=
  exists e, is_a OSwConnector a e /\
  CompositionSwComponentType_ident y = CompositionSwComponentType_ident x /\ CompositionSwComponentType_ports y = CompositionSwComponentType_ports x /\ CompositionSwComponentType_components y = CompositionSwComponentType_components x /\ CompositionSwComponentType_connectors y = CompositionSwComponentType_connectors x ++ [e].

(** ** Ports of both directions *)
Definition com_spec := (ProvidePortComSpec + RequirePortComSpec)%type.
Inductive is_com_spec : arg -> com_spec -> Prop :=
| com_spec_provided e : is_com_spec (AObj (OProvidePortComSpec e)) (inl e)
| com_spec_required e : is_com_spec (AObj (ORequirePortComSpec e)) (inr e).
(** The com-specs of a port, each on its own side. *)
Inductive sides : list com_spec -> list ProvidePortComSpec -> list RequirePortComSpec -> Prop :=
| sides_none : sides [] [] []
| sides_provided e l ps rs : sides l ps rs -> sides (inl e :: l) (e :: ps) rs
| sides_required e l ps rs : sides l ps rs -> sides (inr e :: l) ps (e :: rs).
(** Several com-specs; also empty things of other kinds. *)
Inductive means_com_specs : arg -> list com_spec -> Prop :=
| com_specs_list l xs : Forall2 is_com_spec l xs -> means_com_specs (AList l) xs
| com_specs_tuple l xs : Forall2 is_com_spec l xs -> means_com_specs (ATuple l) xs
| com_specs_no_text : means_com_specs (AStr "") []
| com_specs_no_keys : means_com_specs (ADict []) []
| com_specs_no_props p : SwDataDefProps_variants p = [] -> means_com_specs (AObj (OSwDataDefProps p)) [].
Definition is_sequence (a : arg) : Prop := exists l, a = AList l \/ a = ATuple l.
(** What the argument provided_com_spec gives: several only beside a sequence of required com-specs. *)
Inductive gives_provided (required : option arg) : option arg -> list com_spec -> Prop :=
| gives_no_provided : gives_provided required None []
| gives_one_provided e : gives_provided required (Some (AObj (OProvidePortComSpec e))) [inl e]
| gives_more_provided r a l : required = Some r -> is_sequence r -> means_com_specs a l -> gives_provided required (Some a) l.
Inductive gives_required : option arg -> list com_spec -> Prop :=
| gives_no_required : gives_required None []
| gives_one_required e : gives_required (Some (AObj (ORequirePortComSpec e))) [inr e]
| gives_more_required a l : is_sequence a -> means_com_specs a l -> gives_required (Some a) l.
Definition describes_PRPortPrototype (name : string) (kw : keyword_args) (x : PRPortPrototype) : Prop :=
  only (["port_interface_ref"; "provided_com_spec"; "required_com_spec"] ++ common_arguments) kw /\
  identity name kw (PRPortPrototype_ident x) /\
  holds (of_class "PortInterfaceRef") kw "port_interface_ref" (PRPortPrototype_port_interface_ref x) /\
  exists p r, gives_provided (given "required_com_spec" kw) (given "provided_com_spec" kw) p /\
    gives_required (given "required_com_spec" kw) r /\
    sides (p ++ r) (PRPortPrototype_provided_com_spec x) (PRPortPrototype_required_com_spec x).
(** One more com-spec at the end of its side, nothing else changed. *)
Definition one_more_PRPortPrototype (x : PRPortPrototype) (a : arg) (y : PRPortPrototype) : Prop :=
  PRPortPrototype_ident y = PRPortPrototype_ident x /\ PRPortPrototype_port_interface_ref y = PRPortPrototype_port_interface_ref x /\
  ((exists e, a = AObj (OProvidePortComSpec e) /\ PRPortPrototype_provided_com_spec y = PRPortPrototype_provided_com_spec x ++ [e] /\ PRPortPrototype_required_com_spec y = PRPortPrototype_required_com_spec x) \/
   (exists e, a = AObj (ORequirePortComSpec e) /\ PRPortPrototype_provided_com_spec y = PRPortPrototype_provided_com_spec x /\ PRPortPrototype_required_com_spec y = PRPortPrototype_required_com_spec x ++ [e])).
