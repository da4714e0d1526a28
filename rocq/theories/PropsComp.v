(** C60: ports, components and connectors hold what is given. *)
From Verif Require Import Base PBase MNum MXml MEnum MRefTab MRef MCodec MElem0 MElem1 MElemA MElemB MElemC MElem2 MElemD MElem3 MElem4 MElemE MElem5 MElemF MArxml MFind MValue MEvent MPort SPort PPort MAccess SAccess PAccess MRunnable SRunnable PRunnable MIface SIface PIface MData SFormat SData PData MConst SConst PConst MParts SParts PParts MPoint SPoint PPoint MOccur SOccur POccur MComp SComp PComp.
Open Scope list_scope.

(** ProvidePortPrototype succeeds exactly for arguments that describe an object, and makes that one. *)
Theorem C60_ProvidePortPrototype name kw x : init_ProvidePortPrototype name kw = Ok x <-> describes_ProvidePortPrototype name kw x.
Proof. exact (init_ProvidePortPrototype_iff name kw x). Qed.
Example C60_ProvidePortPrototype_example : describes_ProvidePortPrototype "N" [("com_spec", ATuple [AObj (OProvidePortComSpec (ProvidePortComSpec_ServerComSpec (mkServerComSpec None None []))); AObj (OProvidePortComSpec (ProvidePortComSpec_ServerComSpec (mkServerComSpec None None [])))]); ("port_interface_ref", AObj (ORef rc_PortInterfaceRef (mkRef "/p/r" IdentifiableSubTypes_CLIENT_SERVER_INTERFACE)))]
  (mkProvidePortPrototype (mkIdent "N" None None None None None None None) ([(ProvidePortComSpec_ServerComSpec (mkServerComSpec None None [])); (ProvidePortComSpec_ServerComSpec (mkServerComSpec None None []))]) (Some (mkRef "/p/r" IdentifiableSubTypes_CLIENT_SERVER_INTERFACE))).
Proof. apply C60_ProvidePortPrototype. reflexivity. Qed.
(** RequirePortPrototype succeeds exactly for arguments that describe an object, and makes that one. *)
Theorem C60_RequirePortPrototype name kw x : init_RequirePortPrototype name kw = Ok x <-> describes_RequirePortPrototype name kw x.
Proof. exact (init_RequirePortPrototype_iff name kw x). Qed.
Example C60_RequirePortPrototype_example : describes_RequirePortPrototype "N" [("com_spec", ATuple [AObj (ORequirePortComSpec (RequirePortComSpec_ClientComSpec (mkClientComSpec None None []))); AObj (ORequirePortComSpec (RequirePortComSpec_ClientComSpec (mkClientComSpec None None [])))]); ("allow_unconnected", AStr ""); ("port_interface_ref", AObj (ORef rc_PortInterfaceRef (mkRef "/p/r" IdentifiableSubTypes_CLIENT_SERVER_INTERFACE)))]
  (mkRequirePortPrototype (mkIdent "N" None None None None None None None) ([(RequirePortComSpec_ClientComSpec (mkClientComSpec None None [])); (RequirePortComSpec_ClientComSpec (mkClientComSpec None None []))]) (Some false) (Some (mkRef "/p/r" IdentifiableSubTypes_CLIENT_SERVER_INTERFACE))).
Proof. apply C60_RequirePortPrototype. reflexivity. Qed.
(** PortInCompositionTypeInstanceRef succeeds exactly for arguments that describe an object, and makes that one. *)
Theorem C60_PortInCompositionTypeInstanceRef kw x : init_PortInCompositionTypeInstanceRef kw = Ok x <-> describes_PortInCompositionTypeInstanceRef kw x.
Proof. exact (init_PortInCompositionTypeInstanceRef_iff kw x). Qed.
Example C60_PortInCompositionTypeInstanceRef_example : describes_PortInCompositionTypeInstanceRef [("component_ref", AObj (ORef rc_SwComponentPrototypeRef (mkRef "/p/r" IdentifiableSubTypes_SW_COMPONENT_PROTOTYPE))); ("port_ref", AObj (ORef rc_PortPrototypeRef (mkRef "/p/r" IdentifiableSubTypes_ABSTRACT_PROVIDED_PORT_PROTOTYPE)))]
  (mkPortInCompositionTypeInstanceRef (Some (mkRef "/p/r" IdentifiableSubTypes_SW_COMPONENT_PROTOTYPE)) (Some (mkRef "/p/r" IdentifiableSubTypes_ABSTRACT_PROVIDED_PORT_PROTOTYPE))).
Proof. apply C60_PortInCompositionTypeInstanceRef. reflexivity. Qed.
(** SwComponentPrototype succeeds exactly for arguments that describe an object, and makes that one. *)
Theorem C60_SwComponentPrototype name kw x : init_SwComponentPrototype name kw = Ok x <-> describes_SwComponentPrototype name kw x.
Proof. exact (init_SwComponentPrototype_iff name kw x). Qed.
Example C60_SwComponentPrototype_example : describes_SwComponentPrototype "N" [("type_ref", AObj (ORef rc_SwComponentTypeRef (mkRef "/p/r" IdentifiableSubTypes_APPLICATION_SW_COMPONENT_TYPE)))]
  (mkSwComponentPrototype (mkIdent "N" None None None None None None None) (Some (mkRef "/p/r" IdentifiableSubTypes_APPLICATION_SW_COMPONENT_TYPE))).
Proof. apply C60_SwComponentPrototype. reflexivity. Qed.
(** AssemblySwConnector succeeds exactly for arguments that describe an object, and makes that one. *)
Theorem C60_AssemblySwConnector name kw x : init_AssemblySwConnector name kw = Ok x <-> describes_AssemblySwConnector name kw x.
Proof. exact (init_AssemblySwConnector_iff name kw x). Qed.
Example C60_AssemblySwConnector_example : describes_AssemblySwConnector "N" [("provide_port", AObj (OPortInCompositionTypeInstanceRef (mkPortInCompositionTypeInstanceRef None None))); ("require_port", AObj (OPortInCompositionTypeInstanceRef (mkPortInCompositionTypeInstanceRef None None)))]
  (mkAssemblySwConnector (mkIdent "N" None None None None None None None) (Some (mkPortInCompositionTypeInstanceRef None None)) (Some (mkPortInCompositionTypeInstanceRef None None))).
Proof. apply C60_AssemblySwConnector. reflexivity. Qed.
(** DelegationSwConnector succeeds exactly for arguments that describe an object, and makes that one. *)
Theorem C60_DelegationSwConnector name kw x : init_DelegationSwConnector name kw = Ok x <-> describes_DelegationSwConnector name kw x.
Proof. exact (init_DelegationSwConnector_iff name kw x). Qed.
Example C60_DelegationSwConnector_example : describes_DelegationSwConnector "N" [("inner_port", AObj (OPortInCompositionTypeInstanceRef (mkPortInCompositionTypeInstanceRef None None))); ("outer_port", AObj (ORef rc_PortPrototypeRef (mkRef "/p/r" IdentifiableSubTypes_ABSTRACT_PROVIDED_PORT_PROTOTYPE)))]
  (mkDelegationSwConnector (mkIdent "N" None None None None None None None) (Some (mkPortInCompositionTypeInstanceRef None None)) (Some (mkRef "/p/r" IdentifiableSubTypes_ABSTRACT_PROVIDED_PORT_PROTOTYPE))).
Proof. apply C60_DelegationSwConnector. reflexivity. Qed.
(** PassThroughSwConnector succeeds exactly for arguments that describe an object, and makes that one. *)
Theorem C60_PassThroughSwConnector name kw x : init_PassThroughSwConnector name kw = Ok x <-> describes_PassThroughSwConnector name kw x.
Proof. exact (init_PassThroughSwConnector_iff name kw x). Qed.
Example C60_PassThroughSwConnector_example : describes_PassThroughSwConnector "N" [("provide_port", AObj (ORef rc_PortPrototypeRef (mkRef "/p/r" IdentifiableSubTypes_ABSTRACT_PROVIDED_PORT_PROTOTYPE))); ("require_port", AObj (ORef rc_PortPrototypeRef (mkRef "/p/r" IdentifiableSubTypes_ABSTRACT_PROVIDED_PORT_PROTOTYPE)))]
  (mkPassThroughSwConnector (mkIdent "N" None None None None None None None) (Some (mkRef "/p/r" IdentifiableSubTypes_ABSTRACT_PROVIDED_PORT_PROTOTYPE)) (Some (mkRef "/p/r" IdentifiableSubTypes_ABSTRACT_PROVIDED_PORT_PROTOTYPE))).
Proof. apply C60_PassThroughSwConnector. reflexivity. Qed.
(** ApplicationSoftwareComponentType succeeds exactly for arguments that describe an object, and makes that one. *)
Theorem C60_ApplicationSoftwareComponentType name kw x : init_ApplicationSoftwareComponentType name kw = Ok x <-> describes_ApplicationSoftwareComponentType name kw x.
Proof. exact (init_ApplicationSoftwareComponentType_iff name kw x). Qed.
Example C60_ApplicationSoftwareComponentType_example : describes_ApplicationSoftwareComponentType "N" [("ports", AList [AObj (OPortPrototype (PortPrototypeElement_P (mkProvidePortPrototype (mkIdent "N" None None None None None None None) [] None))); AObj (OPortPrototype (PortPrototypeElement_P (mkProvidePortPrototype (mkIdent "N" None None None None None None None) [] None)))]); ("internal_behavior", AObj (OSwcInternalBehavior (mkSwcInternalBehavior (mkIdent "N" None None None None None None None) [] [] [] [] []))); ("symbol_props", AObj (OSymbolProps (mkSymbolProps "N" None)))]
  (mkApplicationSoftwareComponentType (mkIdent "N" None None None None None None None) ([(PortPrototypeElement_P (mkProvidePortPrototype (mkIdent "N" None None None None None None None) [] None)); (PortPrototypeElement_P (mkProvidePortPrototype (mkIdent "N" None None None None None None None) [] None))]) (Some (mkSwcInternalBehavior (mkIdent "N" None None None None None None None) [] [] [] [] [])) (Some (mkSymbolProps "N" None))).
Proof. apply C60_ApplicationSoftwareComponentType. reflexivity. Qed.
(** CompositionSwComponentType succeeds exactly for arguments that describe an object, and makes that one. *)
Theorem C60_CompositionSwComponentType name kw x : init_CompositionSwComponentType name kw = Ok x <-> describes_CompositionSwComponentType name kw x.
Proof. exact (init_CompositionSwComponentType_iff name kw x). Qed.
Example C60_CompositionSwComponentType_example : describes_CompositionSwComponentType "N" [("ports", AList [AObj (OPortPrototype (PortPrototypeElement_P (mkProvidePortPrototype (mkIdent "N" None None None None None None None) [] None))); AObj (OPortPrototype (PortPrototypeElement_P (mkProvidePortPrototype (mkIdent "N" None None None None None None None) [] None)))]); ("components", AList [AObj (OSwComponentPrototype (mkSwComponentPrototype (mkIdent "N" None None None None None None None) None)); AObj (OSwComponentPrototype (mkSwComponentPrototype (mkIdent "N" None None None None None None None) None))]); ("connectors", AList [AObj (OSwConnector (SwConnectorElement_Assembly (mkAssemblySwConnector (mkIdent "N" None None None None None None None) None None))); AObj (OSwConnector (SwConnectorElement_Assembly (mkAssemblySwConnector (mkIdent "N" None None None None None None None) None None)))])]
  (mkCompositionSwComponentType (mkIdent "N" None None None None None None None) ([(PortPrototypeElement_P (mkProvidePortPrototype (mkIdent "N" None None None None None None None) [] None)); (PortPrototypeElement_P (mkProvidePortPrototype (mkIdent "N" None None None None None None None) [] None))]) ([(mkSwComponentPrototype (mkIdent "N" None None None None None None None) None); (mkSwComponentPrototype (mkIdent "N" None None None None None None None) None)]) ([(SwConnectorElement_Assembly (mkAssemblySwConnector (mkIdent "N" None None None None None None None) None None)); (SwConnectorElement_Assembly (mkAssemblySwConnector (mkIdent "N" None None None None None None None) None None))])).
Proof. apply C60_CompositionSwComponentType. reflexivity. Qed.
Theorem C60_ProvidePortPrototype_append_com_spec x a y : append_ProvidePortPrototype_com_spec x a = Ok y <-> one_more_ProvidePortPrototype_com_spec x a y.
Proof. exact (append_ProvidePortPrototype_com_spec_iff x a y). Qed.
Example C60_ProvidePortPrototype_append_com_spec_example : one_more_ProvidePortPrototype_com_spec (mkProvidePortPrototype (mkIdent "N" None None None None None None None) [(ProvidePortComSpec_ServerComSpec (mkServerComSpec None None []))] None) (AObj (OProvidePortComSpec (ProvidePortComSpec_ServerComSpec (mkServerComSpec None None [])))) (mkProvidePortPrototype (mkIdent "N" None None None None None None None) [(ProvidePortComSpec_ServerComSpec (mkServerComSpec None None [])); (ProvidePortComSpec_ServerComSpec (mkServerComSpec None None []))] None).
Proof. apply C60_ProvidePortPrototype_append_com_spec. reflexivity. Qed.
Theorem C60_RequirePortPrototype_append_com_spec x a y : append_RequirePortPrototype_com_spec x a = Ok y <-> one_more_RequirePortPrototype_com_spec x a y.
Proof. exact (append_RequirePortPrototype_com_spec_iff x a y). Qed.
Example C60_RequirePortPrototype_append_com_spec_example : one_more_RequirePortPrototype_com_spec (mkRequirePortPrototype (mkIdent "N" None None None None None None None) [(RequirePortComSpec_ClientComSpec (mkClientComSpec None None []))] None None) (AObj (ORequirePortComSpec (RequirePortComSpec_ClientComSpec (mkClientComSpec None None [])))) (mkRequirePortPrototype (mkIdent "N" None None None None None None None) [(RequirePortComSpec_ClientComSpec (mkClientComSpec None None [])); (RequirePortComSpec_ClientComSpec (mkClientComSpec None None []))] None None).
Proof. apply C60_RequirePortPrototype_append_com_spec. reflexivity. Qed.
Theorem C60_ApplicationSoftwareComponentType_append_ports x a y : append_ApplicationSoftwareComponentType_ports x a = Ok y <-> one_more_ApplicationSoftwareComponentType_ports x a y.
Proof. exact (append_ApplicationSoftwareComponentType_ports_iff x a y). Qed.
Example C60_ApplicationSoftwareComponentType_append_ports_example : one_more_ApplicationSoftwareComponentType_ports (mkApplicationSoftwareComponentType (mkIdent "N" None None None None None None None) [(PortPrototypeElement_P (mkProvidePortPrototype (mkIdent "N" None None None None None None None) [] None))] None None) (AObj (OPortPrototype (PortPrototypeElement_P (mkProvidePortPrototype (mkIdent "N" None None None None None None None) [] None)))) (mkApplicationSoftwareComponentType (mkIdent "N" None None None None None None None) [(PortPrototypeElement_P (mkProvidePortPrototype (mkIdent "N" None None None None None None None) [] None)); (PortPrototypeElement_P (mkProvidePortPrototype (mkIdent "N" None None None None None None None) [] None))] None None).
Proof. apply C60_ApplicationSoftwareComponentType_append_ports. reflexivity. Qed.
Theorem C60_CompositionSwComponentType_append_ports x a y : append_CompositionSwComponentType_ports x a = Ok y <-> one_more_CompositionSwComponentType_ports x a y.
Proof. exact (append_CompositionSwComponentType_ports_iff x a y). Qed.
Example C60_CompositionSwComponentType_append_ports_example : one_more_CompositionSwComponentType_ports (mkCompositionSwComponentType (mkIdent "N" None None None None None None None) [(PortPrototypeElement_P (mkProvidePortPrototype (mkIdent "N" None None None None None None None) [] None))] [] []) (AObj (OPortPrototype (PortPrototypeElement_P (mkProvidePortPrototype (mkIdent "N" None None None None None None None) [] None)))) (mkCompositionSwComponentType (mkIdent "N" None None None None None None None) [(PortPrototypeElement_P (mkProvidePortPrototype (mkIdent "N" None None None None None None None) [] None)); (PortPrototypeElement_P (mkProvidePortPrototype (mkIdent "N" None None None None None None None) [] None))] [] []).
Proof. apply C60_CompositionSwComponentType_append_ports. reflexivity. Qed.
Theorem C60_CompositionSwComponentType_append_components x a y : append_CompositionSwComponentType_components x a = Ok y <-> one_more_CompositionSwComponentType_components x a y.
Proof. exact (append_CompositionSwComponentType_components_iff x a y). Qed.
Example C60_CompositionSwComponentType_append_components_example : one_more_CompositionSwComponentType_components (mkCompositionSwComponentType (mkIdent "N" None None None None None None None) [] [(mkSwComponentPrototype (mkIdent "N" None None None None None None None) None)] []) (AObj (OSwComponentPrototype (mkSwComponentPrototype (mkIdent "N" None None None None None None None) None))) (mkCompositionSwComponentType (mkIdent "N" None None None None None None None) [] [(mkSwComponentPrototype (mkIdent "N" None None None None None None None) None); (mkSwComponentPrototype (mkIdent "N" None None None None None None None) None)] []).
Proof. apply C60_CompositionSwComponentType_append_components. reflexivity. Qed.
Theorem C60_CompositionSwComponentType_append_connectors x a y : append_CompositionSwComponentType_connectors x a = Ok y <-> one_more_CompositionSwComponentType_connectors x a y.
Proof. exact (append_CompositionSwComponentType_connectors_iff x a y). Qed.
Example C60_CompositionSwComponentType_append_connectors_example : one_more_CompositionSwComponentType_connectors (mkCompositionSwComponentType (mkIdent "N" None None None None None None None) [] [] [(SwConnectorElement_Assembly (mkAssemblySwConnector (mkIdent "N" None None None None None None None) None None))]) (AObj (OSwConnector (SwConnectorElement_Assembly (mkAssemblySwConnector (mkIdent "N" None None None None None None None) None None)))) (mkCompositionSwComponentType (mkIdent "N" None None None None None None None) [] [] [(SwConnectorElement_Assembly (mkAssemblySwConnector (mkIdent "N" None None None None None None None) None None)); (SwConnectorElement_Assembly (mkAssemblySwConnector (mkIdent "N" None None None None None None None) None None))]).
Proof. apply C60_CompositionSwComponentType_append_connectors. reflexivity. Qed.

(** ** Ports of both directions *)
Theorem C60_PRPortPrototype name kw x : init_PRPortPrototype name kw = Ok x <-> describes_PRPortPrototype name kw x.
Proof. exact (init_PRPortPrototype_iff name kw x). Qed.
Example C60_PRPortPrototype_example : describes_PRPortPrototype "N" [("provided_com_spec", AList [AObj (OProvidePortComSpec (ProvidePortComSpec_ServerComSpec (mkServerComSpec None None [])))]); ("required_com_spec", AList [AObj (ORequirePortComSpec (RequirePortComSpec_ClientComSpec (mkClientComSpec None None []))); AObj (ORequirePortComSpec (RequirePortComSpec_ClientComSpec (mkClientComSpec None None [])))])]
  (mkPRPortPrototype (mkIdent "N" None None None None None None None) None [(ProvidePortComSpec_ServerComSpec (mkServerComSpec None None []))] [(RequirePortComSpec_ClientComSpec (mkClientComSpec None None [])); (RequirePortComSpec_ClientComSpec (mkClientComSpec None None []))]).
Proof. apply C60_PRPortPrototype. reflexivity. Qed.
Theorem C60_PRPortPrototype_append x a y : append_PRPortPrototype x a = Ok y <-> one_more_PRPortPrototype x a y.
Proof. exact (append_PRPortPrototype_iff x a y). Qed.
Example C60_PRPortPrototype_append_example : one_more_PRPortPrototype (mkPRPortPrototype (mkIdent "N" None None None None None None None) None [(ProvidePortComSpec_ServerComSpec (mkServerComSpec None None []))] [(RequirePortComSpec_ClientComSpec (mkClientComSpec None None []))]) (AObj (ORequirePortComSpec (RequirePortComSpec_ClientComSpec (mkClientComSpec None None [])))) (mkPRPortPrototype (mkIdent "N" None None None None None None None) None [(ProvidePortComSpec_ServerComSpec (mkServerComSpec None None []))] [(RequirePortComSpec_ClientComSpec (mkClientComSpec None None [])); (RequirePortComSpec_ClientComSpec (mkClientComSpec None None []))]).
Proof. apply C60_PRPortPrototype_append. reflexivity. Qed.
(** A documented list of provided com-specs is refused unless the required ones are a sequence too. *)
Theorem C60_provided_list_refuted name kw l : given "provided_com_spec" kw = Some (AList l) -> (forall r, given "required_com_spec" kw = Some r -> ~ is_sequence r) ->
  exists e, init_PRPortPrototype name kw = Err e.
Proof.
  intros G N. destruct (init_PRPortPrototype name kw) as [x|e] eqn:E; [|eauto]. exfalso. apply C60_PRPortPrototype in E as (_ & _ & _ & p & r & P & _). rewrite G in P.
  inversion P as [|e|s b q E S M]. exact (N s E S).
Qed.
(** Com-specs for one side are accepted in the argument for the other. *)
Theorem C60_wrong_side_refuted : exists kw x e, given "provided_com_spec" kw = None /\ given "required_com_spec" kw = Some (AList [AObj (OProvidePortComSpec e)]) /\
  init_PRPortPrototype "P" kw = Ok x /\ PRPortPrototype_provided_com_spec x = [e] /\ PRPortPrototype_required_com_spec x = [].
Proof. exists [("required_com_spec", AList [AObj (OProvidePortComSpec (ProvidePortComSpec_ServerComSpec (mkServerComSpec None None [])))])], (mkPRPortPrototype (mkIdent "P" None None None None None None None) None [(ProvidePortComSpec_ServerComSpec (mkServerComSpec None None []))] []), (ProvidePortComSpec_ServerComSpec (mkServerComSpec None None [])). repeat split; reflexivity. Qed.
(** With at most one provided com-spec and any required ones each side holds what is given for it. *)
Theorem C60_PRPortPrototype_holds name kw x ps rs : given "provided_com_spec" kw = option_map (fun e => AObj (OProvidePortComSpec e)) ps ->
  given "required_com_spec" kw = Some (AList (map (fun e => AObj (ORequirePortComSpec e)) rs)) -> init_PRPortPrototype name kw = Ok x ->
  PRPortPrototype_provided_com_spec x = match ps with Some e => [e] | None => [] end /\ PRPortPrototype_required_com_spec x = rs.
Proof.
  intros G K H. apply C60_PRPortPrototype in H as (_ & _ & _ & p & r & P & R & S). rewrite G, K in *.
  assert (Rr : r = map inr rs).
  { inversion R as [| |b l _ M]. subst. inversion M as [i xs F| | | |]. subst. clear -F. revert r F. induction rs as [|e rs IH]; cbn; intros r F; inversion F as [|? ? ? ? A B]; [reflexivity|]. inversion A. subst. f_equal. now apply IH. }
  assert (Pp : p = match ps with Some e => [inl e] | None => [] end).
  { destruct ps as [e|]; cbn in P; inversion P as [|f|s b q E Q M]; try reflexivity. inversion M. }
  subst. apply sides_iff in S as [-> ->].
  assert (A : provided_of (map inr rs) = [] /\ required_of (map inr rs) = rs). { clear. split; induction rs as [|e rs IH]; cbn; congruence || reflexivity. }
  destruct A as [A B]. destruct ps as [e|]; cbn; rewrite A, B; split; reflexivity.
Qed.

Print Assumptions C60_ProvidePortPrototype.
Print Assumptions C60_RequirePortPrototype.
Print Assumptions C60_PortInCompositionTypeInstanceRef.
Print Assumptions C60_SwComponentPrototype.
Print Assumptions C60_AssemblySwConnector.
Print Assumptions C60_DelegationSwConnector.
Print Assumptions C60_PassThroughSwConnector.
Print Assumptions C60_ApplicationSoftwareComponentType.
Print Assumptions C60_CompositionSwComponentType.
Print Assumptions C60_ProvidePortPrototype_append_com_spec.
Print Assumptions C60_RequirePortPrototype_append_com_spec.
Print Assumptions C60_ApplicationSoftwareComponentType_append_ports.
Print Assumptions C60_CompositionSwComponentType_append_ports.
Print Assumptions C60_CompositionSwComponentType_append_components.
Print Assumptions C60_CompositionSwComponentType_append_connectors.
Print Assumptions C60_PRPortPrototype.
Print Assumptions C60_PRPortPrototype_append.
Print Assumptions C60_provided_list_refuted.
Print Assumptions C60_wrong_side_refuted.
Print Assumptions C60_PRPortPrototype_holds.
