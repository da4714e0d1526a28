(** Finding objects by reference in packages of typed elements, and creating connectors in a
    composition. *)
From Verif Require Import Base PBase MHeap SHeap MNames MNum MRefTab MRef MEnum MCodec MElem1 MElemB MElemC MElem2 MElem4 MElemE MElemF MArxml MFind MConn SFind PFind PConn.
Open Scope list_scope.

(** * C43: every object that stands in a tree of packages is found under its path *)
Theorem C43_finds ws ns f : tree_ok ws -> at_path ws ns f -> tree_find ws (path_string ns) = Ok (Some (path_string ns, f)).
Proof. apply tree_find_at. Qed.
(** What is found under any text stands in the tree, at the path that its own reference states. *)
Theorem C43_found_stands ws text path f : tree_find ws text = Ok (Some (path, f)) -> exists ns, at_path ws ns f /\ path = path_string ns.
Proof. apply tree_find_sound. Qed.
(** With valid, different names in every scope, different objects have different paths. *)
Theorem C43_unambiguous ws ns f g : tree_ok ws -> at_path ws ns f -> at_path ws ns g -> f = g.
Proof. intros T F G. pose proof (tree_find_at ws ns f T F). pose proof (tree_find_at ws ns g T G). congruence. Qed.
(** A path of valid names finds the object that stands at it and nothing else, except that names
    after the name of a port, component prototype or connector are ignored. *)
Theorem C43_nothing_else ws ns path f : tree_ok ws -> ns <> [] -> Forall valid_name ns -> tree_find ws (path_string ns) = Ok (Some (path, f)) ->
  exists ms extra, ns = ms ++ extra /\ at_path ws ms f /\ path = path_string ms /\
    (extra = [] \/ match f with FPort _ | FComponent _ | FConnector _ => True | _ => False end).
Proof. apply tree_find_names. Qed.

(** * C33: connectors *)
(** A call that fails changes nothing; a call that succeeds adds exactly the connector it returns,
    under a name that was free: ports, component prototypes and the other connectors stay. *)
Theorem C33_one_connector ws self c t1 t2 c' r : create_connector ws self c t1 t2 = (c', r) ->
  match r with
  | Err _ => c' = c
  | Ok k => CompositionSwComponentType_ident c' = CompositionSwComponentType_ident c /\
            CompositionSwComponentType_ports c' = CompositionSwComponentType_ports c /\
            CompositionSwComponentType_components c' = CompositionSwComponentType_components c /\
            CompositionSwComponentType_connectors c' = CompositionSwComponentType_connectors c ++ [k]
  end.
Proof. intros H. apply create_effect in H. destruct r; [|exact H]. destruct H as [-> _]. repeat split. Qed.

(** Two texts that mean ports of the composition or of its components give the connector that joins
    the ports, with the provider on the provider side; for all but pass-through connectors in either
    order of the texts.  When the name is taken, both orders fail with ValueError. *)
Theorem C33_normalized ws self c t1 p1 o1 t2 p2 o2 k : tree_ok ws -> scope_ok (composition_names c) -> self <> [] ->
  means ws c t1 p1 o1 -> means ws c t2 p2 o2 -> joins self p1 o1 p2 o2 k ->
  let outcome := if in_dec string_dec (connector_name k) (composition_names c) then (c, Err ValueError)
                 else (mkCompositionSwComponentType (CompositionSwComponentType_ident c) (CompositionSwComponentType_ports c)
                         (CompositionSwComponentType_components c) (CompositionSwComponentType_connectors c ++ [k]), Ok k) in
  create_connector ws (Some (path_string self)) c t1 t2 = outcome /\
  (o1 <> None -> create_connector ws (Some (path_string self)) c t2 t1 = outcome).
Proof.
  intros T K S M1 M2 J outcome. pose proof (joins_name ws self c t1 p1 o1 t2 p2 o2 k T K M1 M2 J) as [_ V].
  assert (E : add_if_new c k = outcome).
  { unfold add_if_new, outcome. pose proof (composition_find_none c (connector_name k) V) as X. destruct (in_dec _ _ _) as [I|I].
    - destruct (composition_find c (connector_name k)); [reflexivity|]. exfalso. now apply X.
    - destruct (composition_find c (connector_name k)) eqn:F; [|reflexivity]. apply X in I. discriminate. }
  rewrite <- E. eapply create_joins; eauto.
Qed.
(** Two ports of components that are not one provide-port and one require-port are rejected. *)
Theorem C33_rejects ws self c t1 p1 o1 t2 p2 o2 : tree_ok ws -> scope_ok (composition_names c) ->
  means ws c t1 p1 (Some o1) -> means ws c t2 p2 (Some o2) ->
  (forall a b, (p1, p2) <> (PortPrototypeElement_P a, PortPrototypeElement_R b) /\ (p1, p2) <> (PortPrototypeElement_R b, PortPrototypeElement_P a)) ->
  create_connector ws (Some (path_string self)) c t1 t2 = (c, Err ValueError).
Proof.
  intros T K M1 M2 D. unfold create_connector. rewrite (analyze_means ws self c t1 p1 _ T K M1), (analyze_means ws self c t2 p2 _ T K M2). cbn [option_map].
  destruct o1 as [k1 n1], o2 as [k2 n2]. cbn [fst snd]. destruct p1 as [a|a|a], p2 as [b|b|b]; try reflexivity; exfalso.
  - now destruct (D a b).
  - now destruct (D b a).
Qed.
(** Whatever the texts: a connector that is created is one that joins two ports of the composition
    or its components in one of the two orders, or a pass-through connector from the first to the
    second port. *)
Theorem C33_only_joins_partial ws self c t1 t2 c' k : self <> [] -> create_connector ws (Some (path_string self)) c t1 t2 = (c', Ok k) ->
  exists p1 o1 p2 o2, port_of ws c p1 o1 /\ port_of ws c p2 o2 /\
    (joins self p1 o1 p2 o2 k \/ joins self p2 o2 p1 o1 k \/
     (o1 = None /\ o2 = None /\ k = SwConnectorElement_PassThrough (mkPassThroughSwConnector (named (port_name p1 ++ "_" ++ port_name p2)%string)
       (Some (ref_to_port self p1)) (Some (ref_to_port self p2))))).
Proof. apply create_sound. Qed.
(** In a workspace that holds the composition, every reference of a created connector is set and
    leads to an object of the stated kind. *)
Theorem C33_references ws self c t1 t2 c' k : tree_ok ws -> at_path ws self (FElement (AR_CompositionSwComponentType c)) ->
  create_connector ws (Some (path_string self)) c t1 t2 = (c', Ok k) -> Forall (resolves ws) (connector_refs k).
Proof.
  intros T A H. apply create_sound in H; [|eapply at_nonempty; eauto]. destruct H as (p1 & o1 & p2 & o2 & P1 & P2 & [J|[J|(-> & -> & ->)]]).
  - exact (joins_resolve ws self c p1 o1 p2 o2 k T A P1 P2 J).
  - exact (joins_resolve ws self c p2 o2 p1 o1 k T A P2 P1 J).
  - apply (port_at _ _ _ _ _ A) in P1, P2. cbn [connector_refs PassThroughSwConnector_provide_port PassThroughSwConnector_require_port]. unfold ref_to_port.
    repeat constructor; eapply resolves_at; eauto; reflexivity.
Qed.
(** The names in the composition stay valid and different. *)
Theorem C33_names_stay_unique ws self c t1 t2 c' r : tree_ok ws -> scope_ok (composition_names c) -> self <> [] ->
  create_connector ws (Some (path_string self)) c t1 t2 = (c', r) -> scope_ok (composition_names c').
Proof.
  intros T K S H. pose proof (create_effect _ _ _ _ _ _ _ H) as E. destruct r as [k|]; [|now subst]. destruct E as [-> F].
  apply create_sound in H; [|assumption]. destruct H as (p1 & o1 & p2 & o2 & P1 & P2 & J).
  pose proof (port_of_names _ _ _ _ T K P1) as [A1 N1]. pose proof (port_of_names _ _ _ _ T K P2) as [A2 N2].
  apply add_connector_scope; auto. destruct J as [J|[J|(-> & -> & ->)]].
  - exact (joins_valid self p1 o1 p2 o2 k A1 N1 A2 N2 J).
  - exact (joins_valid self p2 o2 p1 o1 k A2 N2 A1 N1 J).
  - now apply valid_under.
Qed.

(** ** Concrete cases *)
Definition pport (n : string) := PortPrototypeElement_P (mkProvidePortPrototype (named n) [] None).
Definition rport (n : string) := PortPrototypeElement_R (mkRequirePortPrototype (named n) [] None None).
Definition prport (n : string) := PortPrototypeElement_PR (mkPRPortPrototype (named n) None [] []).
Definition type_named (n : string) := Some (mkRef (path_string ["Types"; "Deep"; n]) IdentifiableSubTypes_APPLICATION_SW_COMPONENT_TYPE).
Definition ex_composition : CompositionSwComponentType :=
  mkCompositionSwComponentType (named "Comp") [pport "Out"; rport "In"]
    [mkSwComponentPrototype (named "A") (type_named "Sender"); mkSwComponentPrototype (named "B") (type_named "Receiver")] [].
Definition ex_app (n : string) (ps : list PortPrototypeElement) := AR_ApplicationSoftwareComponentType (mkApplicationSoftwareComponentType (named n) ps None None).
Definition ex_deep : package := mkPackage (named "Deep") [ex_app "Sender" [pport "P"; rport "Q"; prport "X"]; ex_app "Receiver" [rport "P"; pport "Q"]] [].
Definition ex_ws : list package :=
  [mkPackage (named "Top") [AR_CompositionSwComponentType ex_composition] [];
   mkPackage (named "Types") [] [ex_deep]].

Lemma ex_ws_ok : tree_ok ex_ws.
Proof. apply tree_okb_ok. reflexivity. Qed.
Lemma ex_composition_ok : scope_ok (composition_names ex_composition).
Proof. apply scope_okb_ok. reflexivity. Qed.
Definition create (t1 t2 : string) := snd (create_connector ex_ws (Some "/Top/Comp") ex_composition t1 t2).
(** The hypotheses of the theorems hold in this workspace. *)
Example C33_example_place : at_path ex_ws ["Top"; "Comp"] (FElement (AR_CompositionSwComponentType ex_composition)).
Proof. apply (at_inside ex_ws (mkPackage (named "Top") [AR_CompositionSwComponentType ex_composition] [])); [left; reflexivity|]. apply (in_element _ _ _ (AR_CompositionSwComponentType ex_composition)). left. reflexivity. Qed.
Example C33_example_means : means ex_ws ex_composition "A/P" (pport "P") (Some (mkSwComponentPrototype (named "A") (type_named "Sender"), ["Types"; "Deep"; "Sender"])).
Proof.
  apply (means_inner ex_ws ex_composition (mkSwComponentPrototype (named "A") (type_named "Sender")) (pport "P") ["Types"; "Deep"; "Sender"]
           (ex_app "Sender" [pport "P"; rport "Q"; prport "X"])); [left; reflexivity| |exact Logic.I|left; reflexivity].
  eexists. split; [reflexivity|]. split; [reflexivity|]. apply (at_inside ex_ws (mkPackage (named "Types") [] [ex_deep])); [right; left; reflexivity|].
  apply (in_deeper _ _ _ ex_deep); [left; reflexivity|].
  apply (in_element _ _ _ (ex_app "Sender" [pport "P"; rport "Q"; prport "X"])). left. reflexivity.
Qed.
Example C33_example_assembly : create "A/P" "B/P" = create "B/P" "A/P" /\
  create "A/P" "B/P" = Ok (SwConnectorElement_Assembly (mkAssemblySwConnector (named "A_P_B_P")
    (Some (mkPortInCompositionTypeInstanceRef (Some (mkRef "/Top/Comp/A" IdentifiableSubTypes_SW_COMPONENT_PROTOTYPE))
                                              (Some (mkRef "/Types/Deep/Sender/P" IdentifiableSubTypes_P_PORT_PROTOTYPE))))
    (Some (mkPortInCompositionTypeInstanceRef (Some (mkRef "/Top/Comp/B" IdentifiableSubTypes_SW_COMPONENT_PROTOTYPE))
                                              (Some (mkRef "/Types/Deep/Receiver/P" IdentifiableSubTypes_R_PORT_PROTOTYPE)))))).
Proof. split; reflexivity. Qed.
Example C33_example_others : create "A/P" "B/Q" = Err ValueError /\ create "A/X" "B/P" = Err ValueError /\ create "C/P" "B/Q" = Err AttributeError /\
  create "A/P/x" "B/Q" = Err ValueError /\ create "" "B/Q" = Err IndexError /\ create "A/P" "Out" = create "Out" "A/P".
Proof. repeat split; reflexivity. Qed.
Example C43_example : tree_find ex_ws "/Types/Deep/Receiver/Q" = Ok (Some ("/Types/Deep/Receiver/Q", FPort (pport "Q"))) /\
  tree_find ex_ws "/Top/Comp/A" = Ok (Some ("/Top/Comp/A", FComponent (mkSwComponentPrototype (named "A") (type_named "Sender")))).
Proof. split; reflexivity. Qed.

(** ** What does not hold *)
(** A pass-through connector takes its provided port from the first text, whatever kind of port it
    names: with the require-port first, the two sides are exchanged, and two require-ports are
    joined as well. *)
Theorem C33_pass_through_refuted : exists ws self c t1 t2 k,
  tree_ok ws /\ scope_ok (composition_names c) /\ at_path ws self (FElement (AR_CompositionSwComponentType c)) /\
  snd (create_connector ws (Some (path_string self)) c t1 t2) = Ok (SwConnectorElement_PassThrough k) /\
  option_map rf_dest (PassThroughSwConnector_provide_port k) = Some IdentifiableSubTypes_R_PORT_PROTOTYPE /\
  option_map rf_dest (PassThroughSwConnector_require_port k) = Some IdentifiableSubTypes_P_PORT_PROTOTYPE.
Proof.
  exists ex_ws, ["Top"; "Comp"], ex_composition, "In", "Out",
    (mkPassThroughSwConnector (named "In_Out") (Some (mkRef "/Top/Comp/In" IdentifiableSubTypes_R_PORT_PROTOTYPE)) (Some (mkRef "/Top/Comp/Out" IdentifiableSubTypes_P_PORT_PROTOTYPE))).
  split; [exact ex_ws_ok|]. split; [exact ex_composition_ok|]. split; [exact C33_example_place|]. repeat split.
Qed.
(** A delegation connector joins a provide-port of a component with a require-port of the
    composition. *)
Theorem C33_delegation_refuted : exists ws self c t1 t2 k i,
  tree_ok ws /\ scope_ok (composition_names c) /\ at_path ws self (FElement (AR_CompositionSwComponentType c)) /\
  snd (create_connector ws (Some (path_string self)) c t1 t2) = Ok (SwConnectorElement_Delegation k) /\
  DelegationSwConnector_inner_port k = Some i /\
  option_map rf_dest (PortInCompositionTypeInstanceRef_port_ref i) = Some IdentifiableSubTypes_P_PORT_PROTOTYPE /\
  option_map rf_dest (DelegationSwConnector_outer_port k) = Some IdentifiableSubTypes_R_PORT_PROTOTYPE.
Proof.
  exists ex_ws, ["Top"; "Comp"], ex_composition, "A/P", "In".
  exists (mkDelegationSwConnector (named "In_A_P") (Some (mkPortInCompositionTypeInstanceRef (Some (mkRef "/Top/Comp/A" IdentifiableSubTypes_SW_COMPONENT_PROTOTYPE))
                                              (Some (mkRef "/Types/Deep/Sender/P" IdentifiableSubTypes_P_PORT_PROTOTYPE)))) (Some (mkRef "/Top/Comp/In" IdentifiableSubTypes_R_PORT_PROTOTYPE))),
   (mkPortInCompositionTypeInstanceRef (Some (mkRef "/Top/Comp/A" IdentifiableSubTypes_SW_COMPONENT_PROTOTYPE))
                                              (Some (mkRef "/Types/Deep/Sender/P" IdentifiableSubTypes_P_PORT_PROTOTYPE))).
  split; [exact ex_ws_ok|]. split; [exact ex_composition_ok|]. split; [exact C33_example_place|]. repeat split.
Qed.
(** Names after the name of a port are ignored: a path at which nothing stands finds a port. *)
Theorem C43_trailing_names_refuted : exists ws ns path f, tree_ok ws /\ Forall valid_name ns /\ tree_find ws (path_string ns) = Ok (Some (path, f)) /\
  path <> path_string ns.
Proof.
  exists ex_ws, ["Types"; "Deep"; "Sender"; "P"; "more"], "/Types/Deep/Sender/P", (FPort (pport "P")).
  split; [exact ex_ws_ok|]. split; [apply scope_okb_ok; reflexivity|]. split; [reflexivity|discriminate].
Qed.

Print Assumptions C33_one_connector.
Print Assumptions C33_normalized.
Print Assumptions C33_rejects.
Print Assumptions C33_only_joins_partial.
Print Assumptions C33_references.
Print Assumptions C33_names_stay_unique.
Print Assumptions C33_pass_through_refuted.
Print Assumptions C33_delegation_refuted.
Print Assumptions C43_finds.
Print Assumptions C43_found_stands.
Print Assumptions C43_unambiguous.
Print Assumptions C43_nothing_else.
Print Assumptions C43_trailing_names_refuted.
