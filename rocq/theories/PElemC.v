(** Instance references and connectors: round trips. *)
From Verif Require Import Base PBase MNames PNames MNum SNum PNum PNum3 PNum4 MXml SXml PXml PXml2 MEnum PEnum MRefTab MRef SEnum PRef MCodec SCodec PCodec PPiece PIdent MElem0 PElem0 PElemRef MElem1 SElem1 PElem1 MElemA SElemA PElemA MElemC SElemC.
Open Scope list_scope.

(** Repeated children without a container *)
Lemma p_repeated {A B} tag (l : list A) body (rd : xml -> result B) (f : A -> B) :
  (forall a, In a l -> carries tag (body a) rd (f a)) ->
  piece [tag] (for_each l body) (fun k => mapM rd (findall tag k) = Ok (map f l)).
Proof.
  intros H. destruct (each l body rd f (fun w => w_tag w = tag)) as (L & E & F & _ & M); [exact H|].
  rewrite E. exists L. split; [reflexivity|]. split.
  - eapply Forall_impl; [|exact F]. cbn. intros w [-> S]. split; auto.
  - intros step d kids G. rewrite (G tag (in_head _)), findall_all; auto.
Qed.
Lemma p_repeated_id {A} tag (l : list A) body (rd : xml -> result A) :
  (forall a, In a l -> carries tag (body a) rd a) ->
  piece [tag] (for_each l body) (fun k => mapM rd (findall tag k) = Ok l).
Proof. intros H. eapply piece_imp; [exact (p_repeated tag l body rd (fun a => a) H)|]. intros k E. now rewrite map_id in E. Qed.

Lemma rt_VariableInAtomicSWCTypeInstanceRef v e : good_VariableInAtomicSWCTypeInstanceRef e ->
  carries "AUTOSAR-VARIABLE-IREF" (write_variable_in_atomic_swc_type_instance_ref v e) (read_variable_in_atomic_swc_type_instance_ref v) e.
Proof.
  intros (G1 & G2 & G3 & G4). unfold write_variable_in_atomic_swc_type_instance_ref.
  destruct (VariableInAtomicSWCTypeInstanceRef_is_empty e) eqn:E.
  { unfold VariableInAtomicSWCTypeInstanceRef_is_empty in E. apply e_empty; [reflexivity|]. destruct e. cbn in E. emptied E. subst. reflexivity. }
  eapply e_node; [|reflexivity|exact attrs_ok_nil|].
  { eapply piece_cons; [exact (p_child_id "PORT-PROTOTYPE-REF" _ _ _ (fun a E => k_PortPrototypeRef v "PORT-PROTOTYPE-REF" a eq_refl (opt_in _ _ a G1 E)))| |].
    eapply piece_cons; [exact (p_child_id "ROOT-VARIABLE-DATA-PROTOTYPE-REF" _ _ _ (fun a E => k_VariableDataPrototypeRef v "ROOT-VARIABLE-DATA-PROTOTYPE-REF" a eq_refl (opt_in _ _ a G2 E)))| |].
    eapply piece_cons; [exact (p_repeated_id "CONTEXT-DATA-PROTOTYPE-REF" _ _ _ (fun a E => k_ApplicationCompositeElementDataPrototypeRef v "CONTEXT-DATA-PROTOTYPE-REF" a eq_refl (all_in _ _ a G3 E)))| |].
    eapply piece_cat1. exact (p_child_id "TARGET-DATA-PROTOTYPE-REF" _ _ _ (fun a E => k_DataPrototypeRef v "TARGET-DATA-PROTOTYPE-REF" a eq_refl (opt_in _ _ a G4 E))).
    all: reflexivity. }
  intros t k ktl H. cbv beta in H. unand H. unfold read_variable_in_atomic_swc_type_instance_ref. cbn [x_attrs x_kids]. use_facts. now destruct e.
Qed.

(** ** Ports in a composition *)
Lemma dest_in d l : In d l -> existsb (dest_eqb d) l = true.
Proof. intros I. apply existsb_exists. exists d. split; [exact I|]. now apply dest_eqb_spec. Qed.
Lemma rt_port_in_composition v tag (e : PortInCompositionTypeInstanceRef) : name_okb tag = true ->
  provider_tag tag = true /\ good_port_in_composition provide_dests e \/
  provider_tag tag = false /\ requester_tag tag = true /\ good_port_in_composition require_dests e ->
  carries tag (write_port_in_composition_type_instance_ref v tag e) (read_port_in_composition_type_instance_ref v) e.
Proof.
  intros NT H. unfold write_port_in_composition_type_instance_ref.
  destruct (PortInCompositionTypeInstanceRef_is_empty e) eqn:E.
  { unfold PortInCompositionTypeInstanceRef_is_empty in E. apply e_empty; [exact NT|]. destruct e. cbn in E. emptied E. subst.
    unfold read_port_in_composition_type_instance_ref. cbn [x_kids x_tag].
    destruct H as [[P _]|[P [R _]]]; rewrite P; [|rewrite R]; reflexivity. }
  destruct H as [[P [G1 G2]]|[P [R [G1 G2]]]].
  - eapply e_node; [|exact NT|exact attrs_ok_nil|].
    { eapply piece_cons; [exact (p_child_id "CONTEXT-COMPONENT-REF" _ _ _ (fun a E => k_SwComponentPrototypeRef v "CONTEXT-COMPONENT-REF" a eq_refl (opt_in _ _ a G1 E)))| |].
      eapply piece_cat1. eapply (p_child_id "TARGET-P-PORT-REF"). intros a E'. rewrite P.
      destruct (opt_in _ _ a G2 E') as [Gr Gd]. unfold is_provide_port_ref. fold provide_dests. rewrite (dest_in _ _ Gd).
      exact (k_PortPrototypeRef v "TARGET-P-PORT-REF" a eq_refl Gr). all: reflexivity. }
    intros t k ktl H. cbv beta in H. unand H. unfold read_port_in_composition_type_instance_ref. cbn [x_tag x_kids]. rewrite P. cbn [bind]. use_facts. now destruct e.
  - eapply e_node; [|exact NT|exact attrs_ok_nil|].
    { eapply piece_cons; [exact (p_child_id "CONTEXT-COMPONENT-REF" _ _ _ (fun a E => k_SwComponentPrototypeRef v "CONTEXT-COMPONENT-REF" a eq_refl (opt_in _ _ a G1 E)))| |].
      eapply piece_cat1. eapply (p_child_id "TARGET-R-PORT-REF"). intros a E'. rewrite P, R.
      destruct (opt_in _ _ a G2 E') as [Gr Gd]. unfold is_require_port_ref. fold require_dests. rewrite (dest_in _ _ Gd).
      exact (k_PortPrototypeRef v "TARGET-R-PORT-REF" a eq_refl Gr). all: reflexivity. }
    intros t k ktl H. cbv beta in H. unand H. unfold read_port_in_composition_type_instance_ref. cbn [x_tag x_kids]. rewrite P, R. cbn [bind]. use_facts. now destruct e.
Qed.

Lemma rt_AssemblySwConnector v e : good_AssemblySwConnector e ->
  carries "ASSEMBLY-SW-CONNECTOR" (write_assembly_sw_connector v e) (read_assembly_sw_connector v) e.
Proof.
  intros (Gi & G1 & G2). unfold write_assembly_sw_connector.
  eapply e_node; [|reflexivity|exact attrs_ok_nil|].
  { eapply p_ident; [exact (ident_of _ Gi)| |].
    { eapply piece_cons; [eapply (p_child_id "PROVIDER-IREF" _ _ _)| |].
      { intros a E. apply rt_port_in_composition; [reflexivity|]. left. split; [reflexivity|]. exact (opt_in _ _ a G1 E). }
      eapply piece_cat1. eapply (p_child_id "REQUESTER-IREF" _ _ _).
      { intros a E. apply rt_port_in_composition; [reflexivity|]. right. split; [reflexivity|]. split; [reflexivity|]. exact (opt_in _ _ a G2 E). }
      all: reflexivity. }
    reflexivity. }
  intros t k ktl H. cbv beta in H. unand H. unfold read_assembly_sw_connector. cbn [x_attrs x_kids].
  match goal with H : ident_read _ k |- _ => rewrite (H _ (no_uuid _ Gi)); clear H end. cbn [bind]. use_facts. rewrite new_ident by exact (ident_of _ Gi). now destruct e.
Qed.

Lemma rt_inner_port v (p : PortInCompositionTypeInstanceRef) :
  good_port_in_composition (provide_dests ++ require_dests) p -> PortInCompositionTypeInstanceRef_port_ref p <> None ->
  exists tag, delegation_tag p = Some tag /\
    carries "INNER-PORT-IREF" (node "INNER-PORT-IREF" [] (write_port_in_composition_type_instance_ref v tag p)) (read_inner_port v) (Some p).
Proof.
  intros [G1 G2] NN. unfold delegation_tag. destruct (PortInCompositionTypeInstanceRef_port_ref p) as [r|] eqn:E; [clear NN|congruence].
  destruct G2 as [Gr Gd]. destruct (is_provide_port_ref r) eqn:P.
  - exists "P-PORT-IN-COMPOSITION-INSTANCE-REF". split; [reflexivity|].
    destruct (rt_port_in_composition v "P-PORT-IN-COMPOSITION-INSTANCE-REF" p eq_refl) as (w & W & T & S & R).
    { left. split; [reflexivity|]. split; [exact G1|]. rewrite E. split; [exact Gr|].
      unfold is_provide_port_ref in P. apply existsb_exists in P. destruct P as (d & I & Q). apply dest_eqb_spec in Q. subst d. exact I. }
    rewrite W. apply (c_node _ _ _ _ _ [w]); auto using attrs_ok_nil. intros step d. unfold read_inner_port. cbn [element x_kids map].
    rewrite x_tag_element, T. cbn [String.eqb orb Ascii.eqb Bool.eqb]. now rewrite R.
  - assert (In (rf_dest r) require_dests) as Ir.
    { apply in_app_or in Gd. destruct Gd as [I|I]; [|exact I]. unfold is_provide_port_ref in P. fold provide_dests in P. rewrite (dest_in _ _ I) in P. discriminate. }
    assert (is_require_port_ref r = true) as -> by (unfold is_require_port_ref; fold require_dests; now apply dest_in).
    exists "R-PORT-IN-COMPOSITION-INSTANCE-REF". split; [reflexivity|].
    destruct (rt_port_in_composition v "R-PORT-IN-COMPOSITION-INSTANCE-REF" p eq_refl) as (w & W & T & S & R).
    { right. split; [reflexivity|]. split; [reflexivity|]. split; [exact G1|]. rewrite E. split; [exact Gr|exact Ir]. }
    rewrite W. apply (c_node _ _ _ _ _ [w]); auto using attrs_ok_nil. intros step d. unfold read_inner_port. cbn [element x_kids map].
    rewrite x_tag_element, T. cbn [String.eqb orb Ascii.eqb Bool.eqb]. now rewrite R.
Qed.
Lemma rt_DelegationSwConnector v e : good_DelegationSwConnector e ->
  carries "DELEGATION-SW-CONNECTOR" (write_delegation_sw_connector v e) (read_delegation_sw_connector v) e.
Proof.
  intros (Gi & G1 & G2). unfold write_delegation_sw_connector.
  eapply e_node; [|reflexivity|exact attrs_ok_nil|].
  { eapply p_ident; [exact (ident_of _ Gi)| |].
    { eapply piece_cons; [eapply (p_child "INNER-PORT-IREF" _ _ (read_inner_port v) Some)| |].
      { intros a E. destruct (opt_in _ _ a G1 E) as [A B]. destruct (rt_inner_port v a A B) as (tag & -> & C). exact C. }
      eapply piece_cat1. exact (p_child_id "OUTER-PORT-REF" _ _ _ (fun a E => k_PortPrototypeRef v "OUTER-PORT-REF" a eq_refl (opt_in _ _ a G2 E))).
      all: reflexivity. }
    reflexivity. }
  intros t k ktl H. cbv beta in H. unand H. unfold read_delegation_sw_connector. cbn [x_attrs x_kids].
  match goal with H : ident_read _ k |- _ => rewrite (H _ (no_uuid _ Gi)); clear H end. cbn [bind]. use_facts. rewrite new_ident by exact (ident_of _ Gi).
  destruct e as [i [p|] o]; reflexivity.
Qed.

(** A connector of any kind: the tag selects the reader of its class. *)
Lemma rs_SwConnectorElement v c : good_SwConnectorElement c ->
  exists tag rd, select_sw_connector_element v tag = Some rd /\ carries tag (write_sw_connector_element v c) rd c.
Proof.
  destruct c as [e|e|e]; cbn [good_SwConnectorElement write_sw_connector_element]; intros G.
  - exists "ASSEMBLY-SW-CONNECTOR". eexists. split; [reflexivity|].
    eapply carries_as; [exact (rt_AssemblySwConnector v e G)|]. intros x T R. now rewrite R.
  - exists "DELEGATION-SW-CONNECTOR". eexists. split; [reflexivity|].
    eapply carries_as; [exact (rt_DelegationSwConnector v e G)|]. intros x T R. now rewrite R.
  - exists "PASS-THROUGH-SW-CONNECTOR". eexists. split; [reflexivity|].
    eapply carries_as; [exact (rt_PassThroughSwConnector v e G)|]. intros x T R. now rewrite R.
Qed.

(** ** ModeAccessPoint *)
Lemma rt_mode_group v (g : ModeGroupInAtomicSwcInstanceRef) :
  match g with ModeGroup_P p => good_PModeGroupInAtomicSwcInstanceRef p | ModeGroup_R r => good_RModeGroupInAtomicSwcInstanceRef r end ->
  carries "MODE-GROUP-IREF" (node "MODE-GROUP-IREF" [] (write_mode_group_iref v g)) (read_mode_group_iref v) (Some g).
Proof.
  destruct g as [p|r]; intros G; cbn [write_mode_group_iref].
  - destruct (rt_PModeGroupInAtomicSwcInstanceRef v "P-MODE-GROUP-IN-ATOMIC-SWC-INSTANCE-REF" p eq_refl G) as (w & W & T & S & R).
    rewrite W. apply (c_node _ _ _ _ _ [w]); auto using attrs_ok_nil. intros step d. unfold read_mode_group_iref. cbn [element x_kids map].
    rewrite x_tag_element, T. cbn [String.eqb Ascii.eqb Bool.eqb]. now rewrite R.
  - destruct (rt_RModeGroupInAtomicSwcInstanceRef v r G) as (w & W & T & S & R).
    rewrite W. apply (c_node _ _ _ _ _ [w]); auto using attrs_ok_nil. intros step d. unfold read_mode_group_iref. cbn [element x_kids map].
    rewrite x_tag_element, T. cbn [String.eqb Ascii.eqb Bool.eqb]. now rewrite R.
Qed.
Lemma rt_ModeAccessPoint v e : good_ModeAccessPoint e ->
  carries "MODE-ACCESS-POINT" (write_mode_access_point v e) (read_mode_access_point v) e.
Proof.
  intros (G1 & G2). unfold write_mode_access_point.
  destruct (ModeAccessPoint_is_empty e) eqn:E.
  { unfold ModeAccessPoint_is_empty in E. apply e_empty; [reflexivity|]. destruct e. cbn in E. emptied E. subst. reflexivity. }
  eapply e_node; [|reflexivity|exact attrs_ok_nil|].
  { eapply piece_cons; [exact (p_child_id "IDENT" _ _ _ (fun a E => rt_ModeAccessPointIdent v a (opt_in _ _ a G1 E)))| |].
    eapply piece_cat1. exact (p_child "MODE-GROUP-IREF" _ _ (read_mode_group_iref v) Some (fun a E => rt_mode_group v a (opt_in _ _ a G2 E))).
    all: reflexivity. }
  intros t k ktl H. cbv beta in H. unand H. unfold read_mode_access_point. cbn [x_attrs x_kids]. use_facts. destruct e as [i [g|]]; reflexivity.
Qed.
