(** Ports, compositions, mode switch events and runnables: round trips. *)
From Verif Require Import Base PBase MNames PNames MNum SNum PNum PNum3 MXml SXml PXml PXml2 MEnum PEnum MRefTab MRef SEnum PRef MCodec SCodec PCodec PPiece PIdent MElem0 PElem0 PElemRef MElem1 MElemA MElemB MElemC MElem2 MElemD MElem3 MElem4 MElemE SElem1 SElemA SElemB SElemC SElem2 SElemD SElem3 SElem4 SElemE PElem1 PElemA PElemB PElemC PElem2 PElemD PElem3 PElem4.
Open Scope list_scope.

(** ** PRPortPrototype *)
Lemma present_none tag k : findall tag k = [] -> present tag k = false.
Proof. intros F. unfold present. now rewrite get_findall, F. Qed.
Lemma present_any {A} tag k (rd : xml -> result A) a l : children_any tag k rd = Ok (a :: l) -> present tag k = true.
Proof. unfold children_any, present. now destruct (get tag k). Qed.

Lemma rt_PRPortPrototype v e : good_PRPortPrototype e ->
  carries "PR-PORT-PROTOTYPE" (write_pr_port_prototype v e) (read_pr_port_prototype v) (norm_PRPortPrototype e).
Proof.
  intros (Gi & G1 & G2 & G3 & G4). unfold write_pr_port_prototype, norm_PRPortPrototype.
  destruct (PRPortPrototype_provided_com_spec e) as [|p ps] eqn:Ep.
  - eapply e_node2; [|reflexivity|exact attrs_ok_nil|].
    { eapply p_ident; [exact (ident_of _ Gi)| |].
      { eapply piece_cons; [exact (p_off_list [] _ eq_refl)| |].
        eapply piece_cons; [exact (p_children_any "REQUIRED-COM-SPECS" _ _ _ norm_RequirePortComSpec eq_refl (fun a I => rt_RequirePortComSpec v a (all_in _ _ a G3 I)))| |].
        eapply piece_cat1. exact (p_child_id "PROVIDED-REQUIRED-INTERFACE-TREF" _ _ _ (fun a E => k_PortInterfaceRef v "PROVIDED-REQUIRED-INTERFACE-TREF" a eq_refl (opt_in _ _ a G1 E))).
        all: reflexivity. }
      reflexivity. }
    intros t k ktl H N. cbv beta in H. unand H. unfold read_pr_port_prototype. cbn [x_attrs x_kids].
    match goal with H : ident_read _ k |- _ => rewrite (H _ (no_uuid _ Gi)); clear H end. cbn [bind].
    rewrite (children_any_none "PROVIDED-COM-SPECS" k _ (N "PROVIDED-COM-SPECS" eq_refl)). cbn [bind].
    use_facts. rewrite new_ident by exact (ident_of _ Gi). cbn [bind].
    unfold check_provided. rewrite (present_none _ _ (N "PROVIDED-COM-SPECS" eq_refl)). reflexivity.
  - destruct G4 as [|G4]; [discriminate|].
    eapply e_node2; [|reflexivity|exact attrs_ok_nil|].
    { eapply p_ident; [exact (ident_of _ Gi)| |].
      { eapply piece_cons; [exact (p_children_any "PROVIDED-COM-SPECS" _ _ _ norm_ProvidePortComSpec eq_refl (fun a I => rt_ProvidePortComSpec v a (all_in _ _ a G2 I)))| |].
        eapply piece_cons; [exact (p_children_any "REQUIRED-COM-SPECS" _ _ _ norm_RequirePortComSpec eq_refl (fun a I => rt_RequirePortComSpec v a (all_in _ _ a G3 I)))| |].
        eapply piece_cat1. exact (p_child_id "PROVIDED-REQUIRED-INTERFACE-TREF" _ _ _ (fun a E => k_PortInterfaceRef v "PROVIDED-REQUIRED-INTERFACE-TREF" a eq_refl (opt_in _ _ a G1 E))).
        all: reflexivity. }
      reflexivity. }
    intros t k ktl H N. cbv beta in H. unand H. unfold read_pr_port_prototype. cbn [x_attrs x_kids].
    match goal with H : ident_read _ k |- _ => rewrite (H _ (no_uuid _ Gi)); clear H end. cbn [bind].
    assert (C : check_provided k = Ok tt).
    { unfold check_provided. destruct (PRPortPrototype_required_com_spec e) as [|r rs]; [easy|].
      erewrite (present_any "REQUIRED-COM-SPECS") by eassumption. now rewrite andb_false_r. }
    use_facts. rewrite new_ident by exact (ident_of _ Gi). cbn [bind]. now use_facts.
Qed.

Lemma rs_PortPrototypeElement v p : good_PortPrototypeElement p ->
  exists tag rd, select_port_prototype v tag = Some rd /\ carries tag (write_port_prototype v p) rd (norm_PortPrototypeElement p).
Proof.
  destruct p as [e|e|e]; cbn [good_PortPrototypeElement write_port_prototype norm_PortPrototypeElement]; intros G.
  - exists "P-PORT-PROTOTYPE". eexists. split; [reflexivity|].
    eapply carries_as; [exact (rt_ProvidePortPrototype v e G)|]. intros x T R. now rewrite R.
  - exists "R-PORT-PROTOTYPE". eexists. split; [reflexivity|].
    eapply carries_as; [exact (rt_RequirePortPrototype v e G)|]. intros x T R. now rewrite R.
  - exists "PR-PORT-PROTOTYPE". eexists. split; [reflexivity|].
    eapply carries_as; [exact (rt_PRPortPrototype v e G)|]. intros x T R. now rewrite R.
Qed.

(** ** Compositions *)
Lemma rt_SwComponentPrototype v e : good_SwComponentPrototype e ->
  carries "SW-COMPONENT-PROTOTYPE" (write_sw_component_prototype v e) (read_sw_component_prototype v) e.
Proof.
  intros (Gi & G1). unfold write_sw_component_prototype.
  eapply e_node2; [|reflexivity|exact attrs_ok_nil|].
  { eapply p_ident; [exact (ident_of _ Gi)| |].
    { eapply piece_cat1. exact (p_child_id "TYPE-TREF" _ _ _ (fun a E => k_SwComponentTypeRef v "TYPE-TREF" a eq_refl (opt_in _ _ a G1 E))). }
    reflexivity. }
  intros t k ktl H N. cbv beta in H. unand H. unfold read_sw_component_prototype, read_sw_component_type. cbn [x_attrs x_kids].
  match goal with H : ident_read _ k |- _ => rewrite (H _ (no_uuid _ Gi)); clear H end. cbn [bind].
  rewrite (children_sel_none "PORTS" k _ (N "PORTS" eq_refl)). cbn [bind]. use_facts.
  rewrite unexpected_none by (repeat constructor; apply N; reflexivity). cbn [bind].
  rewrite new_ident by exact (ident_of _ Gi). now destruct e.
Qed.
Lemma p_ports v l : all_ok good_PortPrototypeElement l ->
  piece ["PORTS"] (write_sw_component_type v l) (fun k => read_sw_component_type v k = Ok (map norm_PortPrototypeElement l)).
Proof.
  intros G. exact (p_children_sel "PORTS" _ _ _ norm_PortPrototypeElement eq_refl (fun a I => rs_PortPrototypeElement v a (all_in _ _ a G I))).
Qed.
Lemma rt_CompositionSwComponentType v e : good_CompositionSwComponentType e ->
  carries "COMPOSITION-SW-COMPONENT-TYPE" (write_composition_sw_component_type v e) (read_composition_sw_component_type v) (norm_CompositionSwComponentType e).
Proof.
  intros (Gi & G1 & G2 & G3). unfold write_composition_sw_component_type.
  eapply e_node; [|reflexivity|exact attrs_ok_nil|].
  { eapply p_ident; [exact (ident_of _ Gi)| |].
    { eapply piece_cons; [exact (p_ports v _ G1)| |].
      eapply piece_cons; [exact (p_children_any_id "COMPONENTS" _ _ _ eq_refl (fun a I => ex_intro (fun tag => carries tag _ _ a) "SW-COMPONENT-PROTOTYPE" (rt_SwComponentPrototype v a (all_in _ _ a G2 I))))| |].
      eapply piece_cat1. exact (p_children_sel_id "CONNECTORS" _ _ _ eq_refl (fun a I => rs_SwConnectorElement v a (all_in _ _ a G3 I))).
      all: reflexivity. }
    reflexivity. }
  intros t k ktl H. cbv beta in H. unand H. unfold read_composition_sw_component_type. cbn [x_attrs x_kids].
  match goal with H : ident_read _ k |- _ => rewrite (H _ (no_uuid _ Gi)); clear H end. cbn [bind]. use_facts.
  rewrite new_ident by exact (ident_of _ Gi). reflexivity.
Qed.

(** ** SwcModeSwitchEvent *)
Lemma rt_switch_mode v m :
  match m with
  | OneMode a => good_RModeInAtomicSwcInstanceRef a
  | TwoModes a b => good_RModeInAtomicSwcInstanceRef a /\ good_RModeInAtomicSwcInstanceRef b
  end ->
  carries "MODE-IREFS" (node "MODE-IREFS" [] (for_each (switch_modes m) (write_r_mode_in_atomic_swc_instance_ref v "MODE-IREF")))
    (read_mode_irefs v) (Some m).
Proof.
  intros G. eapply carries_as.
  - apply (c_list "MODE-IREFS" "MODE-IREF" (switch_modes m) _ (read_r_mode_in_atomic_swc_instance_ref v) (fun a => a) eq_refl).
    intros a I. apply rt_RModeInAtomicSwcInstanceRef; [reflexivity|].
    destruct m as [x|x y]; cbn in I; [destruct I as [->|[]]; exact G|destruct G as [G1 G2], I as [->|[->|[]]]; assumption].
  - intros x T R. unfold read_mode_irefs. rewrite R. rewrite map_id. cbn [bind]. now destruct m.
Qed.
Lemma rt_SwcModeSwitchEvent v e : good_SwcModeSwitchEvent e ->
  carries "SWC-MODE-SWITCH-EVENT" (write_swc_mode_switch_event v e) (read_swc_mode_switch_event v) e.
Proof.
  intros (Gi & G1 & G2 & G3). unfold write_swc_mode_switch_event, write_rte_event_group, write_swc_mode_switch_event_group.
  eapply e_node; [|reflexivity|exact attrs_ok_nil|].
  { eapply p_ident; [exact (ident_of _ Gi)| |].
    { eapply piece_cons.
      { eapply piece_cons; [exact (p_children_id "DISABLED-MODE-IREFS" "DISABLED-MODE-IREF" _ _ _  eq_refl (fun a I => rt_RModeInAtomicSwcInstanceRef v "DISABLED-MODE-IREF" a eq_refl (all_in _ _ a G1 I)))| |].
        eapply piece_cat1. exact (p_child_id "START-ON-EVENT-REF" _ _ _ (fun a E => k_RunnableEntityRef v "START-ON-EVENT-REF" a eq_refl (opt_in _ _ a G2 E))).
        reflexivity. }
      { eapply piece_cat1. eapply piece_cons; [exact (p_child_id "ACTIVATION" _ _ _ (fun a E => c_enum em_ModeActivationKind "ACTIVATION" a ok_ModeActivationKind eq_refl))| |].
        eapply piece_cat1. exact (p_child "MODE-IREFS" _ _ (read_mode_irefs v) Some (fun a E => rt_switch_mode v a (opt_in _ _ a G3 E))).
        reflexivity. }
      reflexivity. }
    reflexivity. }
  intros t k ktl H. cbv beta in H. unand H. unfold read_swc_mode_switch_event, read_rte_event_group, read_swc_mode_switch_event_group. cbn [x_attrs x_kids].
  match goal with H : ident_read _ k |- _ => rewrite (H _ (no_uuid _ Gi)); clear H end. cbn [bind]. use_facts.
  rewrite new_ident by exact (ident_of _ Gi). destruct e as [i d s a [m|]]; reflexivity.
Qed.

(** ** RunnableEntity *)
Lemma mapM_then {A B C} (f : A -> result B) (g : B -> C) l :
  mapM (fun x => let* y := f x in Ok (g y)) l = let* r := mapM f l in Ok (map g r).
Proof.
  induction l as [|a l IH]; cbn [mapM]; auto. destruct (f a); cbn [bind]; auto. rewrite IH. now destruct (mapM f l).
Qed.
Lemma p_areas v oc ot c l : name_okb oc = true -> name_okb ot = true -> name_okb c = true -> good_areas v l ->
  piece [oc; c] (write_exclusive_areas v oc ot c l) (fun k => read_exclusive_areas v oc ot c k = Ok l).
Proof.
  intros N1 N2 N3 [G A]. unfold write_exclusive_areas, read_exclusive_areas. destruct (N.ltb_spec v 50) as [L|L].
  - specialize (A L). apply (piece_more [oc]); [|intros x [->|[]]; now left].
    eapply piece_imp; [apply (p_children_id oc ot l _ (fun x => let* r := read_ref rc_ExclusiveAreaRef v x in Ok (mkExclusiveAreaRefConditional (Some r))) N1)|].
    + intros a I. pose proof (all_in _ _ a G I) as Ga. pose proof (all_in _ _ a A I) as Aa. unfold good_ExclusiveAreaRefConditional in Ga.
      destruct a as [[r|]]; cbn in *; [|easy]. eapply carries_as; [exact (k_ExclusiveAreaRef v ot r N2 Ga)|]. intros x T R. now rewrite R.
    + intros k R. cbv beta in *. unfold children in *. destruct (get oc k) as [x|]; [|now inversion R].
      now rewrite mapM_then in R.
  - apply (piece_more [c]); [|intros x [->|[]]; right; now left].
    exact (p_children_id c "EXCLUSIVE-AREA-REF-CONDITIONAL" _ _ _ N3 (fun a I => rt_ExclusiveAreaRefConditional v a (all_in _ _ a G I))).
Qed.
Lemma p_accesses v c l : name_okb c = true -> all_ok good_VariableAccess l ->
  piece [c] (write_accesses v c l) (fun k => children c "VARIABLE-ACCESS" k (read_variable_access v) = Ok l).
Proof. intros N G. exact (p_children_id c "VARIABLE-ACCESS" _ _ _ N (fun a I => rt_VariableAccess v "VARIABLE-ACCESS" a eq_refl (all_in _ _ a G I))). Qed.
Lemma rs_ServerCallPointElement v p : good_ServerCallPointElement p ->
  exists tag rd, select_server_call_point v tag = Some rd /\ carries tag (write_server_call_point v p) rd p.
Proof.
  destruct p as [e|e]; cbn [good_ServerCallPointElement write_server_call_point]; intros G.
  - exists "ASYNCHRONOUS-SERVER-CALL-POINT". eexists. split; [reflexivity|].
    eapply carries_as; [exact (rt_AsynchronousServerCallPoint v e G)|]. intros x T R. now rewrite R.
  - exists "SYNCHRONOUS-SERVER-CALL-POINT". eexists. split; [reflexivity|].
    eapply carries_as; [exact (rt_SynchronousServerCallPoint v e G)|]. intros x T R. now rewrite R.
Qed.
(** Appending elements with different names one by one keeps them *)
Lemma append_new {A} (name_of : A -> string) rename l x : (forall a, rename (name_of a) a = a) -> ~ In (name_of x) (map name_of l) -> append_named name_of rename l x = l ++ [x].
Proof.
  intros R H. unfold append_named. destruct (make_unique (map name_of l) (name_of x)) as [names r] eqn:E. cbn [fst].
  destruct (make_unique_effect _ _ _ _ E) as [[_ ->]|(a & b & Q & _ & _)]; [|exfalso; apply H; rewrite Q, in_app_iff; right; now left]. clear E.
  f_equal. clear H. induction l as [|a l IH]; cbn; [reflexivity|]. now rewrite R, IH.
Qed.
Lemma append_each_distinct {A} (name_of : A -> string) rename l : (forall a, rename (name_of a) a = a) -> NoDup (map name_of l) -> append_each name_of rename l = l.
Proof.
  unfold append_each. intros R N. enough (H : forall l0, NoDup (map name_of (l0 ++ l)) -> fold_left (append_named name_of rename) l l0 = l0 ++ l) by exact (H [] N).
  clear N. induction l as [|x l IH]; intros l0 N; cbn [fold_left]; [now rewrite app_nil_r|]. rewrite append_new.
  - rewrite IH; rewrite <- app_assoc; [reflexivity|exact N].
  - exact R.
  - rewrite map_app in N. apply NoDup_remove in N as [_ N]. rewrite in_app_iff in N. tauto.
Qed.
Lemma rt_RunnableEntity v e : good_RunnableEntity v e ->
  carries "RUNNABLE-ENTITY" (write_runnable_entity v e) (read_runnable_entity v) (norm_RunnableEntity e).
Proof.
  intros (Gi & G1 & G2 & G3 & G4 & G5 & G6 & G7 & G8 & G9 & G10 & G11 & G12 & G13 & G14 & G15 & G16 & G17 & G18 & G19 & G20 & G21 & G22 & G23 & D).
  unfold write_runnable_entity, write_executable_entity, write_runnable_entity_group.
  eapply e_node; [|reflexivity|exact attrs_ok_nil|].
  { eapply p_ident; [exact (ident_of _ Gi)| |].
    { eapply piece_cons.
      { eapply piece_cons; [exact (p_children_id "ACTIVATION-REASONS" "EXECUTABLE-ENTITY-ACTIVATION-REASON" _ _ _ eq_refl (fun a I => rt_ExecutableEntityActivationReason v a (all_in _ _ a G1 I)))| |].
        eapply piece_cons; [exact (p_areas v "CAN-ENTER-EXCLUSIVE-AREA-REFS" "CAN-ENTER-EXCLUSIVE-AREA-REF" "CAN-ENTERS" _ eq_refl eq_refl eq_refl G2)| |].
        eapply piece_cons; [exact (p_children_id "EXCLUSIVE-AREA-NESTING-ORDER-REFS" "EXCLUSIVE-AREA-NESTING-ORDER-REF" _ _ _ eq_refl (fun a I => k_ExclusiveAreaNestingOrderRef v "EXCLUSIVE-AREA-NESTING-ORDER-REF" a eq_refl (all_in _ _ a G3 I)))| |].
        eapply piece_cons; [exact (p_child "MINIMUM-START-INTERVAL" _ _ _ reread (fun a E => c_real "MINIMUM-START-INTERVAL" a eq_refl (opt_in _ _ a G4 E)))| |].
        eapply piece_cons; [exact (p_child_id "REENTRANCY-LEVEL" _ _ _ (fun a E => c_enum em_ReentrancyLevel "REENTRANCY-LEVEL" a ok_ReentrancyLevel eq_refl))| |].
        eapply piece_cons; [exact (p_areas v "RUNS-INSIDE-EXCLUSIVE-AREA-REFS" "RUNS-INSIDE-EXCLUSIVE-AREA-REF" "RUNS-INSIDES" _ eq_refl eq_refl eq_refl G5)| |].
        eapply piece_cat1. exact (p_child_id "SW-ADDR-METHOD-REF" _ _ _ (fun a E => k_SwAddrMethodRef v "SW-ADDR-METHOD-REF" a eq_refl (opt_in _ _ a G6 E))).
        all: reflexivity. }
      { eapply piece_cat1.
        eapply piece_cons; [exact (p_children_id "ARGUMENTS" "RUNNABLE-ENTITY-ARGUMENT" _ _ _ eq_refl (fun a I => rt_RunnableEntityArgument v a (all_in _ _ a G7 I)))| |].
        eapply piece_cons; [exact (p_children_id "ASYNCHRONOUS-SERVER-CALL-RESULT-POINTS" "ASYNCHRONOUS-SERVER-CALL-RESULT-POINT" _ _ _ eq_refl (fun a I => rt_AsynchronousServerCallResultPoint v a (all_in _ _ a G8 I)))| |].
        eapply piece_cons; [exact (p_child_id "CAN-BE-INVOKED-CONCURRENTLY" _ _ _ (fun a E => c_bool "CAN-BE-INVOKED-CONCURRENTLY" a eq_refl))| |].
        eapply piece_cons; [exact (p_accesses v "DATA-READ-ACCESSS" _ eq_refl G9)| |].
        eapply piece_cons; [exact (p_accesses v "DATA-RECEIVE-POINT-BY-ARGUMENTS" _ eq_refl G10)| |].
        eapply piece_cons; [exact (p_accesses v "DATA-RECEIVE-POINT-BY-VALUES" _ eq_refl G11)| |].
        eapply piece_cons; [exact (p_accesses v "DATA-SEND-POINTS" _ eq_refl G12)| |].
        eapply piece_cons; [exact (p_accesses v "DATA-WRITE-ACCESSS" _ eq_refl G13)| |].
        eapply piece_cons; [exact (p_children_id "EXTERNAL-TRIGGERING-POINTS" "EXTERNAL-TRIGGERING-POINT" _ _ _ eq_refl (fun a I => rt_ExternalTriggeringPoint v a (all_in _ _ a G14 I)))| |].
        eapply piece_cons; [exact (p_children_id "INTERNAL-TRIGGERING-POINTS" "INTERNAL-TRIGGERING-POINT" _ _ _ eq_refl (fun a I => rt_InternalTriggeringPoint v a (all_in _ _ a G15 I)))| |].
        eapply piece_cons; [exact (p_children_id "MODE-ACCESS-POINTS" "MODE-ACCESS-POINT" _ _ _ eq_refl (fun a I => rt_ModeAccessPoint v a (all_in _ _ a G16 I)))| |].
        eapply piece_cons; [exact (p_children_id "MODE-SWITCH-POINTS" "MODE-SWITCH-POINT" _ _ _ eq_refl (fun a I => rt_ModeSwitchPoint v a (all_in _ _ a G17 I)))| |].
        eapply piece_cons; [exact (p_children "PARAMETER-ACCESSS" "PARAMETER-ACCESS" _ _ _ norm_ParameterAccess eq_refl (fun a I => rt_ParameterAccess v a (all_in _ _ a G18 I)))| |].
        eapply piece_cons; [exact (p_accesses v "READ-LOCAL-VARIABLES" _ eq_refl G19)| |].
        eapply piece_cons; [exact (p_children_sel_id "SERVER-CALL-POINTS" _ _ _ eq_refl (fun a I => rs_ServerCallPointElement v a (all_in _ _ a G20 I)))| |].
        eapply piece_cons; [exact (p_text "SYMBOL" _ eq_refl G21)| |].
        eapply piece_cons; [exact (p_children_id "WAIT-POINTS" "WAIT-POINT" _ _ _ eq_refl (fun a I => rt_WaitPoint v a (all_in _ _ a G22 I)))| |].
        eapply piece_cat1. exact (p_accesses v "WRITTEN-LOCAL-VARIABLES" _ eq_refl G23).
        all: reflexivity. }
      reflexivity. }
    reflexivity. }
  intros t k ktl H. cbv beta in H. unand H. unfold read_runnable_entity. cbn [x_attrs x_kids].
  match goal with H : ident_read _ k |- _ => rewrite (H _ (no_uuid _ Gi)); clear H end. cbn [bind]. use_facts.
  rewrite new_ident by exact (ident_of _ Gi). cbn [bind]. rewrite (as_float_opt _ G4).
  destruct D as (D1 & D2 & D3 & D4 & D5 & D6 & D7 & D8 & D9 & D10 & D11 & D12 & D13).
  unfold append_variable_accesses. rewrite !append_each_distinct; try (intros []; reflexivity); try assumption.
  all: try (intros [[] ? ?]; reflexivity).
  - reflexivity.
  - intros [[[] ? ? ?]|[[] ? ? ? ?]]; reflexivity.
  - rewrite map_map. exact D9.
Qed.
