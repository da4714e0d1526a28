(** Proofs that readers do not see the order of properties: MElem4.v, MElemE.v, MElem5.v, MElemF.v. *)
From Verif Require Import Base PBase MNames MNum MXml MEnum MRefTab MRef MCodec MElem0 MElem1 MElemA MElemB PElemB MElemC MElem2 MElemD PElemD MElem3 MElem4 MElemE MElem5 MElemF SOrder POrder POrder1 POrder2 POrder3.
Open Scope list_scope.

(** Readers of MElem4.v *)
Lemma o_read_provided_com_spec v : respects (read_provided_com_spec v).
Proof.
  intros x y H. unfold read_provided_com_spec. cbv zeta. rewrite <- (alike_tag x y H). repeat (match goal with |- (if ?b then _ else _) = _ => destruct b end;
  [apply bind_alike; [apply (fun R : respects _ => R x y H); auto with order nocore|reflexivity]|]). reflexivity.
Qed.
#[export] Hint Resolve o_read_provided_com_spec : order.
Lemma o_read_required_com_spec v : respects (read_required_com_spec v).
Proof.
  intros x y H. unfold read_required_com_spec. cbv zeta. rewrite <- (alike_tag x y H). repeat (match goal with |- (if ?b then _ else _) = _ => destruct b end;
  [apply bind_alike; [apply (fun R : respects _ => R x y H); auto with order nocore|reflexivity]|]). reflexivity.
Qed.
#[export] Hint Resolve o_read_required_com_spec : order.
Lemma o_read_provide_port_prototype_group v : kids_respect (read_provide_port_prototype_group v).
Proof. kids read_provide_port_prototype_group. Qed.
#[export] Hint Resolve o_read_provide_port_prototype_group : order.
Lemma o_read_provide_port_prototype v : respects (read_provide_port_prototype v).
Proof. properties read_provide_port_prototype. Qed.
#[export] Hint Resolve o_read_provide_port_prototype : order.
Lemma o_read_required_port_prototype_group v : kids_respect (read_required_port_prototype_group v).
Proof. kids read_required_port_prototype_group. Qed.
#[export] Hint Resolve o_read_required_port_prototype_group : order.
Lemma o_read_require_port_prototype v : respects (read_require_port_prototype v).
Proof. properties read_require_port_prototype. Qed.
#[export] Hint Resolve o_read_require_port_prototype : order.
(** Readers of MElemE.v *)
Lemma o_check_provided : kids_respect check_provided.
Proof. intros k l K. unfold check_provided. now rewrite !(fun t T => present_alike k l K t T) by reflexivity. Qed.
#[export] Hint Resolve o_check_provided : order.
Lemma o_read_pr_port_prototype v : respects (read_pr_port_prototype v).
Proof. properties read_pr_port_prototype. Qed.
#[export] Hint Resolve o_read_pr_port_prototype : order.
Lemma o_select_port_prototype v t f : select_port_prototype v t = Some f -> respects_at t f.
Proof.
  unfold select_port_prototype. intros E x y H _. repeat (match type of E with (if ?b then _ else _) = _ => destruct b end;
  [injection E as <-; cbv beta; apply bind_alike; [apply (fun R : respects _ => R x y H); auto with order nocore|reflexivity]|]). discriminate.
Qed.
#[export] Hint Resolve o_select_port_prototype : order.
Lemma o_read_sw_component_type v : kids_respect (read_sw_component_type v).
Proof. kids read_sw_component_type. Qed.
#[export] Hint Resolve o_read_sw_component_type : order.
Lemma o_read_sw_component_prototype v : respects (read_sw_component_prototype v).
Proof. properties read_sw_component_prototype. Qed.
#[export] Hint Resolve o_read_sw_component_prototype : order.
Lemma o_read_composition_sw_component_type v : respects (read_composition_sw_component_type v).
Proof. properties read_composition_sw_component_type. Qed.
#[export] Hint Resolve o_read_composition_sw_component_type : order.
Lemma o_read_mode_irefs v : respects (read_mode_irefs v).
Proof. intros x y H. unfold read_mode_irefs. apply bind_alike; [|reflexivity]. apply mapM_findall_alike; [reflexivity|now apply alike_kids|solve_at]. Qed.
#[export] Hint Resolve o_read_mode_irefs : order.
Lemma o_read_swc_mode_switch_event_group v : kids_respect (read_swc_mode_switch_event_group v).
Proof. kids read_swc_mode_switch_event_group. Qed.
#[export] Hint Resolve o_read_swc_mode_switch_event_group : order.
Lemma o_read_swc_mode_switch_event v : respects (read_swc_mode_switch_event v).
Proof. properties read_swc_mode_switch_event. Qed.
#[export] Hint Resolve o_read_swc_mode_switch_event : order.
Lemma o_select_server_call_point v t f : select_server_call_point v t = Some f -> respects_at t f.
Proof.
  unfold select_server_call_point. intros E x y H _. repeat (match type of E with (if ?b then _ else _) = _ => destruct b end;
  [injection E as <-; cbv beta; apply bind_alike; [apply (fun R : respects _ => R x y H); auto with order nocore|reflexivity]|]). discriminate.
Qed.
#[export] Hint Resolve o_select_server_call_point : order.
Lemma o_read_exclusive_areas v a b c : among known_tags a = true -> among known_tags b = true -> among text_tags b = true -> among known_tags c = true -> kids_respect (read_exclusive_areas v a b c).
Proof.
  intros A B T C k l K. unfold read_exclusive_areas. destruct (v <? 50)%N.
  - apply bind_alike; [|reflexivity]. apply (children_alike _ _ K); [exact A|exact B|now apply read_ref_at].
  - apply (children_alike _ _ K); [exact C|reflexivity|solve_at].
Qed.
#[export] Hint Extern 1 (kids_respect (read_exclusive_areas _ _ _ _)) => apply o_read_exclusive_areas; reflexivity : order.
Lemma o_read_runnable_entity v : respects (read_runnable_entity v).
Proof. properties read_runnable_entity. Qed.
#[export] Hint Resolve o_read_runnable_entity : order.
(** Readers of MElem5.v *)
Lemma o_read_rte_event_element v : respects (read_rte_event_element v).
Proof.
  intros x y H. unfold read_rte_event_element. cbv zeta. rewrite <- (alike_tag x y H). repeat (match goal with |- (if ?b then _ else _) = _ => destruct b end;
  [apply bind_alike; [apply (fun R : respects _ => R x y H); auto with order nocore|reflexivity]|]). reflexivity.
Qed.
#[export] Hint Resolve o_read_rte_event_element : order.
(** Readers of MElemF.v *)
Lemma o_read_mode_declaration_group v : respects (read_mode_declaration_group v).
Proof. properties read_mode_declaration_group. Qed.
#[export] Hint Resolve o_read_mode_declaration_group : order.
Lemma o_read_internal_behavior_group v : kids_respect (read_internal_behavior_group v).
Proof. kids read_internal_behavior_group. Qed.
#[export] Hint Resolve o_read_internal_behavior_group : order.
Lemma o_read_swc_internal_behavior_group v : kids_respect (read_swc_internal_behavior_group v).
Proof. kids read_swc_internal_behavior_group. Qed.
#[export] Hint Resolve o_read_swc_internal_behavior_group : order.
Lemma o_read_swc_internal_behavior v : respects (read_swc_internal_behavior v).
Proof. properties read_swc_internal_behavior. Qed.
#[export] Hint Resolve o_read_swc_internal_behavior : order.
Lemma o_read_atomic_sw_component_type v : kids_respect (read_atomic_sw_component_type v).
Proof. kids read_atomic_sw_component_type. Qed.
#[export] Hint Resolve o_read_atomic_sw_component_type : order.
Lemma o_read_application_sw_component_type v : respects (read_application_sw_component_type v).
Proof. properties read_application_sw_component_type. Qed.
#[export] Hint Resolve o_read_application_sw_component_type : order.
