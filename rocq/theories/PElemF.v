(** Mode declaration groups, internal behaviors and application software components: round trips. *)
From Verif Require Import Base PBase MNames MNum SNum PNum PNum3 MXml SXml PXml PXml2 MEnum PEnum MRefTab MRef SEnum PRef MCodec SCodec PCodec PPiece PIdent MElem0 PElem0 PElemRef MElem1 MElemA MElemB MElemC MElem2 MElemD MElem3 MElem4 MElemE MElem5 MElemF SElem1 SElemA SElemB SElemC SElem2 SElemD SElem3 SElem4 SElemE SElem5 SElemF PElem1 PElemA PElemB PElemC PElem2 PElemD PElem3 PElem4 PElemE PElem5.
Open Scope list_scope.

Lemma rt_ModeDeclarationGroup v e : good_ModeDeclarationGroup e ->
  carries "MODE-DECLARATION-GROUP" (write_mode_declaration_group v e) (read_mode_declaration_group v) e.
Proof.
  intros (Gi & G1 & G2 & G3 & G4 & G5 & G6). unfold write_mode_declaration_group.
  eapply e_node; [|reflexivity|exact (ident_attrs _ Gi)|].
  { eapply p_ident; [exact Gi| |].
    { eapply piece_cons; [exact (p_child_id "INITIAL-MODE-REF" _ _ _ (fun a E => k_ModeDeclarationRef v "INITIAL-MODE-REF" a eq_refl (opt_in _ _ a G1 E)))| |].
      eapply piece_cons; [exact (p_children_id "MODE-DECLARATIONS" "MODE-DECLARATION" _ _ _ eq_refl (fun a I => rt_ModeDeclaration v a (all_in _ _ a G2 I)))| |].
      eapply piece_cons; [exact (p_child_id "MODE-MANAGER-ERROR-BEHAVIOR" _ _ _ (fun a E => rt_ModeErrorBehavior v "MODE-MANAGER-ERROR-BEHAVIOR" a eq_refl (opt_in _ _ a G3 E)))| |].
      eapply piece_cons; [exact (p_children_id "MODE-TRANSITIONS" "MODE-TRANSITION" _ _ _ eq_refl (fun a I => rt_ModeTransition v a (all_in _ _ a G4 I)))| |].
      eapply piece_cons; [exact (p_child_id "MODE-USER-ERROR-BEHAVIOR" _ _ _ (fun a E => rt_ModeErrorBehavior v "MODE-USER-ERROR-BEHAVIOR" a eq_refl (opt_in _ _ a G5 E)))| |].
      eapply piece_cat1. exact (p_child_id "ON-TRANSITION-VALUE" _ _ _ (fun a E => c_positive "ON-TRANSITION-VALUE" a eq_refl (opt_in _ _ a G6 E))).
      all: reflexivity. }
    reflexivity. }
  intros t k ktl H. cbv beta in H. unand H. unfold read_mode_declaration_group. cbn [x_attrs x_kids].
  match goal with H : ident_read _ k |- _ => rewrite (H _ (with_uuid _ Gi)); clear H end. cbn [bind]. use_facts.
  rewrite new_ident by assumption. now destruct e.
Qed.

Lemma assoc_set_new {A} key (a : A) l : ~ In key (map fst l) -> assoc_set key a l = l ++ [(key, a)].
Proof.
  induction l as [|[k' a'] l IH]; cbn [map fst In assoc_set app]; intros N; auto.
  destruct (String.eqb_spec key k') as [->|D]; [tauto|]. now rewrite IH by tauto.
Qed.
Lemma options_back l acc : all_ok (fun a => option_map last_part (PortApiOption_port (snd a)) = Some (fst a)) l ->
  NoDup (map fst acc ++ map fst l) ->
  fold_left append_port_api_option (map (fun a => norm_PortApiOption (snd a)) l) acc
  = acc ++ map (fun a => (fst a, norm_PortApiOption (snd a))) l.
Proof.
  revert acc. induction l as [|[key o] l IH]; intros acc G D; cbn [map fold_left]; [now rewrite app_nil_r|].
  destruct G as [Go Gl]. cbn [fst snd map] in *.
  unfold append_port_api_option at 2. cbn [norm_PortApiOption PortApiOption_port].
  destruct (PortApiOption_port o) as [r|]; cbn [option_map] in Go; [|discriminate]. injection Go as Ek. rewrite Ek.
  assert (N : ~ In key (map fst acc)).
  { intros I. apply NoDup_remove_2 in D. apply D, in_or_app. now left. }
  rewrite assoc_set_new by exact N. rewrite IH; auto.
  - now rewrite <- app_assoc.
  - rewrite map_app. cbn [map fst]. now rewrite <- app_assoc.
Qed.

Lemma rt_SwcInternalBehavior v e : good_SwcInternalBehavior v e ->
  carries "SWC-INTERNAL-BEHAVIOR" (write_swc_internal_behavior v e) (read_swc_internal_behavior v) (norm_SwcInternalBehavior e).
Proof.
  intros (Gi & G1 & G2 & G3 & (G4 & G5 & G6) & G7). unfold write_swc_internal_behavior, write_internal_behavior_group, write_swc_internal_behavior_group.
  eapply e_node; [|reflexivity|exact attrs_ok_nil|].
  { eapply p_ident; [exact (ident_of _ Gi)| |].
    { eapply piece_cons.
      { eapply piece_cons; [exact (p_children_id "DATA-TYPE-MAPPING-REFS" "DATA-TYPE-MAPPING-REF" _ _ _ eq_refl (fun a I => k_DataTypeMappingSetRef v "DATA-TYPE-MAPPING-REF" a eq_refl (all_in _ _ a G1 I)))| |].
        eapply piece_cat1. exact (p_children_id "EXCLUSIVE-AREAS" "EXCLUSIVE-AREA" _ _ _ eq_refl (fun a I => rt_ExclusiveArea v a (all_in _ _ a G2 I))).
        all: reflexivity. }
      { eapply piece_cat1.
        eapply piece_cons; [exact (p_children_any_id "EVENTS" _ _ _ eq_refl (fun a I => rt_RteEvent v a (all_in _ _ a G3 I)))| |].
        eapply piece_cons; [exact (p_children "PORT-API-OPTIONS" "PORT-API-OPTION" _ _ _ (fun a => norm_PortApiOption (snd a)) eq_refl (fun a I => rt_PortApiOption v (snd a) (all_in _ _ a G4 I)))| |].
        eapply piece_cat1. exact (p_children "RUNNABLES" "RUNNABLE-ENTITY" _ _ _ norm_RunnableEntity eq_refl (fun a I => rt_RunnableEntity v a (all_in _ _ a G7 I))).
        all: reflexivity. }
      reflexivity. }
    reflexivity. }
  intros t k ktl H. cbv beta in H. unand H. unfold read_swc_internal_behavior, read_internal_behavior_group, read_swc_internal_behavior_group. cbn [x_attrs x_kids].
  match goal with H : ident_read _ k |- _ => rewrite (H _ (no_uuid _ Gi)); clear H end. cbn [bind]. use_facts.
  rewrite new_ident by exact (ident_of _ Gi). cbn [bind]. rewrite options_back by assumption. reflexivity.
Qed.

Lemma rt_ApplicationSoftwareComponentType v e : good_ApplicationSoftwareComponentType v e ->
  carries "APPLICATION-SW-COMPONENT-TYPE" (write_application_software_component_type v e) (read_application_sw_component_type v) (norm_ApplicationSoftwareComponentType e).
Proof.
  intros (Gi & G1 & G2 & G3). unfold write_application_software_component_type, write_atomic_sw_component_type.
  eapply e_node; [|reflexivity|exact attrs_ok_nil|].
  { eapply p_ident; [exact (ident_of _ Gi)| |].
    { eapply piece_cons; [exact (p_ports v _ G1)| |].
      eapply piece_cat1.
      eapply piece_cons; [exact (p_find "INTERNAL-BEHAVIORS" "SWC-INTERNAL-BEHAVIOR" _ _ _ norm_SwcInternalBehavior eq_refl (fun a E => rt_SwcInternalBehavior v a (opt_in _ _ a G2 E)))| |].
      eapply piece_cat1. exact (p_child_id "SYMBOL-PROPS" _ _ _ (fun a E => rt_SymbolProps v "SYMBOL-PROPS" a eq_refl (opt_in _ _ a G3 E))).
      all: reflexivity. }
    reflexivity. }
  intros t k ktl H. cbv beta in H. unand H. unfold read_application_sw_component_type, read_atomic_sw_component_type. cbn [x_attrs x_kids].
  match goal with H : ident_read _ k |- _ => rewrite (H _ (no_uuid _ Gi)); clear H end. cbn [bind]. use_facts.
  rewrite new_ident by exact (ident_of _ Gi). reflexivity.
Qed.
