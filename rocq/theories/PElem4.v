(** Ports: round trips.
    Generated by tools/gen_codec.py from /repo/src/autosar/xml/{element,writer,reader}.py; the
    line numbers in the comments refer to these files. *)
From Verif Require Import Base PBase MNames MNum SNum PNum PNum3 MXml SXml PXml PXml2 MEnum PEnum MRefTab MRef SEnum PRef MCodec SCodec PCodec PPiece PIdent MElem0 PElem0 PElemRef MElem1 MElemA MElemB MElemC MElem2 MElemD MElem3 MElem4 SElem1 SElemA SElemB SElemC SElem2 SElemD SElem3 SElem4 PElem1 PElemA PElemB PElemC PElem2 PElemD PElem3.
Open Scope list_scope.

Lemma rt_ProvidePortComSpec v s : good_ProvidePortComSpec s -> exists tag, carries tag (write_provided_com_spec v s) (read_provided_com_spec v) (norm_ProvidePortComSpec s).
Proof.
  destruct s as [e|e|e|e|e|e]; cbn [good_ProvidePortComSpec norm_ProvidePortComSpec write_provided_com_spec]; intros G.
  - exists "MODE-SWITCH-SENDER-COM-SPEC". eapply carries_as; [exact (rt_ModeSwitchSenderComSpec v e G)|]. intros x T R. unfold read_provided_com_spec. rewrite T. cbn [String.eqb Ascii.eqb Bool.eqb]. rewrite R. reflexivity.
  - exists "QUEUED-SENDER-COM-SPEC". eapply carries_as; [exact (rt_QueuedSenderComSpec v e G)|]. intros x T R. unfold read_provided_com_spec. rewrite T. cbn [String.eqb Ascii.eqb Bool.eqb]. rewrite R. reflexivity.
  - exists "NONQUEUED-SENDER-COM-SPEC". eapply carries_as; [exact (rt_NonqueuedSenderComSpec v e G)|]. intros x T R. unfold read_provided_com_spec. rewrite T. cbn [String.eqb Ascii.eqb Bool.eqb]. rewrite R. reflexivity.
  - exists "NV-PROVIDE-COM-SPEC". eapply carries_as; [exact (rt_NvProvideComSpec v e G)|]. intros x T R. unfold read_provided_com_spec. rewrite T. cbn [String.eqb Ascii.eqb Bool.eqb]. rewrite R. reflexivity.
  - exists "PARAMETER-PROVIDE-COM-SPEC". eapply carries_as; [exact (rt_ParameterProvideComSpec v e G)|]. intros x T R. unfold read_provided_com_spec. rewrite T. cbn [String.eqb Ascii.eqb Bool.eqb]. rewrite R. reflexivity.
  - exists "SERVER-COM-SPEC". eapply carries_as; [exact (rt_ServerComSpec v e G)|]. intros x T R. unfold read_provided_com_spec. rewrite T. cbn [String.eqb Ascii.eqb Bool.eqb]. rewrite R. reflexivity.
Qed.
Lemma rt_RequirePortComSpec v s : good_RequirePortComSpec s -> exists tag, carries tag (write_required_com_spec v s) (read_required_com_spec v) (norm_RequirePortComSpec s).
Proof.
  destruct s as [e|e|e|e|e|e]; cbn [good_RequirePortComSpec norm_RequirePortComSpec write_required_com_spec]; intros G.
  - exists "QUEUED-RECEIVER-COM-SPEC". eapply carries_as; [exact (rt_QueuedReceiverComSpec v e G)|]. intros x T R. unfold read_required_com_spec. rewrite T. cbn [String.eqb Ascii.eqb Bool.eqb]. rewrite R. reflexivity.
  - exists "NONQUEUED-RECEIVER-COM-SPEC". eapply carries_as; [exact (rt_NonqueuedReceiverComSpec v e G)|]. intros x T R. unfold read_required_com_spec. rewrite T. cbn [String.eqb Ascii.eqb Bool.eqb]. rewrite R. reflexivity.
  - exists "NV-REQUIRE-COM-SPEC". eapply carries_as; [exact (rt_NvRequireComSpec v e G)|]. intros x T R. unfold read_required_com_spec. rewrite T. cbn [String.eqb Ascii.eqb Bool.eqb]. rewrite R. reflexivity.
  - exists "PARAMETER-REQUIRE-COM-SPEC". eapply carries_as; [exact (rt_ParameterRequireComSpec v e G)|]. intros x T R. unfold read_required_com_spec. rewrite T. cbn [String.eqb Ascii.eqb Bool.eqb]. rewrite R. reflexivity.
  - exists "MODE-SWITCH-RECEIVER-COM-SPEC". eapply carries_as; [exact (rt_ModeSwitchReceiverComSpec v e G)|]. intros x T R. unfold read_required_com_spec. rewrite T. cbn [String.eqb Ascii.eqb Bool.eqb]. rewrite R. reflexivity.
  - exists "CLIENT-COM-SPEC". eapply carries_as; [exact (rt_ClientComSpec v e G)|]. intros x T R. unfold read_required_com_spec. rewrite T. cbn [String.eqb Ascii.eqb Bool.eqb]. rewrite R. reflexivity.
Qed.
Lemma rt_ProvidePortPrototype v e : good_ProvidePortPrototype e -> carries "P-PORT-PROTOTYPE" (write_provide_port_prototype v e) (read_provide_port_prototype v) (norm_ProvidePortPrototype e).
Proof.
  unfold good_ProvidePortPrototype. intros (G_ident & G_com_spec & G_port_interface_ref). unfold write_provide_port_prototype.
  eapply e_node2.
  {
    eapply p_ident; [exact (ident_of _ G_ident)| |].
    {
      eapply piece_cat1.
      unfold write_provide_port_prototype_group.
      eapply piece_cons.
      {
        exact (p_children_any "PROVIDED-COM-SPECS" _ _ _ norm_ProvidePortComSpec eq_refl (fun a I => rt_ProvidePortComSpec v a (all_in _ _ a G_com_spec I))).
      }
      {
        eapply piece_cat1.
        exact (p_child_id "PROVIDED-INTERFACE-TREF" _ _ _ (fun a E => k_PortInterfaceRef v "PROVIDED-INTERFACE-TREF" a eq_refl (opt_in _ _ a G_port_interface_ref E))).
      }
      reflexivity.
    }
    reflexivity.
  }
  { exact eq_refl. }
  { apply attrs_ok_nil. }
  intros t k ktl H N. cbv beta in H. unand H.
  unfold read_provide_port_prototype, read_provide_port_prototype_group. cbn [x_attrs x_kids].
  match goal with H : ident_read _ k |- _ => rewrite (H _ (no_uuid _ G_ident)); clear H end. cbn [bind].
  use_facts.
  rewrite new_ident by (apply ident_of; assumption). cbn [bind].
  reflexivity.
Qed.
Lemma rt_RequirePortPrototype v e : good_RequirePortPrototype e -> carries "R-PORT-PROTOTYPE" (write_require_port_prototype v e) (read_require_port_prototype v) (norm_RequirePortPrototype e).
Proof.
  unfold good_RequirePortPrototype. intros (G_ident & G_com_spec & G_port_interface_ref). unfold write_require_port_prototype.
  eapply e_node2.
  {
    eapply p_ident; [exact (ident_of _ G_ident)| |].
    {
      eapply piece_cat1.
      unfold write_require_port_prototype_group.
      eapply piece_cons.
      {
        exact (p_child_id "MAY-BE-UNCONNECTED" _ _ _ (fun a E => c_bool "MAY-BE-UNCONNECTED" a eq_refl)).
      }
      {
        eapply piece_cons.
        {
          exact (p_children_any "REQUIRED-COM-SPECS" _ _ _ norm_RequirePortComSpec eq_refl (fun a I => rt_RequirePortComSpec v a (all_in _ _ a G_com_spec I))).
        }
        {
          eapply piece_cat1.
          exact (p_child_id "REQUIRED-INTERFACE-TREF" _ _ _ (fun a E => k_PortInterfaceRef v "REQUIRED-INTERFACE-TREF" a eq_refl (opt_in _ _ a G_port_interface_ref E))).
        }
        reflexivity.
      }
      reflexivity.
    }
    reflexivity.
  }
  { exact eq_refl. }
  { apply attrs_ok_nil. }
  intros t k ktl H N. cbv beta in H. unand H.
  unfold read_require_port_prototype, read_required_port_prototype_group. cbn [x_attrs x_kids].
  match goal with H : ident_read _ k |- _ => rewrite (H _ (no_uuid _ G_ident)); clear H end. cbn [bind].
  use_facts.
  rewrite new_ident by (apply ident_of; assumption). cbn [bind].
  reflexivity.
Qed.
