(** Com-specs of receivers: round trips.
    Generated by tools/gen_codec.py from /repo/src/autosar/xml/{element,writer,reader}.py; the
    line numbers in the comments refer to these files. *)
From Verif Require Import Base PBase MNames MNum SNum PNum PNum3 MXml SXml PXml PXml2 MEnum PEnum MRefTab MRef SEnum PRef MCodec SCodec PCodec PPiece PIdent MElem0 PElem0 PElemRef MElem1 MElemA MElemB MElemC MElem2 MElemD MElem3 SElem1 SElemA SElemB SElemC SElem2 SElemD SElem3 PElem1 PElemA PElemB PElemC PElem2 PElemD.
Open Scope list_scope.

Lemma rt_QueuedReceiverComSpec v e : good_QueuedReceiverComSpec e -> carries "QUEUED-RECEIVER-COM-SPEC" (write_queued_receiver_com_spec v e) (read_queued_receiver_com_spec v) (norm_QueuedReceiverComSpec e).
Proof.
  unfold good_QueuedReceiverComSpec. intros (G_data_element_ref & G_max_delta_counter_init & G_max_no_new_repeated_data & G_network_representation & G_reception_props & G_replace_with & G_sync_counter_init & G_transformation_com_spec_props & G_queue_length). unfold write_queued_receiver_com_spec.
  destruct (QueuedReceiverComSpec_is_empty e) eqn:E.
  { clear - E. unfold QueuedReceiverComSpec_is_empty in E. apply e_empty; [exact eq_refl|]. destruct e. cbn in E. emptied E. subst. reflexivity. }
  clear E.
  eapply e_node2.
  {
    eapply piece_cons.
    {
      unfold write_receiver_com_spec_group.
      eapply piece_cons.
      {
        exact (p_child_id "DATA-ELEMENT-REF" _ _ _ (fun a E => k_AutosarDataPrototypeRef v "DATA-ELEMENT-REF" a eq_refl (opt_in _ _ a G_data_element_ref E))).
      }
      {
        eapply piece_cons.
        {
          exact (p_child_id "HANDLE-OUT-OF-RANGE" _ _ _ (fun a E => c_enum em_HandleOutOfRange "HANDLE-OUT-OF-RANGE" a ok_HandleOutOfRange eq_refl)).
        }
        {
          eapply piece_cons.
          {
            exact (p_child_id "HANDLE-OUT-OF-RANGE-STATUS" _ _ _ (fun a E => c_enum em_HandleOutOfRangeStatus "HANDLE-OUT-OF-RANGE-STATUS" a ok_HandleOutOfRangeStatus eq_refl)).
          }
          {
            eapply piece_cons.
            {
              exact (p_child_id "MAX-DELTA-COUNTER-INIT" _ _ _ (fun a E => c_positive "MAX-DELTA-COUNTER-INIT" a eq_refl (opt_in _ _ a G_max_delta_counter_init E))).
            }
            {
              eapply piece_cons.
              {
                exact (p_child_id "MAX-NO-NEW-OR-REPEATED-DATA" _ _ _ (fun a E => c_positive "MAX-NO-NEW-OR-REPEATED-DATA" a eq_refl (opt_in _ _ a G_max_no_new_repeated_data E))).
              }
              {
                eapply piece_cons.
                {
                  exact (p_child "NETWORK-REPRESENTATION" _ _ _ norm_SwDataDefProps (fun a E => rt_SwDataDefProps v "NETWORK-REPRESENTATION" a eq_refl (opt_in _ _ a G_network_representation E))).
                }
                {
                  eapply piece_cons.
                  {
                    exact (p_child_id "RECEPTION-PROPS" _ _ _ (fun a E => rt_ReceptionComSpecProps v a (opt_in _ _ a G_reception_props E))).
                  }
                  {
                    eapply piece_cons.
                    {
                      exact (p_child_id "REPLACE-WITH" _ _ _ (fun a E => rt_VariableAccess v "REPLACE-WITH" a eq_refl (opt_in _ _ a G_replace_with E))).
                    }
                    {
                      eapply piece_cons.
                      {
                        exact (p_child_id "SYNC-COUNTER-INIT" _ _ _ (fun a E => c_positive "SYNC-COUNTER-INIT" a eq_refl (opt_in _ _ a G_sync_counter_init E))).
                      }
                      {
                        eapply piece_cons.
                        {
                          exact (p_children_id "TRANSFORMATION-COM-SPEC-PROPSS" "END-TO-END-TRANSFORMATION-COM-SPEC-PROPS" _ _ _  eq_refl (fun a I => rt_EndToEndTransformationComSpecProps v a (all_in _ _ a G_transformation_com_spec_props I))).
                        }
                        {
                          eapply piece_cat1.
                          exact (p_child_id "USES-END-TO-END-PROTECTION" _ _ _ (fun a E => c_bool "USES-END-TO-END-PROTECTION" a eq_refl)).
                        }
                        reflexivity.
                      }
                      reflexivity.
                    }
                    reflexivity.
                  }
                  reflexivity.
                }
                reflexivity.
              }
              reflexivity.
            }
            reflexivity.
          }
          reflexivity.
        }
        reflexivity.
      }
      reflexivity.
    }
    {
      eapply piece_cat1.
      exact (p_child_id "QUEUE-LENGTH" _ _ _ (fun a E => c_positive "QUEUE-LENGTH" a eq_refl (opt_in _ _ a G_queue_length E))).
    }
    reflexivity.
  }
  { exact eq_refl. }
  { apply attrs_ok_nil. }
  intros t k ktl H N. cbv beta in H. unand H.
  unfold read_queued_receiver_com_spec, read_receiver_com_spec, receiver_com_spec_with. cbn [x_attrs x_kids].
  use_facts.
  reflexivity.
Qed.
Lemma rt_NonqueuedReceiverComSpec v e : good_NonqueuedReceiverComSpec e -> carries "NONQUEUED-RECEIVER-COM-SPEC" (write_nonqueued_receiver_com_spec v e) (read_nonqueued_receiver_com_spec v) (norm_NonqueuedReceiverComSpec e).
Proof.
  unfold good_NonqueuedReceiverComSpec. intros (G_data_element_ref & G_max_delta_counter_init & G_max_no_new_repeated_data & G_network_representation & G_reception_props & G_replace_with & G_sync_counter_init & G_transformation_com_spec_props & G_alive_timeout & G_data_filter & G_init_value & G_timeout_substitution_value). unfold write_nonqueued_receiver_com_spec.
  destruct (NonqueuedReceiverComSpec_is_empty e) eqn:E.
  { clear - E. unfold NonqueuedReceiverComSpec_is_empty in E. apply e_empty; [exact eq_refl|]. destruct e. cbn in E. emptied E. subst. reflexivity. }
  clear E.
  eapply e_node2.
  {
    eapply piece_cons.
    {
      unfold write_receiver_com_spec_group.
      eapply piece_cons.
      {
        exact (p_child_id "DATA-ELEMENT-REF" _ _ _ (fun a E => k_AutosarDataPrototypeRef v "DATA-ELEMENT-REF" a eq_refl (opt_in _ _ a G_data_element_ref E))).
      }
      {
        eapply piece_cons.
        {
          exact (p_child_id "HANDLE-OUT-OF-RANGE" _ _ _ (fun a E => c_enum em_HandleOutOfRange "HANDLE-OUT-OF-RANGE" a ok_HandleOutOfRange eq_refl)).
        }
        {
          eapply piece_cons.
          {
            exact (p_child_id "HANDLE-OUT-OF-RANGE-STATUS" _ _ _ (fun a E => c_enum em_HandleOutOfRangeStatus "HANDLE-OUT-OF-RANGE-STATUS" a ok_HandleOutOfRangeStatus eq_refl)).
          }
          {
            eapply piece_cons.
            {
              exact (p_child_id "MAX-DELTA-COUNTER-INIT" _ _ _ (fun a E => c_positive "MAX-DELTA-COUNTER-INIT" a eq_refl (opt_in _ _ a G_max_delta_counter_init E))).
            }
            {
              eapply piece_cons.
              {
                exact (p_child_id "MAX-NO-NEW-OR-REPEATED-DATA" _ _ _ (fun a E => c_positive "MAX-NO-NEW-OR-REPEATED-DATA" a eq_refl (opt_in _ _ a G_max_no_new_repeated_data E))).
              }
              {
                eapply piece_cons.
                {
                  exact (p_child "NETWORK-REPRESENTATION" _ _ _ norm_SwDataDefProps (fun a E => rt_SwDataDefProps v "NETWORK-REPRESENTATION" a eq_refl (opt_in _ _ a G_network_representation E))).
                }
                {
                  eapply piece_cons.
                  {
                    exact (p_child_id "RECEPTION-PROPS" _ _ _ (fun a E => rt_ReceptionComSpecProps v a (opt_in _ _ a G_reception_props E))).
                  }
                  {
                    eapply piece_cons.
                    {
                      exact (p_child_id "REPLACE-WITH" _ _ _ (fun a E => rt_VariableAccess v "REPLACE-WITH" a eq_refl (opt_in _ _ a G_replace_with E))).
                    }
                    {
                      eapply piece_cons.
                      {
                        exact (p_child_id "SYNC-COUNTER-INIT" _ _ _ (fun a E => c_positive "SYNC-COUNTER-INIT" a eq_refl (opt_in _ _ a G_sync_counter_init E))).
                      }
                      {
                        eapply piece_cons.
                        {
                          exact (p_children_id "TRANSFORMATION-COM-SPEC-PROPSS" "END-TO-END-TRANSFORMATION-COM-SPEC-PROPS" _ _ _  eq_refl (fun a I => rt_EndToEndTransformationComSpecProps v a (all_in _ _ a G_transformation_com_spec_props I))).
                        }
                        {
                          eapply piece_cat1.
                          exact (p_child_id "USES-END-TO-END-PROTECTION" _ _ _ (fun a E => c_bool "USES-END-TO-END-PROTECTION" a eq_refl)).
                        }
                        reflexivity.
                      }
                      reflexivity.
                    }
                    reflexivity.
                  }
                  reflexivity.
                }
                reflexivity.
              }
              reflexivity.
            }
            reflexivity.
          }
          reflexivity.
        }
        reflexivity.
      }
      reflexivity.
    }
    {
      eapply piece_cat1.
      unfold write_nonqueued_receiver_com_spec_group.
      eapply piece_cons.
      {
        exact (p_child "ALIVE-TIMEOUT" _ _ _ reread (fun a E => c_real_float "ALIVE-TIMEOUT" a eq_refl (opt_in _ _ a G_alive_timeout E))).
      }
      {
        eapply piece_cons.
        {
          exact (p_child_id "ENABLE-UPDATE" _ _ _ (fun a E => c_bool "ENABLE-UPDATE" a eq_refl)).
        }
        {
          eapply piece_cons.
          {
            exact (p_child_id "FILTER" _ _ _ (fun a E => rt_DataFilter v "FILTER" a eq_refl (opt_in _ _ a G_data_filter E))).
          }
          {
            eapply piece_cons.
            {
              exact (p_child_id "HANDLE-DATA-STATUS" _ _ _ (fun a E => c_bool "HANDLE-DATA-STATUS" a eq_refl)).
            }
            {
              eapply piece_cons.
              {
                exact (p_child_id "HANDLE-NEVER-RECEIVED" _ _ _ (fun a E => c_bool "HANDLE-NEVER-RECEIVED" a eq_refl)).
              }
              {
                eapply piece_cons.
                {
                  exact (p_child_id "HANDLE-TIMEOUT-TYPE" _ _ _ (fun a E => c_enum em_HandleTimeout "HANDLE-TIMEOUT-TYPE" a ok_HandleTimeout eq_refl)).
                }
                {
                  eapply piece_cons.
                  {
                    exact (p_inner_try "INIT-VALUE" _ _ _ norm_ValueSpecificationElement eq_refl (fun a E => rt_ValueSpecificationElement v a (opt_in _ _ a G_init_value E))).
                  }
                  {
                    eapply piece_cat1.
                    exact (p_inner_try "TIMEOUT-SUBSTITUTION-VALUE" _ _ _ norm_ValueSpecificationElement eq_refl (fun a E => rt_ValueSpecificationElement v a (opt_in _ _ a G_timeout_substitution_value E))).
                  }
                  reflexivity.
                }
                reflexivity.
              }
              reflexivity.
            }
            reflexivity.
          }
          reflexivity.
        }
        reflexivity.
      }
      reflexivity.
    }
    reflexivity.
  }
  { exact eq_refl. }
  { apply attrs_ok_nil. }
  intros t k ktl H N. cbv beta in H. unand H.
  unfold read_nonqueued_receiver_com_spec, read_receiver_com_spec, read_nonqueued_receiver_com_spec_group, receiver_com_spec_with. cbn [x_attrs x_kids].
  use_facts.
  rewrite (as_float_opt _ G_alive_timeout).
  reflexivity.
Qed.
