(** Reception properties: round trip. *)
From Verif Require Import Base PBase MNames PNames MNum SNum PNum PNum3 PNum4 MXml SXml PXml PXml2 MEnum PEnum MRefTab MRef SEnum PRef MCodec SCodec PCodec PPiece PIdent MElem0 PElem0 PElemRef MElem1 SElem1 PElem1 MElemA SElemA PElemA MElemB SElemB PElemB MElemC SElemC PElemC MElem2 SElem2 PElem2 MElemD SElemD.
Open Scope list_scope.

Lemma read_reception_com_spec_props_local v : local (read_reception_com_spec_props_ v).
Proof.
  intros f g x H. unfold read_reception_com_spec_props_, receiver_com_spec_with. cbv zeta.
  rewrite (child_ext "RECEPTION-PROPS" (x_kids x) f g); [reflexivity|]. intros y I. apply H. now apply height_kid.
Qed.
Lemma rt_ReceptionComSpecProps v e : good_ReceptionComSpecProps e ->
  carries "RECEPTION-PROPS" (write_reception_com_spec_props v e) (read_reception_com_spec_props v) e.
Proof.
  intros (G1 & G2). unfold write_reception_com_spec_props.
  destruct (ReceptionComSpecProps_is_empty e) eqn:E.
  { unfold ReceptionComSpecProps_is_empty in E. apply e_empty; [reflexivity|]. destruct e. cbn in E. emptied E. subst. reflexivity. }
  eapply e_node2; [|reflexivity|exact attrs_ok_nil|].
  { eapply piece_cons; [exact (p_child "DATA-UPDATE-PERIOD" _ _ _ reread (fun a E => c_real_float "DATA-UPDATE-PERIOD" a eq_refl (opt_in _ _ a G1 E)))| |].
    eapply piece_cat1. exact (p_child "TIMEOUT" _ _ _ reread (fun a E => c_real_float "TIMEOUT" a eq_refl (opt_in _ _ a G2 E))).
    all: reflexivity. }
  intros t k ktl H N. cbv beta in H. unand H. unfold read_reception_com_spec_props. rewrite recursive_eq by apply read_reception_com_spec_props_local.
  change (recursive (read_reception_com_spec_props_ v)) with (read_reception_com_spec_props v).
  unfold read_reception_com_spec_props_ at 1, receiver_com_spec_with. cbn [x_kids].
  rewrite !child_none by (apply N; reflexivity). rewrite children_none by (apply N; reflexivity). cbn [bind].
  use_facts. rewrite unexpected_none by (repeat constructor; apply N; reflexivity). cbn [bind]. rewrite (as_float_opt _ G1), (as_float_opt _ G2). now destruct e.
Qed.
