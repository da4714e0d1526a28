(** Proofs that readers do not see the order of properties: MElemA.v, MElemB.v, MElemC.v. *)
From Verif Require Import Base PBase MNames MNum MXml MEnum MRefTab MRef MCodec MElem0 MElem1 MElemA MElemB PElemB MElemC MElem2 MElemD PElemD MElem3 MElem4 MElemE MElem5 MElemF SOrder POrder POrder1.
Open Scope list_scope.

(** Readers of MElemA.v *)
Lemma o_read_compu_const v : respects (read_compu_const v).
Proof.
  intros x y H. unfold read_compu_const. pose proof (alike_kids x y H) as K.
  destruct (get_alike "V" _ _ eq_refl K) as [(a & b & -> & -> & L & T)|[-> ->]], (get_alike "VT" _ _ eq_refl K) as [(c & d & -> & -> & M & U)|[-> ->]]; try reflexivity.
  - now rewrite (rd_number_at "V" eq_refl a b L T).
  - rewrite (alike_text_opt c d M); [reflexivity|now rewrite U].
Qed.
#[export] Hint Resolve o_read_compu_const : order.
Lemma o_read_compu_numerator_denominator_values : respects read_compu_numerator_denominator_values.
Proof.
  intros x y H. unfold read_compu_numerator_denominator_values. apply mapM_findall_alike; [reflexivity|now apply alike_kids|].
  intros a b L T. now rewrite (rd_numval_at "V" eq_refl a b L T).
Qed.
#[export] Hint Resolve o_read_compu_numerator_denominator_values : order.
Lemma o_read_compu_rational v : respects (read_compu_rational v).
Proof. properties read_compu_rational. Qed.
#[export] Hint Resolve o_read_compu_rational : order.
Lemma o_read_scale_content v : kids_respect (read_scale_content v).
Proof.
  intros k l K. unfold read_scale_content.
  destruct (get_alike "COMPU-CONST" _ _ eq_refl K) as [(a & b & -> & -> & L & T)|[-> ->]], (get_alike "COMPU-RATIONAL-COEFFS" _ _ eq_refl K) as [(c & d & -> & -> & M & U)|[-> ->]]; try reflexivity.
  - now rewrite (o_read_compu_const v a b L).
  - now rewrite (o_read_compu_rational v c d M).
Qed.
#[export] Hint Resolve o_read_scale_content : order.
Lemma o_read_compu_scale v : respects (read_compu_scale v).
Proof. properties read_compu_scale. Qed.
#[export] Hint Resolve o_read_compu_scale : order.
Lemma o_read_compu_scales v : respects (read_compu_scales v).
Proof. intros x y H. unfold read_compu_scales. apply mapM_findall_alike; [reflexivity|now apply alike_kids|solve_at]. Qed.
#[export] Hint Resolve o_read_compu_scales : order.
Lemma o_read_computation v : respects (read_computation v).
Proof. properties read_computation. Qed.
#[export] Hint Resolve o_read_computation : order.
Lemma o_read_scale_constraint v : respects (read_scale_constraint v).
Proof. properties read_scale_constraint. Qed.
#[export] Hint Resolve o_read_scale_constraint : order.
Lemma o_read_constraint_base v : kids_respect (read_constraint_base v).
Proof. kids read_constraint_base. Qed.
#[export] Hint Resolve o_read_constraint_base : order.
Lemma o_read_internal_constraint v : respects (read_internal_constraint v).
Proof. properties read_internal_constraint. Qed.
#[export] Hint Resolve o_read_internal_constraint : order.
Lemma o_read_physical_constraint v : respects (read_physical_constraint v).
Proof. properties read_physical_constraint. Qed.
#[export] Hint Resolve o_read_physical_constraint : order.
Lemma o_read_data_constraint_rule v : respects (read_data_constraint_rule v).
Proof. properties read_data_constraint_rule. Qed.
#[export] Hint Resolve o_read_data_constraint_rule : order.
Lemma o_read_data_constraint v : respects (read_data_constraint v).
Proof. properties read_data_constraint. Qed.
#[export] Hint Resolve o_read_data_constraint : order.
Lemma o_read_compu_method v : respects (read_compu_method v).
Proof. properties read_compu_method. Qed.
#[export] Hint Resolve o_read_compu_method : order.
Lemma o_read_value_list v : respects (read_value_list v).
Proof. intros x y H. unfold read_value_list. apply bind_alike; [|reflexivity]. apply mapM_findall_alike; [reflexivity|now apply alike_kids|solve_at]. Qed.
#[export] Hint Resolve o_read_value_list : order.
Lemma collect_alike {A} (f : xml -> result (option A)) k l : Forall2 alike k l -> (forall x y, In x k -> alike x y -> f x = f y) -> collect f k = collect f l.
Proof.
  induction 1 as [|x y k l H _ IH]; intros R; [reflexivity|]. cbn [collect]. rewrite (R x y (or_introl eq_refl) H). rewrite IH; [reflexivity|]. intros; apply R; [now right|assumption].
Qed.
Lemma o_read_sw_value : respects read_sw_value.
Proof.
  assert (G : forall n x y, (height x <= n)%nat -> alike x y -> read_sw_value x = read_sw_value y).
  { induction n as [|n IH]; intros x y B H; [destruct x; cbn in B; lia|].
    pose proof (alike_tag x y H) as E. pose proof (alike_attrs x y H) as A. pose proof (alike_in_order x y H) as O.
    pose proof (fun T => rd_value_at (x_tag x) T x y H eq_refl) as RV. pose proof (alike_text_opt x y H) as RT.
    assert (HK : forall z, In z (x_kids x) -> (height z <= n)%nat) by (intros z I; pose proof (height_kid z x I); lia). clear H B.
    destruct x as [tag a t k tl], y as [tag' a' t' k' tl']. cbn [x_tag x_attrs x_kids] in *. subst tag'. cbn [read_sw_value].
    destruct (String.eqb_spec tag "VT") as [->|_]; [now rewrite (RT eq_refl)|].
    destruct (String.eqb_spec tag "V") as [->|_]; [now rewrite (RV eq_refl)|].
    destruct (String.eqb_spec tag "VG") as [->|_]; [|reflexivity]. specialize (O eq_refl). clear - O HK IH.
    destruct O as [|x y k l L K]; [reflexivity|].
    assert (CK : collect read_sw_value k = collect read_sw_value l) by (apply collect_alike; [exact K|intros; apply IH; [apply HK; now right|assumption]]).
    assert (CX : collect read_sw_value (x :: k) = collect read_sw_value (y :: l)) by (apply collect_alike; [now constructor|intros; apply IH; [now apply HK|assumption]]).
    pose proof (read_langs_respects "L-4" ltac:(cbn; tauto) x y L) as RL. pose proof (alike_tag x y L) as E. destruct x as [lt la ltx lk ltl], y as [lt' la' ltx' lk' ltl']. cbn [x_tag] in E. subst lt'.
    destruct (String.eqb lt "LABEL"); [now rewrite RL, CK|now rewrite CX]. }
  intros x y. now apply (G (height x)).
Qed.
#[export] Hint Resolve o_read_sw_value : order.
Lemma o_read_sw_values v : respects_at "SW-VALUES-PHYS" (read_sw_values v).
Proof.
  intros x y H E. unfold read_sw_values. rewrite (collect_alike read_sw_value (x_kids x) (x_kids y)); [reflexivity| |auto using o_read_sw_value].
  apply alike_in_order; [exact H|now rewrite E].
Qed.
#[export] Hint Resolve o_read_sw_values : order.
Lemma o_read_sw_axis_cont v : respects (read_sw_axis_cont v).
Proof. properties read_sw_axis_cont. Qed.
#[export] Hint Resolve o_read_sw_axis_cont : order.
Lemma o_read_sw_addr_method v : respects (read_sw_addr_method v).
Proof. properties read_sw_addr_method. Qed.
#[export] Hint Resolve o_read_sw_addr_method : order.
(** Readers of MElemB.v *)
Lemma o_read_sw_pointer_target_props_ {R} v (self : xml -> result R) : respects self -> respects (read_sw_pointer_target_props_ v self).
Proof. intros S. properties @read_sw_pointer_target_props_. Qed.
Lemma o_read_sw_data_def_props_conditional_ {R} v (self : xml -> result R) : respects self -> respects (read_sw_data_def_props_conditional_ v self).
Proof. intros S. properties @read_sw_data_def_props_conditional_. Qed.
#[export] Hint Resolve o_read_sw_pointer_target_props_ o_read_sw_data_def_props_conditional_ : order.
Lemma o_read_sw_data_def_props v : respects (read_sw_data_def_props v).
Proof.
  apply (recursive_respects (read_sw_data_def_props_ v)); [apply read_sw_data_def_props_local|]. intros self S. properties read_sw_data_def_props_.
Qed.
#[export] Hint Resolve o_read_sw_data_def_props : order.
Lemma o_read_sw_pointer_target_props v : respects (read_sw_pointer_target_props v).
Proof. exact (o_read_sw_pointer_target_props_ v _ (o_read_sw_data_def_props v)). Qed.
#[export] Hint Resolve o_read_sw_pointer_target_props : order.
Lemma o_read_sw_data_def_props_conditional v : respects (read_sw_data_def_props_conditional v).
Proof. exact (o_read_sw_data_def_props_conditional_ v _ (o_read_sw_pointer_target_props v)). Qed.
#[export] Hint Resolve o_read_sw_data_def_props_conditional : order.
Lemma o_read_implementation_data_type_element v : respects (read_implementation_data_type_element v).
Proof.
  apply (recursive_respects (read_implementation_data_type_element_ v)); [apply read_implementation_data_type_element_local|]. intros self S. properties read_implementation_data_type_element_.
Qed.
#[export] Hint Resolve o_read_implementation_data_type_element : order.
Lemma o_read_sw_value_cont v : respects (read_sw_value_cont v).
Proof. properties read_sw_value_cont. Qed.
#[export] Hint Resolve o_read_sw_value_cont : order.
Lemma o_read_value_specification_element v : respects (read_value_specification_element v).
Proof.
  apply (recursive_respects (read_value_specification_element_ v)); [apply read_value_specification_element_local|]. intros self S x y H. unfold read_value_specification_element_. cbv zeta.
  pose proof (alike_kids x y H) as K. rewrite <- (alike_tag x y H).
  repeat (match goal with |- (if ?b then _ else _) = _ => destruct b end; [blocks K|]). reflexivity.
Qed.
#[export] Hint Resolve o_read_value_specification_element : order.
(** Readers of MElemC.v *)
Lemma o_read_variable_in_atomic_swc_type_instance_ref v : respects (read_variable_in_atomic_swc_type_instance_ref v).
Proof. properties read_variable_in_atomic_swc_type_instance_ref. Qed.
#[export] Hint Resolve o_read_variable_in_atomic_swc_type_instance_ref : order.
Lemma o_read_port_in_composition_type_instance_ref v : respects (read_port_in_composition_type_instance_ref v).
Proof.
  intros x y H. unfold read_port_in_composition_type_instance_ref. cbv zeta. pose proof (alike_kids x y H) as K. rewrite <- (alike_tag x y H).
  apply bind_alike; [block K|intros d]. destruct (provider_tag (x_tag x)); [|destruct (requester_tag (x_tag x)); [|reflexivity]]; cbn [bind]; blocks K.
Qed.
#[export] Hint Resolve o_read_port_in_composition_type_instance_ref : order.
Lemma o_read_assembly_sw_connector v : respects (read_assembly_sw_connector v).
Proof. properties read_assembly_sw_connector. Qed.
#[export] Hint Resolve o_read_assembly_sw_connector : order.
Lemma o_read_inner_port v : respects_at "INNER-PORT-IREF" (read_inner_port v).
Proof.
  intros x y H E. unfold read_inner_port. pose proof (alike_in_order x y H ltac:(now rewrite E)) as K. destruct K as [|a b k l L _]; [reflexivity|].
  rewrite <- (alike_tag a b L), (o_read_port_in_composition_type_instance_ref v a b L). reflexivity.
Qed.
#[export] Hint Resolve o_read_inner_port : order.
Lemma o_read_delegation_sw_connector v : respects (read_delegation_sw_connector v).
Proof. properties read_delegation_sw_connector. Qed.
#[export] Hint Resolve o_read_delegation_sw_connector : order.
Lemma o_select_sw_connector_element v t f : select_sw_connector_element v t = Some f -> respects_at t f.
Proof.
  unfold select_sw_connector_element. intros E x y H _. repeat (match type of E with (if ?b then _ else _) = _ => destruct b end;
  [injection E as <-; cbv beta; apply bind_alike; [apply (fun R : respects _ => R x y H); auto with order nocore|reflexivity]|]). discriminate.
Qed.
#[export] Hint Resolve o_select_sw_connector_element : order.
Lemma o_read_mode_group_iref v : respects_at "MODE-GROUP-IREF" (read_mode_group_iref v).
Proof.
  intros x y H E. unfold read_mode_group_iref. pose proof (alike_in_order x y H ltac:(now rewrite E)) as K. destruct K as [|a b k l L _]; [reflexivity|].
  rewrite <- (alike_tag a b L), (o_read_p_mode_group_in_atomic_swc_instance_ref v a b L), (o_read_r_mode_group_in_atomic_swc_instance_ref v a b L). reflexivity.
Qed.
#[export] Hint Resolve o_read_mode_group_iref : order.
Lemma o_read_mode_access_point v : respects (read_mode_access_point v).
Proof. properties read_mode_access_point. Qed.
#[export] Hint Resolve o_read_mode_access_point : order.
