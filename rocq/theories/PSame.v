(** The [norm_] functions keep what the relations of SElem compare. *)
From Verif Require Import Base PBase MNames PNames MNum SNum PNum PNum3 MXml SXml PXml PXml2 MEnum PEnum MRefTab MRef SEnum PRef MCodec SCodec PCodec PPiece PIdent MElem0 PElem0 PElemRef MElem1 MElemA MElemB MElem2 SElem1 SElemA SElemB SElem2 PElem1 PElemA PElemB PElem2 MStr SElem.
From Coq Require Import QArith.
Open Scope list_scope.

Lemma carries_reloads {A} (write : A -> out) (read : xml -> result A) tag a a' : carries tag (write a) read a' -> reloads_as write read a a'.
Proof.
  intros C. destruct (carries_text tag _ _ _ C 2) as (w & t & x & E & T & P & R). exists t. split.
  - unfold element_text. rewrite E. cbn [bind flat_map]. rewrite app_nil_r. exact T.
  - unfold read_element. rewrite P. exact R.
Qed.

Lemma same_number_refl n : same_number n n.
Proof. unfold same_number. destruct (meaning n); auto. reflexivity. Qed.
Lemma same_reread n : same_number n (reread n).
Proof.
  destruct n as [z|f]; [apply same_number_refl|]. destruct f as [neg| |neg c e]; cbn [reread]; try apply same_number_refl.
  destruct (Z.leb_spec 0 e) as [H|H]; [|apply same_number_refl]. unfold same_number. cbn [meaning].
  rewrite (qv_int neg c e H). unfold qv, signed. cbn [Qpower Qpower_positive]. destruct neg; rewrite ?N2Z.inj_mul; field.
Qed.
Lemma opt_rel_map {A} (R : A -> A -> Prop) f o : (forall a, R a (f a)) -> opt_rel R o (option_map f o).
Proof. destruct o; cbn; auto. Qed.
Lemma opt_rel_map_in {A} (R : A -> A -> Prop) f o : (forall a, o = Some a -> R a (f a)) -> opt_rel R o (option_map f o).
Proof. destruct o; cbn; auto. Qed.
Lemma Forall2_map {A} (R : A -> A -> Prop) f l : (forall a, R a (f a)) -> Forall2 R l (map f l).
Proof. intros H. induction l; cbn; constructor; auto. Qed.
Lemma Forall2_map_in {A} (R : A -> A -> Prop) f l : (forall a, In a l -> R a (f a)) -> Forall2 R l (map f l).
Proof. induction l as [|a l IH]; intros H; cbn; constructor; [apply H; now left|apply IH; intros b I; apply H; now right]. Qed.

(** ** Values *)
Lemma same_norm_value n : same_numeral n (norm_value n).
Proof. destruct n as [n|[n f]]; unfold same_numeral; cbn; [apply same_reread|]. destruct f; cbn; apply same_reread || apply same_number_refl. Qed.
Lemma same_norm_plain n : same_numeral n (norm_plain n).
Proof. destruct n as [n|[n f]]; unfold same_numeral; cbn; apply same_reread. Qed.
Lemma same_norm_sw e : same_sw_value e (norm_sw_value e).
Proof.
  induction e as [s|n|l vs IH] using sw_value_ind2; cbn [norm_sw_value]; constructor; [apply same_norm_value|]. now apply Forall2_map_in.
Qed.
Lemma characters_text s l : characters (PText s :: l) = map inl (list_ascii_of_string s) ++ characters l.
Proof. reflexivity. Qed.
Lemma same_merged l : same_names l (merged l).
Proof.
  unfold same_names. induction l as [|[s|i] l IH]; auto.
  - rewrite characters_text, IH. destruct s as [|c s]; [reflexivity|]. rewrite merged_text by discriminate.
    destruct (merged l) as [|[t|i] m]; rewrite ?characters_text; auto. rewrite app_assoc. f_equal.
    assert (X : forall a b, list_ascii_of_string (a ++ b)%string = list_ascii_of_string a ++ list_ascii_of_string b).
    { intros a b. induction a as [|x a IHa]; cbn; auto. now rewrite IHa. }
    now rewrite X, map_app.
  - cbn [merged]. unfold characters in *. cbn [flat_map]. now rewrite IH.
Qed.
Lemma same_norm_list e : same_ValueList e (norm_ValueList e).
Proof. unfold same_ValueList. cbn. apply Forall2_map, same_norm_value. Qed.
Lemma same_norm_values e : same_SwValues e (norm_SwValues e).
Proof. unfold same_SwValues. cbn. apply Forall2_map, same_norm_sw. Qed.
Lemma same_norm_axis e : same_SwAxisCont e (norm_SwAxisCont e).
Proof. unfold same_SwAxisCont. cbn. splits; auto using opt_rel_map, same_merged, same_norm_list, same_norm_values. Qed.
Lemma same_norm_cont e : same_SwValueCont e (norm_SwValueCont e).
Proof. unfold same_SwValueCont. cbn. splits; auto using opt_rel_map, same_merged, same_norm_list, same_norm_values. Qed.
Lemma same_norm_spec e : same_value_spec e (norm_ValueSpecificationElement e).
Proof.
  induction e as [e B|label l IH|label l IH] using ValueSpecificationElement_ind2.
  - destruct e; try contradiction; cbn [norm_ValueSpecificationElement]; constructor; auto using opt_rel_map, Forall2_map, same_norm_plain, same_norm_axis, same_norm_cont.
  - cbn. constructor. now apply Forall2_map_in.
  - cbn. constructor. now apply Forall2_map_in.
Qed.

(** ** Computations *)
Lemma same_norm_scalar a : same_scalar a (reread_scalar a).
Proof. destruct a; cbn; auto using same_reread. Qed.
Lemma same_norm_const e : same_CompuConst e (norm_CompuConst e).
Proof. apply opt_rel_map, same_norm_scalar. Qed.
Lemma same_norm_numbers l : same_numbers l (map reread l).
Proof. apply Forall2_map, same_reread. Qed.
Lemma same_norm_content e : same_content e (norm_CompuScaleContent e).
Proof. destruct e; cbn; [apply same_norm_const|split; apply opt_rel_map, same_norm_numbers]. Qed.
Lemma same_norm_scale e : same_CompuScale e (norm_CompuScale e).
Proof. unfold same_CompuScale. cbn. splits; auto using opt_rel_map, same_norm_content, same_norm_scalar, same_norm_const. Qed.
Lemma same_norm_computation e : same_Computation e (norm_Computation e).
Proof. split; cbn; apply opt_rel_map; [|apply same_norm_const]. intros l. apply Forall2_map, same_norm_scale. Qed.
Lemma same_norm_method e : same_CompuMethod e (norm_CompuMethod e).
Proof. unfold same_CompuMethod. cbn. splits; auto using opt_rel_map, same_norm_computation. Qed.

(** ** Constraints *)
Lemma same_norm_scale_constraint e : same_ScaleConstraint e (norm_ScaleConstraint e).
Proof. unfold same_ScaleConstraint. cbn. splits; auto using opt_rel_map, same_reread. Qed.
Lemma same_norm_base e : same_ConstraintBase e (norm_ConstraintBase e).
Proof. unfold same_ConstraintBase. cbn. splits; auto using opt_rel_map, Forall2_map, same_reread, same_norm_scale_constraint. Qed.
Lemma same_norm_rule e : same_DataConstraintRule e (norm_DataConstraintRule e).
Proof. unfold same_DataConstraintRule. cbn. splits; auto; apply opt_rel_map; intros a; [apply same_norm_base|]. split; [apply same_norm_base|reflexivity]. Qed.
Lemma same_norm_constraint e : same_DataConstraint e (norm_DataConstraint e).
Proof. unfold same_DataConstraint. cbn. splits; auto using Forall2_map, same_norm_rule. Qed.

(** ** Data types *)
Lemma same_norm_props e : same_props e (norm_SwDataDefProps e).
Proof.
  induction e as [l IH] using SwDataDefProps_ind2. cbn [same_props norm_SwDataDefProps]. induction l as [|c l IHl]; cbn [map]; [exact I|]. split.
  - unfold same_conditional, norm_SwDataDefPropsConditional_. cbn. splits; auto using opt_rel_map, same_reread.
    + destruct (dd_annotations c); reflexivity.
    + apply opt_rel_map_in. intros p E. unfold same_pointer. cbn. splits; auto. apply opt_rel_map_in. intros r E'. eapply IH; eauto. now left.
  - apply IHl. intros c' p r I1 E1 E2. eapply (IH c'); eauto. now right.
Qed.
Lemma same_norm_type_element e : same_type_element e (norm_ImplementationDataTypeElement e).
Proof.
  induction e as [e IH] using ImplementationDataTypeElement_ind2. destruct e as [ident props size policy handling semantics sub optional].
  cbn [ImplementationDataTypeElement_sub_elements] in IH. cbn [same_type_element norm_ImplementationDataTypeElement].
  splits; auto using opt_rel_map, same_norm_props. induction sub as [|c l IHl]; cbn [map]; [exact I|]. split; [apply IH; now left|].
  apply IHl. intros d I1. apply IH. now right.
Qed.
Lemma same_norm_type e : same_ImplementationDataType e (norm_ImplementationDataType e).
Proof. unfold same_ImplementationDataType. cbn. splits; auto using opt_rel_map, Forall2_map, same_norm_props, same_norm_type_element. Qed.
