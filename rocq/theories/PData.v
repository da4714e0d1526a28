(** Proofs about creating data definition properties, data types, mapping sets and units. *)
From Verif Require Import Base PBase MNum MXml MEnum MRefTab MRef PRef MCodec MElem0 MElem1 MElemA MElemB MElemC MElem2 MElemD MElem3 MElem4 MElemE MElem5 MElemF MArxml MFind MValue MEvent MPort SPort PPort MAccess SAccess PAccess MRunnable SRunnable PRunnable MIface SIface PIface SFormat PropsFormat MData SData.
From Verif Require SLiteral PLiteral.
Open Scope list_scope.

(** ** Texts of numbers *)
Lemma pow_N z : (0 <= z)%Z -> Z.of_N (10 ^ Z.to_N z) = (10 ^ z)%Z.
Proof. intros H. rewrite N2Z.inj_pow, Z2N.id by exact H. reflexivity. Qed.
Lemma truncates_iff neg c e z : signed neg (if (0 <=? e)%Z then c * 10 ^ Z.to_N e else c / 10 ^ Z.to_N (- e))%N = z <-> truncates neg c e z.
Proof.
  set (m := (if (0 <=? e)%Z then c * 10 ^ Z.to_N e else c / 10 ^ Z.to_N (- e))%N).
  assert (M : (Z.of_N m * 10 ^ Z.max 0 (- e) <= Z.of_N c * 10 ^ Z.max 0 e < (Z.of_N m + 1) * 10 ^ Z.max 0 (- e))%Z).
  { unfold m. destruct (0 <=? e)%Z eqn:S.
    - apply Z.leb_le in S. rewrite N2Z.inj_mul, pow_N, (Z.max_r 0 e), (Z.max_l 0 (- e)), Z.pow_0_r by lia. lia.
    - apply Z.leb_gt in S. rewrite N2Z.inj_div, pow_N, (Z.max_l 0 e), (Z.max_r 0 (- e)), Z.pow_0_r by lia.
      assert (0 < 10 ^ - e)%Z by (apply Z.pow_pos_nonneg; lia). pose proof (Z.mul_div_le (Z.of_N c) (10 ^ - e) H). pose proof (Z.mul_succ_div_gt (Z.of_N c) (10 ^ - e) H). lia. }
  unfold truncates, signed. split.
  - intros <-. destruct neg; (split; [lia|]); rewrite ?Z.abs_opp, Z.abs_eq by lia; exact M.
  - intros [Sg T]. assert (0 < 10 ^ Z.max 0 (- e))%Z by (apply Z.pow_pos_nonneg; lia).
    assert (Z.abs z = Z.of_N m) by nia. destruct neg; lia.
Qed.
Lemma whole_iff kw k v : opt_int (kwarg k kw) = Ok v <-> holds means_whole kw k v.
Proof.
  apply opt_iff. intros a x _. split.
  - destruct a as [|b|[z|[n| |neg c e]]|s| | | | | ]; cbn [int_of_arg]; try discriminate.
    + intros E. injection E as <-. destruct b; constructor.
    + intros E. injection E as <-. constructor.
    + intros E. injection E as E. apply truncates_iff in E. now constructor.
    + destruct (int10 s) as [z|] eqn:D; [|discriminate]. intros E. injection E as <-. apply PLiteral.int10_iff in D. now constructor.
  - intros [z|neg c e z T|s z D| | ]; try reflexivity.
    + cbn [int_of_arg]. apply truncates_iff in T. now rewrite T.
    + cbn [int_of_arg]. apply PLiteral.int10_iff in D. now rewrite D.
Qed.

(** ** Arguments *)
Lemma number_iff kw k v : optional resolution_of (kwarg k kw) = Ok v <-> holds means_number kw k v.
Proof.
  apply opt_iff. intros a x _. split.
  - destruct a as [|b|n| | | | | | ]; try discriminate; intros E; injection E as <-; [destruct b|]; constructor.
  - intros [n| | ]; reflexivity.
Qed.
Lemma alignment_arg_iff kw k v : optional alignment_of (kwarg k kw) = Ok v <-> holds means_alignment kw k v.
Proof.
  apply opt_iff. intros a x _. split.
  - destruct a as [|b|[z|?]|s| | | | | ]; try discriminate; cbn [alignment_of].
    + intros E. injection E as <-. destruct b; constructor.
    + intros E. injection E as <-. constructor.
    + destruct (alignment_ok s) eqn:A; [|discriminate]. intros E. injection E as <-. constructor. now apply alignment_iff.
  - intros [z|s A| | ]; try reflexivity. cbn [alignment_of]. apply alignment_iff in A. now rewrite A.
Qed.
Lemma format_arg_iff kw k v : optional format_of (kwarg k kw) = Ok v <-> holds means_format kw k v.
Proof.
  apply opt_iff. intros a x _. split.
  - destruct a as [| | |s| | | | | ]; try discriminate; cbn [format_of]. destruct (display_format_ok s) eqn:A; [|discriminate]. intros E. injection E as <-. constructor. now apply display_format_iff.
  - intros [s A]. cbn [format_of]. apply display_format_iff in A. now rewrite A.
Qed.
Lemma ref_strict_iff c kw k v : opt_ref_strict c (kwarg k kw) = Ok v <-> holds (of_class (rc_name c)) kw k v.
Proof.
  apply opt_iff. intros a x _. rewrite <- as_ref_iff. destruct (as_ref c a); split; intros E; try discriminate; congruence.
Qed.
Lemma application_type_iff kw k v : opt_ref_strict rc_ApplicationDataTypeRef (kwarg k kw) = Ok v <-> holds (of_class "ApplicationDataTypeRef") kw k v.
Proof. apply (ref_strict_iff rc_ApplicationDataTypeRef). Qed.
Section Several.
Context {A : Type} (pick : lib_object -> option A) (make : A -> lib_object).
Context (Back : forall x, pick (make x) = Some x) (Only : forall o x, pick o = Some x -> o = make x) (NotConditional : forall p, pick (OSwDataDefPropsConditional p) = None).
Lemma several_iff kw k l : each_of pick (kwarg k kw) = Ok l <-> holds_list (means_several make) kw k l.
Proof.
  unfold holds_list. destruct (given k kw) as [a|] eqn:G.
  2: { apply given_none in G as ->. cbn. split; [intros H; now injection H as <-|now intros ->]. }
  apply given_some in G as [-> N]. split.
  - intros E. assert (exists r, iterable a = Some r /\ mapM (strict pick) r = Ok l) as (r & I & M).
    { destruct a; [contradiction|..]; cbn [each_of] in E; try discriminate; try (eexists; split; [reflexivity|exact E]).
      destruct (iterable (AObj o)) as [r|]; [|discriminate]. eauto. }
    apply (strict_all pick make Back Only) in M. subst r. clear E. destruct a as [|b|n|s|r|r|r|o| ]; cbn [iterable] in I; try discriminate.
    + destruct s as [|c s]; [|destruct l; discriminate]. destruct l; [constructor|discriminate].
    + injection I as ->. constructor.
    + injection I as ->. constructor.
    + destruct r as [|[k0 v0] r]; [|destruct l; discriminate]. destruct l; [constructor|discriminate].
    + destruct o; try discriminate. injection I as I. rename e into p. destruct (SwDataDefProps_variants p) as [|v vs] eqn:V.
      * destruct l; [now constructor|discriminate].
      * destruct l as [|x l]; [discriminate|]. cbn in I. injection I as I _. pose proof (Back x) as B. rewrite <- I, NotConditional in B. discriminate.
  - intros [r|r| | |p E]; try reflexivity.
    + cbn. now apply (strict_all pick make Back Only).
    + cbn. now apply (strict_all pick make Back Only).
    + cbn. now rewrite E.
Qed.
End Several.
Lemma sub_elements_iff kw k l : each_of type_element_of (kwarg k kw) = Ok l <-> holds_list (means_several OImplementationDataTypeElement) kw k l.
Proof. apply several_iff; is_pick. Qed.
Lemma annotations_iff kw k l : annotations_of (kwarg k kw) = Ok l <-> holds_list (means_objects OAnnotation) kw k l.
Proof. apply objects_iff; is_pick. Qed.
Lemma presentation_iff kw k v : optional (strict presentation_of) (kwarg k kw) = Ok v <-> holds (is_a ODisplayPresentation) kw k v.
Proof. apply a_iff; is_pick. Qed.
Lemma bits_iff kw k v : optional (strict bits_of) (kwarg k kw) = Ok v <-> holds (is_a OSwBitRepresentation) kw k v.
Proof. apply a_iff; is_pick. Qed.
Lemma text_props_iff kw k v : optional (strict text_props_of) (kwarg k kw) = Ok v <-> holds (is_a OSwTextProps) kw k v.
Proof. apply a_iff; is_pick. Qed.
Lemma pointer_iff kw k v : optional (strict pointer_of) (kwarg k kw) = Ok v <-> holds (is_a OSwPointerTargetProps) kw k v.
Proof. apply a_iff; is_pick. Qed.
Lemma impl_policy_iff kw k v : optional (strict impl_policy_of) (kwarg k kw) = Ok v <-> holds (is_a OSwImplPolicy) kw k v.
Proof. apply a_iff; is_pick. Qed.
Lemma array_policy_iff kw k v : optional (strict array_policy_of) (kwarg k kw) = Ok v <-> holds (is_a OArrayImplPolicy) kw k v.
Proof. apply a_iff; is_pick. Qed.
Lemma handling_iff kw k v : optional (strict handling_of) (kwarg k kw) = Ok v <-> holds (is_a OArraySizeHandling) kw k v.
Proof. apply a_iff; is_pick. Qed.
Lemma semantics_iff kw k v : optional (strict semantics_of) (kwarg k kw) = Ok v <-> holds (is_a OArraySizeSemantics) kw k v.
Proof. apply a_iff; is_pick. Qed.
Lemma symbol_props_iff kw k v : optional (strict symbol_props_of) (kwarg k kw) = Ok v <-> holds (is_a OSymbolProps) kw k v.
Proof. apply a_iff; is_pick. Qed.
Lemma array_element_iff kw k v : optional (strict array_element_of) (kwarg k kw) = Ok v <-> holds (is_a OApplicationArrayElement) kw k v.
Proof. apply a_iff; is_pick. Qed.
Lemma maps_iff kw k l : one_or_list (strict type_map_of) (kwarg k kw) = Ok l <-> holds_list (means_list (is_a ODataTypeMap)) kw k l.
Proof. apply some_iff; is_pick. Qed.
Lemma opt_text_cast_iff kw k v : opt_text (kwarg k kw) = Ok v <-> holds means_text kw k v.
Proof. apply opt_text_iff. Qed.
Lemma base_type_iff kw k v : opt_ref rc_SwBaseTypeRef (kwarg k kw) = Ok v <-> holds (means_ref [IdentifiableSubTypes_SW_BASE_TYPE]) kw k v.
Proof. now apply opt_ref_iff. Qed.
Lemma signature_iff kw k v : opt_ref rc_FunctionPtrSignatureRef (kwarg k kw) = Ok v <-> holds (means_ref [IdentifiableSubTypes_BSW_MODULE_ENTRY]) kw k v.
Proof. now apply opt_ref_iff. Qed.
Lemma addr_iff kw k v : opt_ref rc_SwAddrMethodRef (kwarg k kw) = Ok v <-> holds (means_ref [IdentifiableSubTypes_SW_ADDR_METHOD]) kw k v.
Proof. now apply opt_ref_iff. Qed.
Lemma compu_iff kw k v : opt_ref rc_CompuMethodRef (kwarg k kw) = Ok v <-> holds (means_ref [IdentifiableSubTypes_COMPU_METHOD]) kw k v.
Proof. now apply opt_ref_iff. Qed.
Lemma constraint_iff kw k v : opt_ref rc_DataConstraintRef (kwarg k kw) = Ok v <-> holds (means_ref [IdentifiableSubTypes_DATA_CONSTR]) kw k v.
Proof. now apply opt_ref_iff. Qed.
Lemma impl_type_iff kw k v : opt_ref rc_ImplementationDataTypeRef (kwarg k kw) = Ok v <-> holds (means_ref [IdentifiableSubTypes_IMPLEMENTATION_DATA_TYPE]) kw k v.
Proof. now apply opt_ref_iff. Qed.
Lemma unit_ref_iff kw k v : opt_ref rc_UnitRef (kwarg k kw) = Ok v <-> holds (means_ref [IdentifiableSubTypes_UNIT]) kw k v.
Proof. now apply opt_ref_iff. Qed.
Lemma index_type_iff kw k v : opt_ref rc_IndexDataTypeRef (kwarg k kw) = Ok v <-> holds (means_ref [IdentifiableSubTypes_APPLICATION_PRIMITIVE_DATA_TYPE]) kw k v.
Proof. now apply opt_ref_iff. Qed.
Lemma record_elements_iff kw k l : record_elements (kwarg k kw) = Ok l <-> holds_list means_record_elements kw k l.
Proof.
  assert (P : forall l r, mapM (strict record_element_of) l = Ok r <-> Forall2 (is_a OApplicationRecordElement) l r).
  { intros l0 r0. apply mapM_iff. intros a x _. apply strict_iff; is_pick. }
  unfold holds_list. destruct (given k kw) as [a|] eqn:G.
  2: { apply given_none in G as ->. cbn. split; [intros H; now injection H as <-|now intros ->]. }
  apply given_some in G as [-> N]. split.
  - intros E. destruct a as [| | | |r| | |o| ]; [contradiction|..]; cbn [record_elements] in E;
      try (injection E as <-; apply record_elements_ignored; intros; discriminate).
    + apply P in E. apply record_elements_given. now constructor.
    + destruct o; cbn [record_elements] in E; injection E as <-;
        try (apply record_elements_ignored; intros; discriminate).
      apply record_elements_given. now apply list_one.
  - intros [a0 l0 [a1 x ->|r xs F]|a0 NE NL].
    + reflexivity.
    + cbn. now apply P.
    + destruct a0 as [| | | |r| | |o| ]; try reflexivity; [now destruct (NL r)|]. destruct o; try reflexivity. now destruct (NE e).
Qed.
Lemma new_names_str s : new_unit_names_str s = Ok (map (fun c => PText (String c "")) (list_ascii_of_string s)).
Proof.
  unfold new_unit_names_str, new_unit_names. induction (list_ascii_of_string s) as [|c l IH]; [reflexivity|].
  cbn [map mapM bind]. destruct (mapM _ _) as [ps|e]; [|discriminate]. cbn [bind] in *. injection IH as IH. cbn [List.concat app]. now rewrite IH.
Qed.
Lemma unit_names_iff kw k v : optional unit_names_of_arg (kwarg k kw) = Ok v <-> holds means_unit_names kw k v.
Proof.
  apply opt_iff. intros a x _. split.
  - destruct a as [| | |s| | | |o| ]; try discriminate; cbn [unit_names_of_arg].
    + rewrite new_names_str. intros E. injection E as <-. constructor.
    + destruct o; try discriminate. intros E. injection E as <-. constructor.
  - intros [n|s]; [reflexivity|]. cbn [unit_names_of_arg]. apply new_names_str.
Qed.

(** ** Constructors *)
Ltac conv_to H := first [apply keywords_iff in H|apply identifiable_iff in H|apply props_iff in H|apply whole_iff in H|apply number_iff in H|apply alignment_arg_iff in H|apply format_arg_iff in H|
  apply application_type_iff in H|apply sub_elements_iff in H|apply annotations_iff in H|apply presentation_iff in H|apply bits_iff in H|apply text_props_iff in H|apply pointer_iff in H|
  apply impl_policy_iff in H|apply array_policy_iff in H|apply handling_iff in H|apply semantics_iff in H|apply symbol_props_iff in H|apply array_element_iff in H|apply maps_iff in H|
  apply opt_text_cast_iff in H|apply base_type_iff in H|apply signature_iff in H|apply addr_iff in H|apply compu_iff in H|apply constraint_iff in H|apply impl_type_iff in H|
  apply unit_ref_iff in H|apply index_type_iff in H|apply record_elements_iff in H|apply unit_names_iff in H|apply opt_float_iff in H|apply opt_bool_iff in H|apply opt_count_iff in H|
  apply access_iff in H].
Ltac conv_of := first [apply identifiable_iff|apply props_iff|apply whole_iff|apply number_iff|apply alignment_arg_iff|apply format_arg_iff|
  apply application_type_iff|apply sub_elements_iff|apply annotations_iff|apply presentation_iff|apply bits_iff|apply text_props_iff|apply pointer_iff|
  apply impl_policy_iff|apply array_policy_iff|apply handling_iff|apply semantics_iff|apply symbol_props_iff|apply array_element_iff|apply maps_iff|
  apply opt_text_cast_iff|apply base_type_iff|apply signature_iff|apply addr_iff|apply compu_iff|apply constraint_iff|apply impl_type_iff|
  apply unit_ref_iff|apply index_type_iff|apply record_elements_iff|apply unit_names_iff|apply opt_float_iff|apply opt_bool_iff|apply opt_count_iff|apply access_iff]; eassumption.
Ltac undo_all := repeat match goal with
  | H : bind _ _ = Ok _ |- _ => let x := fresh "x" in let E := fresh "E" in apply bind_iff in H as (x & E & H); try conv_to E
  | H : Ok _ = Ok _ |- _ => injection H as <-
  end.
Ltac redo_all := repeat (apply bind_iff; first [exists tt; split; [apply keywords_iff; eassumption|]|eexists; split; [conv_of|]]; cbv beta iota).
Lemma new_bits_iff kw b : new_bit_representation kw = Ok b <-> describes_bits kw b.
Proof. unfold new_bit_representation, describes_bits. split; [intros H; undo_all; splits; assumption|]. intros (H1 & H2 & H3). destruct b. cbn in *. redo_all. reflexivity. Qed.
Lemma new_text_props_iff kw t : new_text_props kw = Ok t <-> describes_text_props kw t.
Proof. unfold new_text_props, describes_text_props. split; [intros H; undo_all; splits; assumption|]. intros (H1 & H2 & H3 & H4 & H5). destruct t. cbn in *. redo_all. reflexivity. Qed.
Lemma new_pointer_iff kw p : new_pointer_target_props kw = Ok p <-> describes_pointer kw p.
Proof. unfold new_pointer_target_props, describes_pointer. split; [intros H; undo_all; splits; assumption|]. intros (H1 & H2 & H3 & H4). destruct p. cbn in *. redo_all. reflexivity. Qed.
Lemma new_conditional_iff kw c : new_conditional kw = Ok c <-> describes_conditional kw c.
Proof.
  unfold new_conditional, describes_conditional. split; [intros H; undo_all; splits; assumption|].
  intros (H0 & H1 & H2 & H3 & H4 & H5 & H6 & H7 & H8 & H9 & H10 & H11 & H12 & H13 & H14 & H15 & H16 & H17 & H18 & H19 & H20). destruct c. cbn in H1, H2, H3, H4, H5, H6, H7, H8, H9, H10, H11, H12, H13, H14, H15, H16, H17, H18, H19, H20.
  redo_all. reflexivity.
Qed.
Lemma new_props_iff a p : new_props a = Ok p <-> (a = ANone /\ SwDataDefProps_variants p = []) \/ means_list (is_a OSwDataDefPropsConditional) a (SwDataDefProps_variants p).
Proof.
  unfold new_props. destruct p as [l]. cbn [SwDataDefProps_variants].
  assert (F : forall a x, strict conditional_of a = Ok x <-> is_a OSwDataDefPropsConditional a x) by (intros b x; apply strict_iff; is_pick).
  assert (L : a <> ANone -> (one_or_list (strict conditional_of) a = Ok l <-> means_list (is_a OSwDataDefPropsConditional) a l)).
  { intros N. apply one_or_list_means; [exact N|intros x E; discriminate E|intros r x E; discriminate E|exact F]. }
  split.
  - intros E. apply bind_iff in E as (r & E & H). injection H as ->. destruct a; try (right; apply L; [discriminate|exact E]). injection E as <-. now left.
  - intros [[-> ->]|M]; [reflexivity|]. assert (N : a <> ANone) by (intros ->; inversion M as [b x H|]; discriminate H). apply bind_iff. exists l. split; [now apply L|reflexivity].
Qed.
Lemma new_symbol_iff name kw s : new_symbol_props name kw = Ok s <-> describes_symbol name kw s.
Proof. unfold new_symbol_props, describes_symbol. split; [intros H; undo_all; splits; (assumption || reflexivity)|]. intros (H1 & H2 & H3). destruct s. cbn in *. subst. redo_all. reflexivity. Qed.
Lemma new_type_element_iff name kw e : new_type_element name kw = Ok e <-> describes_type_element name kw e.
Proof.
  unfold new_type_element, describes_type_element. split; [intros H; undo_all; splits; assumption|].
  intros (H0 & H1 & H2 & H3 & H4 & H5 & H6 & H7 & H8). destruct e. cbn in H1, H2, H3, H4, H5, H6, H7, H8. redo_all. reflexivity.
Qed.
Lemma new_type_iff name kw i p : new_type name kw = Ok (i, p) <-> describes_type name kw i p.
Proof.
  unfold new_type, describes_type. split.
  - intros H. apply bind_iff in H as (x & E & H). conv_to E. apply bind_iff in H as (y & E1 & H). conv_to E1. injection H as <- <-. auto.
  - intros (H1 & H2). redo_all. reflexivity.
Qed.
Lemma new_implementation_type_iff name kw t : new_implementation_type name kw = Ok t <-> describes_implementation_type name kw t.
Proof.
  unfold new_implementation_type, describes_implementation_type. split.
  - intros H. apply bind_iff in H as (u & K & H). apply keywords_iff in K. apply bind_iff in H as ((i & p) & E & H). apply new_type_iff in E. undo_all. splits; assumption.
  - intros (K & D & H1 & H2 & H3 & H4 & H5). destruct t. cbn in D, H1, H2, H3, H4, H5. apply bind_iff. exists tt. split; [now apply keywords_iff|].
    apply bind_iff. eexists. split; [apply new_type_iff; eassumption|]. cbv beta iota. redo_all. reflexivity.
Qed.
Lemma new_primitive_iff name kw t : new_primitive_type name kw = Ok t <-> describes_primitive name kw t.
Proof.
  unfold new_primitive_type, describes_primitive. split.
  - intros H. apply bind_iff in H as (u & K & H). apply keywords_iff in K. apply bind_iff in H as ((i & p) & E & H). apply new_type_iff in E. undo_all. split; assumption.
  - intros (K & D). destruct t. cbn in D. apply bind_iff. exists tt. split; [now apply keywords_iff|]. apply bind_iff. eexists. split; [apply new_type_iff; eassumption|]. reflexivity.
Qed.
Lemma new_composite_iff name kw i p t : new_composite_element name kw = Ok (i, p, t) <-> describes_composite name kw i p t.
Proof.
  unfold new_composite_element, describes_composite. split.
  - intros H. apply bind_iff in H as (x & E & H). conv_to E. apply bind_iff in H as (y & E1 & H). conv_to E1. apply bind_iff in H as (w & E2 & H). conv_to E2. injection H as <- <- <-. auto.
  - intros (H1 & H2 & H3). redo_all. reflexivity.
Qed.
Lemma new_array_element_iff name kw e : new_array_element name kw = Ok e <-> describes_array_element name kw e.
Proof.
  unfold new_array_element, describes_array_element. split.
  - intros H. apply bind_iff in H as (u & K & H). apply keywords_iff in K. apply bind_iff in H as (((i & p) & t) & E & H). apply new_composite_iff in E. undo_all. splits; assumption.
  - intros (K & D & H1 & H2 & H3 & H4). destruct e. cbn in D, H1, H2, H3, H4. apply bind_iff. exists tt. split; [now apply keywords_iff|].
    apply bind_iff. eexists. split; [apply new_composite_iff; eassumption|]. cbv beta iota. redo_all. reflexivity.
Qed.
Lemma new_array_iff name kw t : new_array_type name kw = Ok t <-> describes_array name kw t.
Proof.
  unfold new_array_type, describes_array. split.
  - intros H. apply bind_iff in H as (u & K & H). apply keywords_iff in K. apply bind_iff in H as ((i & p) & E & H). apply new_type_iff in E. undo_all. splits; assumption.
  - intros (K & D & H1 & H2). destruct t. cbn in D, H1, H2. apply bind_iff. exists tt. split; [now apply keywords_iff|].
    apply bind_iff. eexists. split; [apply new_type_iff; eassumption|]. cbv beta iota. redo_all. reflexivity.
Qed.
Lemma new_record_element_iff name kw e : new_record_element name kw = Ok e <-> describes_record_element name kw e.
Proof.
  unfold new_record_element, describes_record_element. split.
  - intros H. apply bind_iff in H as (u & K & H). apply keywords_iff in K. apply bind_iff in H as (((i & p) & t) & E & H). apply new_composite_iff in E. undo_all. splits; assumption.
  - intros (K & D & H1). destruct e. cbn in D, H1. apply bind_iff. exists tt. split; [now apply keywords_iff|].
    apply bind_iff. eexists. split; [apply new_composite_iff; eassumption|]. cbv beta iota. redo_all. reflexivity.
Qed.
Lemma new_record_iff name kw t : new_record_type name kw = Ok t <-> describes_record name kw t.
Proof.
  unfold new_record_type, describes_record. split.
  - intros H. apply bind_iff in H as (u & K & H). apply keywords_iff in K. apply bind_iff in H as ((i & p) & E & H). apply new_type_iff in E. undo_all. splits; assumption.
  - intros (K & D & H1). destruct t. cbn in D, H1. apply bind_iff. exists tt. split; [now apply keywords_iff|].
    apply bind_iff. eexists. split; [apply new_type_iff; eassumption|]. cbv beta iota. redo_all. reflexivity.
Qed.
Lemma new_mapping_set_iff name kw s : new_mapping_set name kw = Ok s <-> describes_mapping_set name kw s.
Proof. unfold new_mapping_set, describes_mapping_set. split; [intros H; undo_all; splits; assumption|]. intros (H1 & H2 & H3). destruct s. cbn in *. redo_all. reflexivity. Qed.
