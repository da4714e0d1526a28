(** When an element read back is the element that was written: relations that mention neither the
    writer nor the reader, nor the [norm_] functions. *)
From Verif Require Import Base MNum SNum MXml MEnum MRefTab MRef MCodec MElem0 MElem1 MElemA MElemB MElem2 MStr.
Open Scope list_scope.

(** [a] is written as a text that is read as [a']. *)
Definition reloads_as {A} (write : A -> out) (read : xml -> result A) (a a' : A) : Prop :=
  exists text, element_text (write a) = Ok text /\ read_element read text = Ok a'.

Definition opt_rel {A} (R : A -> A -> Prop) (o o' : option A) : Prop :=
  match o, o' with None, None => True | Some a, Some b => R a b | _, _ => False end.

(** ** Values *)

(** The number, with or without a format. *)
Definition number_of (n : number) : pynum := match n with Bare n => n | Wrapped n => nv_value n end.
Definition same_numeral (a b : number) : Prop := same_number (number_of a) (number_of b).
Inductive same_sw_value : sw_value -> sw_value -> Prop :=
| same_sw_text s : same_sw_value (SwText s) (SwText s)
| same_sw_number a b : same_numeral a b -> same_sw_value (SwNumber a) (SwNumber b)
| same_sw_group label l l' : Forall2 same_sw_value l l' -> same_sw_value (SwGroup label l) (SwGroup label l').
Definition same_ValueList (a b : ValueList) : Prop := Forall2 same_numeral (ValueList_values a) (ValueList_values b).
Definition same_SwValues (a b : SwValues) : Prop := Forall2 same_sw_value (SwValues_values a) (SwValues_values b).
(** Display names are compared character by character and inline element by inline element: how
    the text is divided into parts does not matter. *)
Definition characters (parts : list part) : list (ascii + inline_elem) :=
  flat_map (fun p => match p with PText s => map inl (list_ascii_of_string s) | PInline i => [inr i] end) parts.
Definition same_names (a b : SingleLanguageUnitNames) : Prop := characters a = characters b.
Definition same_SwAxisCont (a b : SwAxisCont) : Prop :=
  SwAxisCont_category a = SwAxisCont_category b /\ SwAxisCont_unit_ref a = SwAxisCont_unit_ref b /\
  opt_rel same_names (SwAxisCont_unit_display_name a) (SwAxisCont_unit_display_name b) /\
  SwAxisCont_sw_axis_index a = SwAxisCont_sw_axis_index b /\
  opt_rel same_ValueList (SwAxisCont_sw_array_size a) (SwAxisCont_sw_array_size b) /\
  opt_rel same_SwValues (SwAxisCont_sw_values_phys a) (SwAxisCont_sw_values_phys b).
Definition same_SwValueCont (a b : SwValueCont) : Prop :=
  SwValueCont_unit_ref a = SwValueCont_unit_ref b /\
  opt_rel same_names (SwValueCont_unit_display_name a) (SwValueCont_unit_display_name b) /\
  opt_rel same_ValueList (SwValueCont_sw_array_size a) (SwValueCont_sw_array_size b) /\
  opt_rel same_SwValues (SwValueCont_sw_values_phys a) (SwValueCont_sw_values_phys b).
(** The same tree, with the same labels, texts and references, and with the same numbers. *)
Inductive same_value_spec : ValueSpecificationElement -> ValueSpecificationElement -> Prop :=
| same_text label s : same_value_spec (TextValueSpecification label s) (TextValueSpecification label s)
| same_num label a b : opt_rel same_numeral a b -> same_value_spec (NumericalValueSpecification label a) (NumericalValueSpecification label b)
| same_na label p : same_value_spec (NotAvailableValueSpecification label p) (NotAvailableValueSpecification label p)
| same_array label l l' : Forall2 same_value_spec l l' -> same_value_spec (ArrayValueSpecification label l) (ArrayValueSpecification label l')
| same_record label l l' : Forall2 same_value_spec l l' -> same_value_spec (RecordValueSpecification label l) (RecordValueSpecification label l')
| same_app label c l l' o o' : Forall2 same_SwAxisCont l l' -> opt_rel same_SwValueCont o o' ->
    same_value_spec (ApplicationValueSpecification label c l o) (ApplicationValueSpecification label c l' o')
| same_const label r : same_value_spec (ConstantReference label r) (ConstantReference label r).

(** ** Computations *)
Definition same_scalar (a b : scalar) : Prop :=
  match a, b with SNum m, SNum n => same_number m n | SText s, SText t => s = t | _, _ => False end.
Definition same_CompuConst (a b : CompuConst) : Prop := opt_rel same_scalar (CompuConst_value a) (CompuConst_value b).
Definition same_numbers (l l' : list pynum) : Prop := Forall2 same_number l l'.
Definition same_content (a b : CompuScaleContent) : Prop :=
  match a, b with
  | ScaleConst c, ScaleConst d => same_CompuConst c d
  | ScaleRational r, ScaleRational s =>
      opt_rel same_numbers (CompuRational_numerator r) (CompuRational_numerator s) /\
      opt_rel same_numbers (CompuRational_denominator r) (CompuRational_denominator s)
  | _, _ => False
  end.
Definition same_CompuScale (a b : CompuScale) : Prop :=
  opt_rel same_content (CompuScale_content a) (CompuScale_content b) /\
  opt_rel same_scalar (CompuScale_lower_limit a) (CompuScale_lower_limit b) /\
  opt_rel same_scalar (CompuScale_upper_limit a) (CompuScale_upper_limit b) /\
  CompuScale_lower_limit_type a = CompuScale_lower_limit_type b /\ CompuScale_upper_limit_type a = CompuScale_upper_limit_type b /\
  CompuScale_label a = CompuScale_label b /\ CompuScale_symbol a = CompuScale_symbol b /\ CompuScale_desc a = CompuScale_desc b /\
  CompuScale_mask a = CompuScale_mask b /\ opt_rel same_CompuConst (CompuScale_inverse_value a) (CompuScale_inverse_value b).
Definition same_Computation (a b : Computation) : Prop :=
  opt_rel (Forall2 same_CompuScale) (Computation_compu_scales a) (Computation_compu_scales b) /\
  opt_rel same_CompuConst (Computation_default_value a) (Computation_default_value b).
Definition same_CompuMethod (a b : CompuMethod) : Prop :=
  CompuMethod_ident a = CompuMethod_ident b /\ opt_rel same_Computation (CompuMethod_int_to_phys a) (CompuMethod_int_to_phys b) /\
  opt_rel same_Computation (CompuMethod_phys_to_int a) (CompuMethod_phys_to_int b) /\
  CompuMethod_unit_ref a = CompuMethod_unit_ref b /\ CompuMethod_display_format a = CompuMethod_display_format b.

(** ** Constraints *)
(** Apart from the validity. *)
Definition same_ScaleConstraint (a b : ScaleConstraint) : Prop :=
  opt_rel same_number (ScaleConstraint_lower_limit a) (ScaleConstraint_lower_limit b) /\
  opt_rel same_number (ScaleConstraint_upper_limit a) (ScaleConstraint_upper_limit b) /\
  ScaleConstraint_lower_limit_type a = ScaleConstraint_lower_limit_type b /\
  ScaleConstraint_upper_limit_type a = ScaleConstraint_upper_limit_type b /\
  ScaleConstraint_label a = ScaleConstraint_label b /\ ScaleConstraint_desc a = ScaleConstraint_desc b.
Definition same_ConstraintBase (a b : ConstraintBase) : Prop :=
  opt_rel same_number (ConstraintBase_lower_limit a) (ConstraintBase_lower_limit b) /\
  opt_rel same_number (ConstraintBase_upper_limit a) (ConstraintBase_upper_limit b) /\
  ConstraintBase_lower_limit_type a = ConstraintBase_lower_limit_type b /\
  ConstraintBase_upper_limit_type a = ConstraintBase_upper_limit_type b /\
  Forall2 same_ScaleConstraint (ConstraintBase_scale_constrs a) (ConstraintBase_scale_constrs b) /\
  opt_rel same_number (ConstraintBase_max_gradient a) (ConstraintBase_max_gradient b) /\
  opt_rel same_number (ConstraintBase_max_diff a) (ConstraintBase_max_diff b) /\
  ConstraintBase_monotony a = ConstraintBase_monotony b.
Definition same_DataConstraintRule (a b : DataConstraintRule) : Prop :=
  opt_rel (fun x y => same_ConstraintBase (InternalConstraint_base x) (InternalConstraint_base y))
    (DataConstraintRule_internal a) (DataConstraintRule_internal b) /\
  opt_rel (fun x y => same_ConstraintBase (PhysicalConstraint_base x) (PhysicalConstraint_base y) /\
                      PhysicalConstraint_unit_ref x = PhysicalConstraint_unit_ref y)
    (DataConstraintRule_physical a) (DataConstraintRule_physical b) /\
  DataConstraintRule_level a = DataConstraintRule_level b.
Definition same_DataConstraint (a b : DataConstraint) : Prop :=
  DataConstraint_ident a = DataConstraint_ident b /\ Forall2 same_DataConstraintRule (DataConstraint_rules a) (DataConstraint_rules b).

(** ** Data types *)
(** Apart from the annotations after the first. *)
Definition same_conditional {P} (R : P -> P -> Prop) (a b : SwDataDefPropsConditional_ P) : Prop :=
  dd_display_presentation a = dd_display_presentation b /\ dd_step_size a = dd_step_size b /\
  hd_error (dd_annotations a) = hd_error (dd_annotations b) /\ dd_sw_addr_method_ref a = dd_sw_addr_method_ref b /\
  dd_alignment a = dd_alignment b /\ dd_base_type_ref a = dd_base_type_ref b /\ dd_bit_representation a = dd_bit_representation b /\
  dd_calibration_access a = dd_calibration_access b /\ dd_text_props a = dd_text_props b /\ dd_compu_method_ref a = dd_compu_method_ref b /\
  dd_data_constraint_ref a = dd_data_constraint_ref b /\ dd_display_format a = dd_display_format b /\
  dd_impl_data_type_ref a = dd_impl_data_type_ref b /\ dd_impl_policy a = dd_impl_policy b /\
  dd_additional_native_type_qualifier a = dd_additional_native_type_qualifier b /\
  opt_rel same_number (dd_intended_resolution a) (dd_intended_resolution b) /\
  dd_interpolation_method a = dd_interpolation_method b /\ dd_is_virtual a = dd_is_virtual b /\
  opt_rel R (dd_ptr_target_props a) (dd_ptr_target_props b) /\ dd_unit_ref a = dd_unit_ref b.
Definition same_pointer {Q} (R : Q -> Q -> Prop) (a b : SwPointerTargetProps_ Q) : Prop :=
  SwPointerTargetProps_target_category a = SwPointerTargetProps_target_category b /\
  opt_rel R (SwPointerTargetProps_sw_data_def_props a) (SwPointerTargetProps_sw_data_def_props b) /\
  SwPointerTargetProps_function_ptr_signature_ref a = SwPointerTargetProps_function_ptr_signature_ref b.
Fixpoint same_props (a b : SwDataDefProps) : Prop :=
  match a, b with
  | mkSwDataDefProps l, mkSwDataDefProps l' =>
      (fix all l l' := match l, l' with
                       | [], [] => True
                       | c :: r, c' :: r' => same_conditional (same_pointer same_props) c c' /\ all r r'
                       | _, _ => False
                       end) l l'
  end.
Fixpoint same_type_element (a b : ImplementationDataTypeElement) : Prop :=
  match a, b with
  | mkImplementationDataTypeElement ident props size policy handling semantics sub optional,
    mkImplementationDataTypeElement ident' props' size' policy' handling' semantics' sub' optional' =>
      ident = ident' /\ opt_rel same_props props props' /\ size = size' /\ policy = policy' /\ handling = handling' /\
      semantics = semantics' /\ optional = optional' /\
      (fix all l l' := match l, l' with
                       | [], [] => True
                       | c :: r, c' :: r' => same_type_element c c' /\ all r r'
                       | _, _ => False
                       end) sub sub'
  end.
Definition same_ImplementationDataType (a b : ImplementationDataType) : Prop :=
  ImplementationDataType_ident a = ImplementationDataType_ident b /\
  opt_rel same_props (ImplementationDataType_sw_data_def_props a) (ImplementationDataType_sw_data_def_props b) /\
  ImplementationDataType_dynamic_array_size_profile a = ImplementationDataType_dynamic_array_size_profile b /\
  ImplementationDataType_is_struct_with_optional_element a = ImplementationDataType_is_struct_with_optional_element b /\
  Forall2 same_type_element (ImplementationDataType_sub_elements a) (ImplementationDataType_sub_elements b) /\
  ImplementationDataType_symbol_props a = ImplementationDataType_symbol_props b /\
  ImplementationDataType_type_emitter a = ImplementationDataType_type_emitter b.
