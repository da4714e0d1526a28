(** Nested elements modelled by hand: what XML can carry, and how they are read back. *)
From Verif Require Import Base MNum SNum MXml SXml MEnum MRefTab MRef SEnum MCodec SCodec MElem0 MElem1 SElem1 MElemA SElemA MElemB.

(** An alignment is an int, or a text that the class accepts and that does not look like an int. *)
Definition good_alignment (i : index) : Prop :=
  match i with IInt _ => True | IText s => good_text s /\ alignment_ok s = true /\ int0 s = None end.
Definition good_display_format (s : string) : Prop := good_text s /\ display_format_ok s = true.
Definition good_SwPointerTargetProps_ {R} (ok : R -> Prop) (e : SwPointerTargetProps_ R) : Prop :=
  opt_ok good_text (SwPointerTargetProps_target_category e) /\ opt_ok ok (SwPointerTargetProps_sw_data_def_props e) /\
  opt_ok (good_ref rc_FunctionPtrSignatureRef) (SwPointerTargetProps_function_ptr_signature_ref e).
Definition norm_SwPointerTargetProps_ {R} (f : R -> R) (e : SwPointerTargetProps_ R) : SwPointerTargetProps_ R :=
  mkSwPointerTargetProps (SwPointerTargetProps_target_category e) (option_map f (SwPointerTargetProps_sw_data_def_props e))
    (SwPointerTargetProps_function_ptr_signature_ref e).
Definition good_SwDataDefPropsConditional_ {P} (ok : P -> Prop) (e : SwDataDefPropsConditional_ P) : Prop :=
  opt_ok good_float (dd_step_size e) /\ all_ok good_annotation (dd_annotations e) /\
  opt_ok (good_ref rc_SwAddrMethodRef) (dd_sw_addr_method_ref e) /\ opt_ok good_alignment (dd_alignment e) /\
  opt_ok (good_ref rc_SwBaseTypeRef) (dd_base_type_ref e) /\ opt_ok good_SwBitRepresentation (dd_bit_representation e) /\
  opt_ok good_SwTextProps (dd_text_props e) /\ opt_ok (good_ref rc_CompuMethodRef) (dd_compu_method_ref e) /\
  opt_ok (good_ref rc_DataConstraintRef) (dd_data_constraint_ref e) /\ opt_ok good_display_format (dd_display_format e) /\
  opt_ok (good_ref rc_ImplementationDataTypeRef) (dd_impl_data_type_ref e) /\
  opt_ok good_text (dd_additional_native_type_qualifier e) /\ opt_ok good_number (dd_intended_resolution e) /\
  opt_ok good_text (dd_interpolation_method e) /\ opt_ok ok (dd_ptr_target_props e) /\ opt_ok (good_ref rc_UnitRef) (dd_unit_ref e).
(** Only the first annotation is read back. *)
Definition first_only {A} (l : list A) : list A := match l with [] => [] | a :: _ => [a] end.
Definition norm_SwDataDefPropsConditional_ {P} (f : P -> P) (e : SwDataDefPropsConditional_ P) : SwDataDefPropsConditional_ P :=
  mkSwDataDefPropsConditional (dd_display_presentation e) (dd_step_size e) (first_only (dd_annotations e)) (dd_sw_addr_method_ref e)
    (dd_alignment e) (dd_base_type_ref e) (dd_bit_representation e) (dd_calibration_access e) (dd_text_props e) (dd_compu_method_ref e)
    (dd_data_constraint_ref e) (dd_display_format e) (dd_impl_data_type_ref e) (dd_impl_policy e) (dd_additional_native_type_qualifier e)
    (option_map reread (dd_intended_resolution e)) (dd_interpolation_method e) (dd_is_virtual e) (option_map f (dd_ptr_target_props e))
    (dd_unit_ref e).
Fixpoint good_SwDataDefProps (e : SwDataDefProps) : Prop :=
  match e with mkSwDataDefProps l => all_ok (good_SwDataDefPropsConditional_ (good_SwPointerTargetProps_ good_SwDataDefProps)) l end.
Fixpoint norm_SwDataDefProps (e : SwDataDefProps) : SwDataDefProps :=
  match e with
  | mkSwDataDefProps l =>
      mkSwDataDefProps (map (norm_SwDataDefPropsConditional_ (norm_SwPointerTargetProps_ norm_SwDataDefProps)) l)
  end.
Definition good_SwPointerTargetProps : SwPointerTargetProps -> Prop := good_SwPointerTargetProps_ good_SwDataDefProps.
Definition norm_SwPointerTargetProps : SwPointerTargetProps -> SwPointerTargetProps := norm_SwPointerTargetProps_ norm_SwDataDefProps.
Definition good_SwDataDefPropsConditional : SwDataDefPropsConditional -> Prop := good_SwDataDefPropsConditional_ good_SwPointerTargetProps.
Definition norm_SwDataDefPropsConditional : SwDataDefPropsConditional -> SwDataDefPropsConditional :=
  norm_SwDataDefPropsConditional_ norm_SwPointerTargetProps.

Fixpoint good_ImplementationDataTypeElement (e : ImplementationDataTypeElement) : Prop :=
  match e with
  | mkImplementationDataTypeElement ident props size _ _ _ sub _ =>
      good_ident_no_uuid ident /\ opt_ok good_SwDataDefProps props /\ opt_ok (fun z => (0 <= z)%Z) size /\
      all_ok good_ImplementationDataTypeElement sub
  end.
Fixpoint norm_ImplementationDataTypeElement (e : ImplementationDataTypeElement) : ImplementationDataTypeElement :=
  match e with
  | mkImplementationDataTypeElement ident props size policy handling semantics sub optional =>
      mkImplementationDataTypeElement ident (option_map norm_SwDataDefProps props) size policy handling semantics
        (map norm_ImplementationDataTypeElement sub) optional
  end.

Definition good_SwValueCont (e : SwValueCont) : Prop :=
  opt_ok (good_ref rc_UnitRef) (SwValueCont_unit_ref e) /\ opt_ok good_names (SwValueCont_unit_display_name e) /\
  opt_ok good_ValueList (SwValueCont_sw_array_size e) /\ opt_ok good_SwValues (SwValueCont_sw_values_phys e).
Definition norm_SwValueCont (e : SwValueCont) : SwValueCont :=
  mkSwValueCont (SwValueCont_unit_ref e) (option_map merged (SwValueCont_unit_display_name e))
    (option_map norm_ValueList (SwValueCont_sw_array_size e)) (option_map norm_SwValues (SwValueCont_sw_values_phys e)).
(** A numerical value specification: hexadecimal and binary texts cannot be read back. *)
Definition good_plain (n : number) : Prop :=
  match n with
  | Bare n => good_number n
  | Wrapped n => (nv_format n = FMT_DEFAULT \/ nv_format n = FMT_DECIMAL) /\ good_number (nv_value n)
  end.
Definition norm_plain (n : number) : number := match n with Bare n => Bare (reread n) | Wrapped n => Bare (reread (nv_value n)) end.
Fixpoint good_ValueSpecificationElement (e : ValueSpecificationElement) : Prop :=
  match e with
  | TextValueSpecification label value => opt_ok good_text label /\ opt_ok good_text value
  | NumericalValueSpecification label value => opt_ok good_text label /\ opt_ok good_plain value
  | NotAvailableValueSpecification label default_pattern => opt_ok good_text label /\ opt_ok (fun z => (0 <= z)%Z) default_pattern
  | ArrayValueSpecification label l => opt_ok good_text label /\ all_ok good_ValueSpecificationElement l
  | RecordValueSpecification label l => opt_ok good_text label /\ all_ok good_ValueSpecificationElement l
  | ApplicationValueSpecification label category axes cont =>
      opt_ok good_text label /\ opt_ok good_text category /\ all_ok good_SwAxisCont axes /\ opt_ok good_SwValueCont cont
  | ConstantReference label r => opt_ok good_text label /\ opt_ok (good_ref rc_ConstantRef) r
  end.
Fixpoint norm_ValueSpecificationElement (e : ValueSpecificationElement) : ValueSpecificationElement :=
  match e with
  | NumericalValueSpecification label value => NumericalValueSpecification label (option_map norm_plain value)
  | ArrayValueSpecification label l => ArrayValueSpecification label (map norm_ValueSpecificationElement l)
  | RecordValueSpecification label l => RecordValueSpecification label (map norm_ValueSpecificationElement l)
  | ApplicationValueSpecification label category axes cont =>
      ApplicationValueSpecification label category (map norm_SwAxisCont axes) (option_map norm_SwValueCont cont)
  | e => e
  end.
