(** Elements modelled by hand: what XML can carry, and how they are read back. *)
From Verif Require Import Base MNum SNum MXml SXml MEnum MRefTab MRef SEnum MCodec SCodec MElem0 MElemA.

(** A limit that is not set has the default type. *)
Definition limit_ok {A} (P : A -> Prop) (o : option A) (ty : IntervalType) : Prop :=
  match o with None => ty = IntervalType_CLOSED | Some a => P a end.
Definition good_numeric (a : scalar) : Prop := match a with SNum n => good_number n | SText _ => False end.
Definition reread_scalar (a : scalar) : scalar := match a with SNum n => SNum (reread n) | SText s => SText s end.

Definition good_CompuConst (e : CompuConst) : Prop :=
  match CompuConst_value e with Some (SText s) => good_text s | Some (SNum n) => good_number n | None => False end.
Definition norm_CompuConst (e : CompuConst) : CompuConst := mkCompuConst (option_map reread_scalar (CompuConst_value e)).
Definition good_CompuRational (e : CompuRational) : Prop :=
  CompuRational_numerator e <> None /\ opt_ok (all_ok good_number) (CompuRational_numerator e) /\
  opt_ok (all_ok good_number) (CompuRational_denominator e).
Definition norm_CompuRational (e : CompuRational) : CompuRational :=
  mkCompuRational (option_map (map reread) (CompuRational_numerator e)) (option_map (map reread) (CompuRational_denominator e)).
Definition good_CompuScaleContent (e : CompuScaleContent) : Prop :=
  match e with ScaleConst c => good_CompuConst c | ScaleRational r => good_CompuRational r end.
Definition norm_CompuScaleContent (e : CompuScaleContent) : CompuScaleContent :=
  match e with ScaleConst c => ScaleConst (norm_CompuConst c) | ScaleRational r => ScaleRational (norm_CompuRational r) end.
Definition good_CompuScale (e : CompuScale) : Prop :=
  opt_ok good_CompuScaleContent (CompuScale_content e) /\
  limit_ok good_numeric (CompuScale_lower_limit e) (CompuScale_lower_limit_type e) /\
  limit_ok good_numeric (CompuScale_upper_limit e) (CompuScale_upper_limit_type e) /\
  opt_ok good_text (CompuScale_label e) /\ opt_ok good_text (CompuScale_symbol e) /\
  opt_ok (all_ok good_lang) (CompuScale_desc e) /\ opt_ok good_CompuConst (CompuScale_inverse_value e).
Definition norm_CompuScale (e : CompuScale) : CompuScale :=
  mkCompuScale (option_map norm_CompuScaleContent (CompuScale_content e))
    (option_map reread_scalar (CompuScale_lower_limit e)) (option_map reread_scalar (CompuScale_upper_limit e))
    (CompuScale_label e) (CompuScale_symbol e) (CompuScale_desc e) (CompuScale_mask e)
    (option_map norm_CompuConst (CompuScale_inverse_value e)) (CompuScale_lower_limit_type e) (CompuScale_upper_limit_type e).
Definition good_Computation (e : Computation) : Prop :=
  opt_ok (all_ok good_CompuScale) (Computation_compu_scales e) /\ opt_ok good_CompuConst (Computation_default_value e).
Definition norm_Computation (e : Computation) : Computation :=
  mkComputation (option_map (map norm_CompuScale) (Computation_compu_scales e)) (option_map norm_CompuConst (Computation_default_value e)).
Definition good_CompuMethod (e : CompuMethod) : Prop :=
  good_ident (CompuMethod_ident e) /\ opt_ok good_Computation (CompuMethod_int_to_phys e) /\
  opt_ok good_Computation (CompuMethod_phys_to_int e) /\ opt_ok (good_ref rc_UnitRef) (CompuMethod_unit_ref e) /\
  opt_ok good_text (CompuMethod_display_format e).
Definition norm_CompuMethod (e : CompuMethod) : CompuMethod :=
  mkCompuMethod (CompuMethod_ident e) (option_map norm_Computation (CompuMethod_int_to_phys e))
    (option_map norm_Computation (CompuMethod_phys_to_int e)) (CompuMethod_unit_ref e) (CompuMethod_display_format e).

(** The validity of a scale constraint is written but never read. *)
Definition good_ScaleConstraint (e : ScaleConstraint) : Prop :=
  limit_ok good_number (ScaleConstraint_lower_limit e) (ScaleConstraint_lower_limit_type e) /\
  limit_ok good_number (ScaleConstraint_upper_limit e) (ScaleConstraint_upper_limit_type e) /\
  opt_ok good_text (ScaleConstraint_label e) /\ opt_ok (all_ok good_lang) (ScaleConstraint_desc e).
Definition norm_ScaleConstraint (e : ScaleConstraint) : ScaleConstraint :=
  mkScaleConstraint (option_map reread (ScaleConstraint_lower_limit e)) (option_map reread (ScaleConstraint_upper_limit e))
    (ScaleConstraint_lower_limit_type e) (ScaleConstraint_upper_limit_type e) (ScaleConstraint_label e) (ScaleConstraint_desc e) None.
Definition good_ConstraintBase (e : ConstraintBase) : Prop :=
  limit_ok good_number (ConstraintBase_lower_limit e) (ConstraintBase_lower_limit_type e) /\
  limit_ok good_number (ConstraintBase_upper_limit e) (ConstraintBase_upper_limit_type e) /\
  all_ok good_ScaleConstraint (ConstraintBase_scale_constrs e) /\
  opt_ok good_number (ConstraintBase_max_gradient e) /\ opt_ok good_number (ConstraintBase_max_diff e).
Definition norm_ConstraintBase (e : ConstraintBase) : ConstraintBase :=
  mkConstraintBase (option_map reread (ConstraintBase_lower_limit e)) (option_map reread (ConstraintBase_upper_limit e))
    (ConstraintBase_lower_limit_type e) (ConstraintBase_upper_limit_type e) (map norm_ScaleConstraint (ConstraintBase_scale_constrs e))
    (option_map reread (ConstraintBase_max_gradient e)) (option_map reread (ConstraintBase_max_diff e)) (ConstraintBase_monotony e).
Definition good_InternalConstraint (e : InternalConstraint) : Prop := good_ConstraintBase (InternalConstraint_base e).
Definition norm_InternalConstraint (e : InternalConstraint) : InternalConstraint := mkInternalConstraint (norm_ConstraintBase (InternalConstraint_base e)).
Definition good_PhysicalConstraint (e : PhysicalConstraint) : Prop :=
  good_ConstraintBase (PhysicalConstraint_base e) /\ opt_ok (good_ref rc_UnitRef) (PhysicalConstraint_unit_ref e).
Definition norm_PhysicalConstraint (e : PhysicalConstraint) : PhysicalConstraint :=
  mkPhysicalConstraint (norm_ConstraintBase (PhysicalConstraint_base e)) (PhysicalConstraint_unit_ref e).
Definition good_DataConstraintRule (e : DataConstraintRule) : Prop :=
  opt_ok good_InternalConstraint (DataConstraintRule_internal e) /\ opt_ok good_PhysicalConstraint (DataConstraintRule_physical e).
Definition norm_DataConstraintRule (e : DataConstraintRule) : DataConstraintRule :=
  mkDataConstraintRule (option_map norm_InternalConstraint (DataConstraintRule_internal e))
    (option_map norm_PhysicalConstraint (DataConstraintRule_physical e)) (DataConstraintRule_level e).
Definition good_DataConstraint (e : DataConstraint) : Prop :=
  good_ident (DataConstraint_ident e) /\ all_ok good_DataConstraintRule (DataConstraint_rules e).
Definition norm_DataConstraint (e : DataConstraint) : DataConstraint :=
  mkDataConstraint (DataConstraint_ident e) (map norm_DataConstraintRule (DataConstraint_rules e)).

(** Numbers with a format: hexadecimal and binary values of non-negative ints keep their format;
    the default and the decimal format are not distinguished from a bare number. *)
Definition good_value (n : number) : Prop :=
  match n with
  | Bare n => good_number n
  | Wrapped n => match nv_format n with
                 | FMT_DEFAULT | FMT_DECIMAL => good_number (nv_value n)
                 | FMT_HEXADECIMAL | FMT_BINARY => exists z, nv_value n = NInt z /\ (0 <= z)%Z
                 | FMT_SCIENTIFIC => False
                 end
  end.
Definition norm_value (n : number) : number :=
  match n with
  | Bare n => Bare (reread n)
  | Wrapped n => match nv_format n with
                 | FMT_DEFAULT | FMT_DECIMAL => Bare (reread (nv_value n))
                 | _ => Wrapped n
                 end
  end.
Definition good_ValueList (e : ValueList) : Prop := all_ok good_value (ValueList_values e).
Definition norm_ValueList (e : ValueList) : ValueList := mkValueList (map norm_value (ValueList_values e)).
Fixpoint good_sw_value (e : sw_value) : Prop :=
  match e with
  | SwText o => match o with None => False | Some s => good_text s end
  | SwNumber n => good_value n
  | SwGroup l vs => opt_ok (all_ok good_lang) l /\ all_ok good_sw_value vs
  end.
Fixpoint norm_sw_value (e : sw_value) : sw_value :=
  match e with
  | SwText s => SwText s
  | SwNumber n => SwNumber (norm_value n)
  | SwGroup l vs => SwGroup l (map norm_sw_value vs)
  end.
Definition good_SwValues (e : SwValues) : Prop := all_ok good_sw_value (SwValues_values e).
Definition norm_SwValues (e : SwValues) : SwValues := mkSwValues (map norm_sw_value (SwValues_values e)).
(** A text that looks like an int is read back as that int. *)
Definition good_index (i : index) : Prop := match i with IInt _ => True | IText s => good_text s /\ int10 s = None end.
Definition good_SwAxisCont (e : SwAxisCont) : Prop :=
  opt_ok (good_ref rc_UnitRef) (SwAxisCont_unit_ref e) /\ opt_ok good_names (SwAxisCont_unit_display_name e) /\
  opt_ok good_index (SwAxisCont_sw_axis_index e) /\ opt_ok good_ValueList (SwAxisCont_sw_array_size e) /\
  opt_ok good_SwValues (SwAxisCont_sw_values_phys e).
Definition norm_SwAxisCont (e : SwAxisCont) : SwAxisCont :=
  mkSwAxisCont (SwAxisCont_category e) (SwAxisCont_unit_ref e) (option_map merged (SwAxisCont_unit_display_name e))
    (SwAxisCont_sw_axis_index e) (option_map norm_ValueList (SwAxisCont_sw_array_size e)) (option_map norm_SwValues (SwAxisCont_sw_values_phys e)).
Definition good_SwAddrMethod (e : SwAddrMethod) : Prop := good_ident (SwAddrMethod_ident e).
