(** Which calibration values, value specifications and constants given arguments describe,
    independently of how they are made. *)
From Verif Require Import Base MNum MXml MEnum MRefTab MRef MCodec MElem0 MElem1 MElemA MElemB MElemC MElem2 MElemD MElem3 MElem4 MElemE MElem5 MElemF MArxml MFind MValue MEvent MPort SPort MAccess SAccess MRunnable SRunnable MIface SIface MData SFormat SData.
Open Scope list_scope.

(** One thing or a list of things; what is neither counts as nothing. *)
Inductive means_if_any {A} (means : arg -> A -> Prop) : arg -> list A -> Prop :=
| any_one a x : means a x -> means_if_any means a [x]
| any_list l xs : Forall2 means l xs -> means_if_any means (AList l) xs
| any_other a : (forall x, ~ means a x) -> (forall l, a <> AList l) -> means_if_any means a [].

(** ** Lists of values *)
Inductive means_any_number : arg -> number -> Prop :=
| any_number a n : means_number a n -> means_any_number a (Bare n)
| any_numerical v : means_any_number (AObj (ONumericalValue v)) (Wrapped v).
(** A number alone, numbers in a list or tuple, or something empty; not a NumericalValue alone. *)
Inductive means_numbers : arg -> list number -> Prop :=
| numbers_none : means_numbers ANone []
| numbers_one a n : means_number a n -> means_numbers a [Bare n]
| numbers_list l ns : Forall2 means_any_number l ns -> means_numbers (AList l) ns
| numbers_tuple l ns : Forall2 means_any_number l ns -> means_numbers (ATuple l) ns
| numbers_no_text : means_numbers (AStr "") []
| numbers_no_keys : means_numbers (ADict []) []
| numbers_no_props p : SwDataDefProps_variants p = [] -> means_numbers (AObj (OSwDataDefProps p)) [].
Inductive means_sw_value : arg -> sw_value -> Prop :=
| sw_text s : means_sw_value (AStr s) (SwText (Some s))
| sw_number a n : means_any_number a n -> means_sw_value a (SwNumber n)
| sw_group label values : means_sw_value (AObj (OValueGroup label values)) (SwGroup label values).
(** The label of a group: a long name, one text of a long name, or a tuple of a language and a text. *)
Inductive means_label : arg -> list lang_text -> Prop :=
| label_long_name l : means_label (AObj (OLongName l)) l
| label_text t : means_label (AObj (OLanguageLongName t)) [t]
| label_tuple g s rest : means_label (ATuple (AObj (OLanguage g) :: AStr s :: rest)) [mkLang g [PText s]]
| label_no_text g rest : means_label (ATuple (AObj (OLanguage g) :: ANone :: rest)) [mkLang g []].
Definition describes_group (kw : keyword_args) (label : option (list lang_text)) (values : list sw_value) : Prop :=
  only ["label"; "values"] kw /\ holds means_label kw "label" label /\ holds_list (means_if_any means_sw_value) kw "values" values.

(** ** Containers of calibration values *)
Inductive means_index : arg -> index -> Prop :=
| index_int z : means_index (ANum (NInt z)) (IInt z)
| index_text s : means_index (AStr s) (IText s)
| index_false : means_index (ABool false) (IText "False")
| index_true : means_index (ABool true) (IText "True").
(** Values, or a group of values without its label. *)
Inductive means_values : arg -> SwValues -> Prop :=
| values_object v : means_values (AObj (OSwValues v)) v
| values_group label values : means_values (AObj (OValueGroup label values)) (mkSwValues values).
Definition describes_axis (kw : keyword_args) (c : SwAxisCont) : Prop :=
  only ["category"; "unit_ref"; "unit_display_name"; "sw_axis_index"; "sw_array_size"; "sw_values_phys"] kw /\
  holds (is_a OCalibrationAxisCategory) kw "category" (SwAxisCont_category c) /\
  holds (of_class "UnitRef") kw "unit_ref" (SwAxisCont_unit_ref c) /\
  holds (is_a OUnitNames) kw "unit_display_name" (SwAxisCont_unit_display_name c) /\
  holds means_index kw "sw_axis_index" (SwAxisCont_sw_axis_index c) /\
  holds (is_a OValueList) kw "sw_array_size" (SwAxisCont_sw_array_size c) /\
  holds means_values kw "sw_values_phys" (SwAxisCont_sw_values_phys c).
Definition describes_value_cont (kw : keyword_args) (c : SwValueCont) : Prop :=
  only ["unit_ref"; "unit_display_name"; "sw_array_size"; "sw_values_phys"] kw /\
  holds (of_class "UnitRef") kw "unit_ref" (SwValueCont_unit_ref c) /\
  holds (is_a OUnitNames) kw "unit_display_name" (SwValueCont_unit_display_name c) /\
  holds (is_a OValueList) kw "sw_array_size" (SwValueCont_sw_array_size c) /\
  holds means_values kw "sw_values_phys" (SwValueCont_sw_values_phys c).

(** ** Value specifications and constants *)
Definition describes_application (kw : keyword_args) (category : option string) (axes : list SwAxisCont) (value : option SwValueCont) : Prop :=
  only ["category"; "sw_axis_conts"; "sw_value_cont"] kw /\
  holds (fun a s => a = AStr s) kw "category" category /\
  holds_list (means_list (is_a OSwAxisCont)) kw "sw_axis_conts" axes /\
  holds (is_a OSwValueCont) kw "sw_value_cont" value.
(** The reference held by a constant reference: a text or a reference of class ConstantRef. *)
Inductive means_constant : arg -> option ref -> Prop :=
| constant_none : means_constant ANone None
| constant_text s : means_constant (AStr s) (Some (mkRef s IdentifiableSubTypes_CONSTANT_SPECIFICATION))
| constant_ref a r : of_class "ConstantRef" a r -> means_constant a (Some r).
Definition describes_constant (name : string) (kw : keyword_args) (c : ConstantSpecification) : Prop :=
  only ("value" :: common_arguments) kw /\ identity name kw (ConstantSpecification_ident c) /\
  holds means_value_specification kw "value" (ConstantSpecification_value c).
