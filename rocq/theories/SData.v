(** Which data definition properties, data types, mapping sets and units given arguments describe,
    independently of how they are made. *)
From Verif Require Import Base MNum MXml MEnum MRefTab MRef MCodec MElem0 MElem1 MElemA MElemB MElemC MElem2 MElemD MElem3 MElem4 MElemE MElem5 MElemF MArxml MFind MValue MEvent MPort SPort MAccess SAccess MRunnable SRunnable MIface SIface MData SFormat.
From Verif Require SLiteral.
Open Scope list_scope.

(** ** Numbers *)
(** [z] is c times 10 to the power e, negative or not, without its fraction. *)
Definition truncates (negative : bool) (c : N) (e : Z) (z : Z) : Prop :=
  (if negative then z <= 0 else 0 <= z)%Z /\
  (Z.abs z * 10 ^ Z.max 0 (- e) <= Z.of_N c * 10 ^ Z.max 0 e < (Z.abs z + 1) * 10 ^ Z.max 0 (- e))%Z.
(** What becomes an int: numbers without their fraction, and decimal texts. *)
Inductive means_whole : arg -> Z -> Prop :=
| whole_int z : means_whole (ANum (NInt z)) z
| whole_float negative c e z : truncates negative c e z -> means_whole (ANum (NFloat (FFin negative c e))) z
| whole_text s z : SLiteral.decimal_text s z -> means_whole (AStr s) z
| whole_false : means_whole (ABool false) 0
| whole_true : means_whole (ABool true) 1.
Inductive means_number : arg -> pynum -> Prop :=
| number_given n : means_number (ANum n) n
| number_false : means_number (ABool false) (NInt 0)
| number_true : means_number (ABool true) (NInt 1).
Inductive means_alignment : arg -> index -> Prop :=
| alignment_int z : means_alignment (ANum (NInt z)) (IInt z)
| alignment_text s : starts_like alignment_pattern s -> means_alignment (AStr s) (IText s)
| alignment_false : means_alignment (ABool false) (IText "False")
| alignment_true : means_alignment (ABool true) (IText "True").
Inductive means_format : arg -> string -> Prop :=
| format_text s : starts_like display_format_pattern s -> means_format (AStr s) s.
(** Objects in a list or tuple; also empty things of other kinds, but not a single object. *)
Inductive means_several {A} (make : A -> lib_object) : arg -> list A -> Prop :=
| several_list l : means_several make (AList (map (fun x => AObj (make x)) l)) l
| several_tuple l : means_several make (ATuple (map (fun x => AObj (make x)) l)) l
| several_no_text : means_several make (AStr "") []
| several_no_keys : means_several make (ADict []) []
| several_no_props p : SwDataDefProps_variants p = [] -> means_several make (AObj (OSwDataDefProps p)) [].

(** ** Data definition properties *)
Definition describes_bits (kw : keyword_args) (b : SwBitRepresentation) : Prop :=
  only ["position"; "num_bits"] kw /\ holds means_whole kw "position" (SwBitRepresentation_position b) /\
  holds means_whole kw "num_bits" (SwBitRepresentation_num_bits b).
Definition describes_text_props (kw : keyword_args) (t : SwTextProps) : Prop :=
  only ["array_size_semantics"; "max_text_size"; "base_type_ref"; "fill_char"] kw /\
  holds (is_a OArraySizeSemantics) kw "array_size_semantics" (SwTextProps_array_size_semantics t) /\
  holds means_whole kw "max_text_size" (SwTextProps_max_text_size t) /\
  holds (means_ref [IdentifiableSubTypes_SW_BASE_TYPE]) kw "base_type_ref" (SwTextProps_base_type_ref t) /\
  holds means_whole kw "fill_char" (SwTextProps_fill_char t).
Definition describes_pointer (kw : keyword_args) (p : SwPointerTargetProps) : Prop :=
  only ["target_category"; "sw_data_def_props"; "function_ptr_signature_ref"] kw /\
  holds means_text kw "target_category" (SwPointerTargetProps_target_category p) /\
  holds means_props kw "sw_data_def_props" (SwPointerTargetProps_sw_data_def_props p) /\
  holds (means_ref [IdentifiableSubTypes_BSW_MODULE_ENTRY]) kw "function_ptr_signature_ref" (SwPointerTargetProps_function_ptr_signature_ref p).
Definition describes_conditional (kw : keyword_args) (c : SwDataDefPropsConditional) : Prop :=
  only ["display_presentation"; "step_size"; "annotations"; "sw_addr_method_ref"; "base_type_ref"; "compu_method_ref"; "data_constraint_ref";
        "impl_data_type_ref"; "unit_ref"; "alignment"; "bit_representation"; "calibration_access"; "text_props"; "display_format"; "impl_policy";
        "additional_native_type_qualifier"; "intended_resolution"; "interpolation_method"; "is_virtual"; "ptr_target_props"] kw /\
  holds (is_a ODisplayPresentation) kw "display_presentation" (dd_display_presentation c) /\
  holds means_float kw "step_size" (dd_step_size c) /\
  holds_list (means_objects OAnnotation) kw "annotations" (dd_annotations c) /\
  holds (means_ref [IdentifiableSubTypes_SW_ADDR_METHOD]) kw "sw_addr_method_ref" (dd_sw_addr_method_ref c) /\
  holds means_alignment kw "alignment" (dd_alignment c) /\
  holds (means_ref [IdentifiableSubTypes_SW_BASE_TYPE]) kw "base_type_ref" (dd_base_type_ref c) /\
  holds (is_a OSwBitRepresentation) kw "bit_representation" (dd_bit_representation c) /\
  holds (is_a OSwCalibrationAccess) kw "calibration_access" (dd_calibration_access c) /\
  holds (is_a OSwTextProps) kw "text_props" (dd_text_props c) /\
  holds (means_ref [IdentifiableSubTypes_COMPU_METHOD]) kw "compu_method_ref" (dd_compu_method_ref c) /\
  holds (means_ref [IdentifiableSubTypes_DATA_CONSTR]) kw "data_constraint_ref" (dd_data_constraint_ref c) /\
  holds means_format kw "display_format" (dd_display_format c) /\
  holds (means_ref [IdentifiableSubTypes_IMPLEMENTATION_DATA_TYPE]) kw "impl_data_type_ref" (dd_impl_data_type_ref c) /\
  holds (is_a OSwImplPolicy) kw "impl_policy" (dd_impl_policy c) /\
  holds means_text kw "additional_native_type_qualifier" (dd_additional_native_type_qualifier c) /\
  holds means_number kw "intended_resolution" (dd_intended_resolution c) /\
  holds means_text kw "interpolation_method" (dd_interpolation_method c) /\
  holds means_flag kw "is_virtual" (dd_is_virtual c) /\
  holds (is_a OSwPointerTargetProps) kw "ptr_target_props" (dd_ptr_target_props c) /\
  holds (means_ref [IdentifiableSubTypes_UNIT]) kw "unit_ref" (dd_unit_ref c).

(** ** Data types *)
Definition describes_type (name : string) (kw : keyword_args) (i : identifiable) (props : option SwDataDefProps) : Prop :=
  identity name kw i /\ holds means_props kw "sw_data_def_props" props.
Definition type_arguments : list string := "sw_data_def_props" :: common_arguments.
Definition describes_symbol (name : string) (kw : keyword_args) (s : SymbolProps) : Prop :=
  only ["symbol"] kw /\ SymbolProps_name s = name /\ holds means_text kw "symbol" (SymbolProps_symbol s).
Definition describes_type_element (name : string) (kw : keyword_args) (e : ImplementationDataTypeElement) : Prop :=
  only (["sw_data_def_props"; "array_size"; "array_impl_policy"; "array_size_handling"; "array_size_semantics"; "sub_elements"; "is_optional"] ++ common_arguments) kw /\
  identity name kw (ImplementationDataTypeElement_ident e) /\
  holds means_props kw "sw_data_def_props" (ImplementationDataTypeElement_sw_data_def_props e) /\
  holds means_count kw "array_size" (ImplementationDataTypeElement_array_size e) /\
  holds (is_a OArrayImplPolicy) kw "array_impl_policy" (ImplementationDataTypeElement_array_impl_policy e) /\
  holds (is_a OArraySizeHandling) kw "array_size_handling" (ImplementationDataTypeElement_array_size_handling e) /\
  holds (is_a OArraySizeSemantics) kw "array_size_semantics" (ImplementationDataTypeElement_array_size_semantics e) /\
  holds_list (means_several OImplementationDataTypeElement) kw "sub_elements" (ImplementationDataTypeElement_sub_elements e) /\
  holds means_flag kw "is_optional" (ImplementationDataTypeElement_is_optional e).
Definition describes_implementation_type (name : string) (kw : keyword_args) (t : ImplementationDataType) : Prop :=
  only (["dynamic_array_size_profile"; "is_struct_with_optional_element"; "sub_elements"; "symbol_props"; "type_emitter"] ++ type_arguments) kw /\
  describes_type name kw (ImplementationDataType_ident t) (ImplementationDataType_sw_data_def_props t) /\
  holds means_text kw "dynamic_array_size_profile" (ImplementationDataType_dynamic_array_size_profile t) /\
  holds means_flag kw "is_struct_with_optional_element" (ImplementationDataType_is_struct_with_optional_element t) /\
  holds_list (means_several OImplementationDataTypeElement) kw "sub_elements" (ImplementationDataType_sub_elements t) /\
  holds (is_a OSymbolProps) kw "symbol_props" (ImplementationDataType_symbol_props t) /\
  holds means_text kw "type_emitter" (ImplementationDataType_type_emitter t).
Definition describes_primitive (name : string) (kw : keyword_args) (t : ApplicationPrimitiveDataType) : Prop :=
  only type_arguments kw /\ describes_type name kw (ApplicationPrimitiveDataType_ident t) (ApplicationPrimitiveDataType_sw_data_def_props t).
(** The type of an element: a reference of the class itself, not a text. *)
Definition describes_composite (name : string) (kw : keyword_args) (i : identifiable) (props : option SwDataDefProps) (type : option ref) : Prop :=
  identity name kw i /\ holds means_props kw "sw_data_def_props" props /\ holds (of_class "ApplicationDataTypeRef") kw "type_ref" type.
Definition describes_array_element (name : string) (kw : keyword_args) (e : ApplicationArrayElement) : Prop :=
  only (["max_number_of_elements"; "array_size_handling"; "array_size_semantics"; "index_data_type_ref"; "type_ref"; "sw_data_def_props"] ++ common_arguments) kw /\
  describes_composite name kw (ApplicationArrayElement_ident e) (ApplicationArrayElement_sw_data_def_props e) (ApplicationArrayElement_type_ref e) /\
  holds (is_a OArraySizeHandling) kw "array_size_handling" (ApplicationArrayElement_array_size_handling e) /\
  holds (is_a OArraySizeSemantics) kw "array_size_semantics" (ApplicationArrayElement_array_size_semantics e) /\
  holds means_count kw "max_number_of_elements" (ApplicationArrayElement_max_number_of_elements e) /\
  holds (means_ref [IdentifiableSubTypes_APPLICATION_PRIMITIVE_DATA_TYPE]) kw "index_data_type_ref" (ApplicationArrayElement_index_data_type_ref e).
Definition describes_array (name : string) (kw : keyword_args) (t : ApplicationArrayDataType) : Prop :=
  only (["dynamic_array_size_profile"; "element"] ++ type_arguments) kw /\
  describes_type name kw (ApplicationArrayDataType_ident t) (ApplicationArrayDataType_sw_data_def_props t) /\
  holds means_text kw "dynamic_array_size_profile" (ApplicationArrayDataType_dynamic_array_size_profile t) /\
  holds (is_a OApplicationArrayElement) kw "element" (ApplicationArrayDataType_element t).
Definition describes_record_element (name : string) (kw : keyword_args) (e : ApplicationRecordElement) : Prop :=
  only (["is_optional"; "type_ref"; "sw_data_def_props"] ++ common_arguments) kw /\
  describes_composite name kw (ApplicationRecordElement_ident e) (ApplicationRecordElement_sw_data_def_props e) (ApplicationRecordElement_type_ref e) /\
  holds means_flag kw "is_optional" (ApplicationRecordElement_is_optional e).
(** The elements of a record: one or a list; anything else stands for none. *)
Inductive means_record_elements : arg -> list ApplicationRecordElement -> Prop :=
| record_elements_given a l : means_list (is_a OApplicationRecordElement) a l -> means_record_elements a l
| record_elements_ignored a : (forall e, a <> AObj (OApplicationRecordElement e)) -> (forall l, a <> AList l) -> means_record_elements a [].
Definition describes_record (name : string) (kw : keyword_args) (t : ApplicationRecordDataType) : Prop :=
  only ("elements" :: type_arguments) kw /\
  describes_type name kw (ApplicationRecordDataType_ident t) (ApplicationRecordDataType_sw_data_def_props t) /\
  holds_list means_record_elements kw "elements" (ApplicationRecordDataType_elements t).
Definition describes_mapping_set (name : string) (kw : keyword_args) (s : DataTypeMappingSet) : Prop :=
  only ("data_type_maps" :: common_arguments) kw /\ identity name kw (DataTypeMappingSet_ident s) /\
  holds_list (means_list (is_a ODataTypeMap)) kw "data_type_maps" (DataTypeMappingSet_data_type_maps s).

(** ** Adding *)
Definition record_with (t : ApplicationRecordDataType) (more : list ApplicationRecordElement) (t' : ApplicationRecordDataType) : Prop :=
  ApplicationRecordDataType_elements t' = ApplicationRecordDataType_elements t ++ more /\
  ApplicationRecordDataType_ident t' = ApplicationRecordDataType_ident t /\
  ApplicationRecordDataType_sw_data_def_props t' = ApplicationRecordDataType_sw_data_def_props t.
Definition type_with (t : ImplementationDataType) (e : ImplementationDataTypeElement) (t' : ImplementationDataType) : Prop :=
  ImplementationDataType_sub_elements t' = ImplementationDataType_sub_elements t ++ [e] /\
  ImplementationDataType_ident t' = ImplementationDataType_ident t /\
  ImplementationDataType_sw_data_def_props t' = ImplementationDataType_sw_data_def_props t /\
  ImplementationDataType_dynamic_array_size_profile t' = ImplementationDataType_dynamic_array_size_profile t /\
  ImplementationDataType_is_struct_with_optional_element t' = ImplementationDataType_is_struct_with_optional_element t /\
  ImplementationDataType_symbol_props t' = ImplementationDataType_symbol_props t /\
  ImplementationDataType_type_emitter t' = ImplementationDataType_type_emitter t.
Definition element_with (t e t' : ImplementationDataTypeElement) : Prop :=
  ImplementationDataTypeElement_sub_elements t' = ImplementationDataTypeElement_sub_elements t ++ [e] /\
  ImplementationDataTypeElement_ident t' = ImplementationDataTypeElement_ident t /\
  ImplementationDataTypeElement_sw_data_def_props t' = ImplementationDataTypeElement_sw_data_def_props t /\
  ImplementationDataTypeElement_array_size t' = ImplementationDataTypeElement_array_size t /\
  ImplementationDataTypeElement_array_impl_policy t' = ImplementationDataTypeElement_array_impl_policy t /\
  ImplementationDataTypeElement_array_size_handling t' = ImplementationDataTypeElement_array_size_handling t /\
  ImplementationDataTypeElement_array_size_semantics t' = ImplementationDataTypeElement_array_size_semantics t /\
  ImplementationDataTypeElement_is_optional t' = ImplementationDataTypeElement_is_optional t.

(** ** Units *)
Inductive means_unit_names : arg -> SingleLanguageUnitNames -> Prop :=
| unit_names_object n : means_unit_names (AObj (OUnitNames n)) n
| unit_names_text s : means_unit_names (AStr s) (map (fun c => PText (String c "")) (list_ascii_of_string s)).
(** What a unit is meant to be. *)
Definition describes_unit (name : string) (kw : keyword_args) (u : Unit) : Prop :=
  only (["display_name"; "factor"; "offset"; "physical_dimension_ref"] ++ common_arguments) kw /\
  identity name kw (Unit_ident u) /\ holds means_unit_names kw "display_name" (Unit_display_name u) /\
  holds (fun a r => of_class "PhysicalDimensionRef" a r \/ exists s, a = AStr s /\ r = mkRef s IdentifiableSubTypes_PHYSICAL_DIMENSION)
    kw "physical_dimension_ref" (Unit_physical_dimension_ref u) /\
  holds means_float kw "factor" (Unit_factor u) /\ holds means_float kw "offset" (Unit_offset u).
